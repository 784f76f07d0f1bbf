(** Scales: properties. *)
From Coq Require Import ZArith List Bool Lia QArith.
From Verif Require Import Base TimeModel FTextModel FloatModel FloatProofs2 WghModel WghSpec WghProofs.
Import ListNotations.
Open Scope Z_scope.

(** * C138: scales on a serial module *)

(** With new inputs in every cycle: state and value are those of the last answer that is not idle or waiting,
    the text is asked for after each waiting answer, and the value shown has the correction of zero. *)
Theorem C138_fresh : forall num f0 cz fs, by_text num ->
  let s := cycles num (serial0 f0) (map Some fs) in
  (sst s, sval s) = fold_left (heard num) fs (1, 0) /\ cmd s = fold_left asked fs 0 /\
  serial_value cz s = f_add (snd (fold_left (heard num) fs (1, 0))) cz.
Proof.
  intros num f0 cz fs N. cbv zeta. pose proof (cycles_heard num fs (serial0 f0) N) as H. cbv zeta in H. cbn [sst sval serial0] in H.
  split; [exact H|]. split; [apply (cycles_asked num fs (serial0 f0))|]. unfold serial_value. rewrite <- H. reflexivity.
Qed.
Print Assumptions C138_fresh.

(** If reading of inputs fails for [n] cycles after an answer with a weight, the value is that of the answer only
    for an even number of such cycles; otherwise it is read from bytes in wrong order. The state stays 1. *)
Theorem C138_refuted_stale : forall num s f n, by_text num -> kind f = Weight ->
  let s1 := cycles num s (Some f :: repeat None n) in
  sst s1 = 1 /\ sval s1 = num (if Nat.even n then letter f else fun k => f (6 + k)).
Proof.
  intros num s f n N W. cbv zeta. unfold cycles. cbn [fold_left].
  set (s0 := {| img := f; sst := sst s; sval := sval s; cmd := cmd s |}). change (cycle num s (Some f)) with (cycle num s0 None).
  destruct (stale_many num (S n) s0 N W) as (_ & _ & C). destruct C as [C1 C2]; [discriminate|]. unfold cycles in C1, C2. cbn [repeat fold_left] in C1, C2.
  split; [exact C1|]. rewrite C2. apply N. intros k K. replace (Nat.even (S n)) with (negb (Nat.even n)) by (rewrite Nat.even_succ, <- Nat.negb_even; reflexivity).
  destruct (Nat.even n); cbn [negb img s0]; [apply letters, K|reflexivity].
Qed.
Print Assumptions C138_refuted_stale.

(** Without the channel: the state says so, the inputs stay. *)
Theorem C138_absent : forall num n s, let s1 := Nat.iter (S n) (weigh num false) s in sst s1 = -1 /\ sval s1 = 0 /\ cmd s1 = cmd s /\ img s1 = img s.
Proof.
  intros num n s. cbv zeta. induction n as [|n IH]; [repeat split|]. cbn [Nat.iter] in *.
  destruct IH as (A & B & C & D). change (Nat.iter (S (S n)) (weigh num false) s) with (weigh num false (Nat.iter (S n) (weigh num false) s)).
  cbn [weigh negb sst sval cmd img]. repeat split; assumption.
Qed.
Print Assumptions C138_absent.

(** A simple conversion: digits up to something else. *)
Fixpoint digits (n : nat) (a k : Z) (f : Z -> Z) : Z :=
  match n with O => a | S n' => if (48 <=? f k) && (f k <=? 57) then digits n' (10 * a + (f k - 48)) (k + 1) f else a end.
Definition number (f : Z -> Z) : Z := f_of_Z (digits 8 0 0 f).
Lemma digits_same : forall n a k f g, (forall i, k <= i < k + Z.of_nat n -> f i = g i) -> digits n a k f = digits n a k g.
Proof.
  induction n as [|n IH]; intros a k f g H; [reflexivity|]. cbn [digits]. rewrite (H k) by lia. destruct ((48 <=? g k) && (g k <=? 57)); [|reflexivity].
  apply IH. intros i I. apply H. lia.
Qed.
Lemma number_text : by_text number. Proof. intros f g H. unfold number. rewrite (digits_same 8 0 0 f g); [reflexivity|]. intros i I. apply H. lia. Qed.
Lemma number_unit : before_unit number. Proof. intros f g H _. unfold number. rewrite (digits_same 8 0 0 f g); [reflexivity|]. intros i I. apply H. lia. Qed.
Definition bytes (l : list Z) (k : Z) : Z := nth (Z.to_nat k) l 0.
(** 123456, with the characters of each word exchanged. *)
Definition six : Z -> Z := bytes [8; 0; 43; 0; 0; 0; 50; 49; 52; 51; 54; 53].
Example C138_example :
  (* waiting, then the text: 123456 *)
  (let s := cycles number (serial0 six) (map Some [bytes [1; 0]; six; bytes [0; 0]]) in (sst s, sval s, cmd s) = (1, f_of_Z 123456, 0)) /\
  cmd (cycles number (serial0 six) (map Some [bytes [1; 0]])) = 12288 /\
  (* no plus sign *)
  (let s := cycles number (serial0 six) (map Some [six; bytes [8; 0; 45]]) in (sst s, sval s) = (-1, 0)) /\
  (* one failure to read: 214365 *)
  sval (cycles number (serial0 six) [Some six; None]) = f_of_Z 214365 /\ sval (cycles number (serial0 six) [Some six; None; None]) = f_of_Z 123456.
Proof. vm_compute. repeat split. Qed.

(** * C139: scales on Ethernet *)

(** Whole messages: state and value are those of the messages told so far. *)
Theorem C139_last : forall num f0 ls, before_unit num -> Forall whole ls ->
  let s := receives num (ether0 f0) ls in (est s, eval s) = fold_left (told num) ls (0, 0).
Proof. intros num f0 ls N W. apply (receives_whole num ls (ether0 f0) N W). Qed.
Print Assumptions C139_last.

(** A lost connection is not told: nothing received, for any time, changes nothing. *)
Theorem C139_refuted_lost : forall num f0 ls n, receives num (ether0 f0) (ls ++ repeat [] n) = receives num (ether0 f0) ls.
Proof. intros num f0 ls n. unfold receives. rewrite fold_left_app. apply receives_nothing. Qed.
Print Assumptions C139_refuted_lost.

(** The sign, the first byte, is not looked at. *)
Theorem C139_refuted_sign : forall num f0 ls a b l, before_unit num -> Forall whole ls -> (9 <= length l)%nat ->
  let s := receives num (ether0 f0) (ls ++ [a :: l]) in let t := receives num (ether0 f0) (ls ++ [b :: l]) in (est s, eval s) = (est t, eval t).
Proof.
  intros num f0 ls a b l N W L. cbv zeta. rewrite !(fun q => receives_whole num q (ether0 f0) N).
  - rewrite !fold_left_app. cbn [fold_left]. unfold told, in_kg. cbn [nth].
    destruct ((nth 7 l 0 =? 107) && (nth 8 l 0 =? 103)) eqn:E; [|reflexivity]. f_equal. apply N.
    + intros k K. assert (C : k = 0 \/ k = 1 \/ k = 2 \/ k = 3 \/ k = 4 \/ k = 5 \/ k = 6 \/ k = 7) by lia. destruct C as [->|[->|[->|[->|[->|[->|[->| ->]]]]]]]; reflexivity.
    + apply andb_prop in E. destruct E as [E _]. apply Z.eqb_eq in E. exact E.
  - apply Forall_app. split; [exact W|]. constructor; [|constructor]. unfold whole. cbn [length]. lia.
  - apply Forall_app. split; [exact W|]. constructor; [|constructor]. unfold whole. cbn [length]. lia.
Qed.
Print Assumptions C139_refuted_sign.

(** A part of a message after a whole one gives a valid state; the number is made of both. *)
Theorem C139_refuted_part : forall num f0 ls l q, before_unit num -> whole l -> in_kg l = true -> q <> [] -> (length q <= 8)%nat ->
  let s := receives num (ether0 f0) (ls ++ [l; q]) in
  est s = 1 /\ eval s = num (fun k => if k + 1 <? Z.of_nat (length q) then nth (Z.to_nat (1 + k)) q 0 else nth (Z.to_nat (1 + k)) l 0).
Proof.
  intros num f0 ls l q N W K Q L. cbv zeta. unfold receives. rewrite fold_left_app. cbn [fold_left].
  set (s := fold_left (receive num) ls (ether0 f0)). clearbody s. unfold whole in W. unfold in_kg in K. apply andb_prop in K. destruct K as [K8 K9].
  assert (B : forall k, 0 <= k <= 9 -> ebuf (receive num s l) k = nth (Z.to_nat k) l 0).
  { intros k R. destruct l as [|c l]; [cbn in W; lia|]. unfold receive. cbv zeta. match goal with |- ebuf (if ?x then _ else _) k = _ => destruct x end; cbn [ebuf];
      replace ((0 <=? k) && (k <? Z.of_nat (length (c :: l)))) with true by lia; reflexivity. }
  assert (ER : exists b, (forall k, b k = if (0 <=? k) && (k <? Z.of_nat (length q)) then nth (Z.to_nat k) q 0 else ebuf (receive num s l) k) /\
      receive num (receive num s l) q = if negb (b 8 =? 107) || negb (b 9 =? 103) then {| ebuf := b; est := 0; eval := eval (receive num s l) |} else {| ebuf := b; est := 1; eval := num (fun k => b (1 + k)) |}).
  { exists (fun k => if (0 <=? k) && (k <? Z.of_nat (length q)) then nth (Z.to_nat k) q 0 else ebuf (receive num s l) k). split; [reflexivity|]. destruct q; [congruence|reflexivity]. }
  destruct ER as (b & E & ->). rewrite (E 8), (E 9). replace ((0 <=? 8) && (8 <? Z.of_nat (length q))) with false by lia.
  replace ((0 <=? 9) && (9 <? Z.of_nat (length q))) with false by lia. rewrite !B by lia. change (Z.to_nat 8) with 8%nat. change (Z.to_nat 9) with 9%nat. rewrite K8, K9. cbn [negb orb est eval].
  split; [reflexivity|]. apply N.
  - intros k R. rewrite E. replace ((0 <=? 1 + k) && (1 + k <? Z.of_nat (length q))) with (k + 1 <? Z.of_nat (length q)) by lia.
    destruct (k + 1 <? Z.of_nat (length q)); [reflexivity|]. apply B. lia.
  - rewrite E. replace ((0 <=? 1 + 7) && (1 + 7 <? Z.of_nat (length q))) with false by lia. rewrite B by lia. apply Z.eqb_eq. exact K8.
Qed.
Print Assumptions C139_refuted_part.

(** "+0123456kg", with a minus sign, with another unit, the first five bytes of a message. *)
Definition plus : list Z := [43; 48; 49; 50; 51; 52; 53; 54; 107; 103].
Definition minus : list Z := 45 :: tl plus.
Definition tons : list Z := [43; 48; 48; 48; 48; 48; 48; 57; 107; 116].
Example C139_example :
  (let s := receives number (ether0 (fun _ => 7)) [plus] in (est s, eval s) = (1, f_of_Z 123456)) /\
  (let s := receives number (ether0 (fun _ => 7)) [tons; minus] in (est s, eval s) = (1, f_of_Z 123456)) /\
  (let s := receives number (ether0 (fun _ => 7)) [plus; tons; []] in (est s, eval s) = (0, f_of_Z 123456)) /\
  (let s := receives number (ether0 (fun _ => 7)) [plus; [43; 57; 57; 57; 57]] in (est s, eval s) = (1, f_of_Z 9999456)).
Proof. vm_compute. repeat split. Qed.

(** * C140: strain gauges *)

(** The weight is never not-a-number, whatever the channels and parameters give. *)
Theorem C140_number : forall w p t z es, f_isnan (weight (fold_left (gstep w p) es (gauge0 t z))) = false.
Proof. intros w p t z es. apply (ok_steps w p es (gauge0 t z)), ok_start. Qed.
Print Assumptions C140_number.

(** After a sample nothing changes for 500 ms. *)
Theorem C140_hold : forall w p s rs, 0 <= ft s -> in_time (ft s) rs -> Forall (fun r => now r <= ft s + 500) rs ->
  shown w p s rs = repeat (f_add (weight s) (zero s)) (length rs).
Proof. intros w p s rs. apply between. Qed.
Print Assumptions C140_hold.

(** A reading later than that is a sample: it is shown if it differs by more than P_DT (with P_DT below 1). *)
Theorem C140_sample : forall w p s r, 0 <= ft s -> ft s + 500 < now r -> f_eq 0 (rkp p) = false -> f_eq 0 (uref r) = false -> f_le 0x3F800000 (dt p) = false ->
  f_lt (dt p) (f_mag (f_sub (load p r) (weight s))) = true ->
  weight (fst (get_weight w p r s)) = load p r /\ snd (get_weight w p r s) = f_add (load p r) (zero s) /\ ft (fst (get_weight w p r s)) = now r.
Proof.
  intros w p s r T D R U C L. unfold get_weight.
  assert (E : get_delta_millisec w (now r) (ft s) = now r - ft s).
  { unfold get_delta_millisec. replace (now r <? ft s) with false by lia. replace (ft s <=? now r) with true by lia. reflexivity. }
  rewrite E. replace (500 <? now r - ft s) with true by lia. rewrite R, U, C. cbv zeta. change (f_fabs ?x) with (f_mag x). fold (load p r). rewrite L.
  split; [reflexivity|]. split; reflexivity.
Qed.
Print Assumptions C140_sample.

(** After taring in any history zero is shown as long as the readings stay within P_DT of the tared weight. *)
Theorem C140_tare : forall w p t z es rs, let s := fold_left (gstep w p) es (gauge0 t z) in
  f_eq 0 (rkp p) = false -> f_finite (weight s) = true -> Forall (steady p (weight s)) rs ->
  Forall (fun v => f_eq v 0 = true) (shown w p (gstep w p s Tare) rs).
Proof.
  intros w p t z es rs s R F S. destruct (ok_steps w p es (gauge0 t z) (ok_start p t z)) as [N C]. fold s in N, C.
  assert (H : Forall (fun v => key v = 0 /\ f_isnan v = false) (shown w p (gstep w p s Tare) rs)).
  { apply (tared w p (weight s)); auto. cbn [gstep tare zero]. apply opp_key. }
  eapply Forall_impl; [|exact H]. intros v [V1 V2]. cbv beta in *. apply f_eq_spec. split; [exact V2|]. split; [reflexivity|]. rewrite V1. reflexivity.
Qed.
Print Assumptions C140_tare.

(** An error of the parameters or of the supply is shown in one call only; for the next 500 ms the last weight
    is shown. *)
Theorem C140_refuted_error : forall w p s r rs, 0 <= ft s -> ft s + 500 < now r -> f_eq 0 (rkp p) = true \/ f_eq 0 (uref r) = true ->
  in_time (now r) rs -> Forall (fun q => now q <= now r + 500) rs ->
  exists e, (e = f_of_Z (-1001) \/ e = f_of_Z (-1002)) /\ shown w p s (r :: rs) = e :: repeat (f_add (weight s) (zero s)) (length rs).
Proof.
  intros w p s r rs T D R I F.
  assert (E : get_delta_millisec w (now r) (ft s) = now r - ft s).
  { unfold get_delta_millisec. replace (now r <? ft s) with false by lia. replace (ft s <=? now r) with true by lia. reflexivity. }
  assert (B : shown w p {| weight := weight s; zero := zero s; ft := now r |} rs = repeat (f_add (weight s) (zero s)) (length rs)).
  { apply (between w p rs {| weight := weight s; zero := zero s; ft := now r |}); cbn [ft]; auto; lia. }
  cbn [shown]. unfold get_weight. rewrite E. replace (500 <? now r - ft s) with true by lia.
  destruct (f_eq 0 (rkp p)) eqn:K.
  - exists (f_of_Z (-1001)). split; [left; reflexivity|]. cbn [fst snd]. rewrite B. reflexivity.
  - destruct R as [R|R]; [discriminate|]. rewrite R. exists (f_of_Z (-1002)). split; [right; reflexivity|]. cbn [fst snd]. rewrite B. reflexivity.
Qed.
Print Assumptions C140_refuted_error.

(** 100 kg at 2 mV/V, a supply of 5 V. *)
Definition cell : gauge_par := {| nominal := f_of_Z 100; rkp := f_of_Z 2; dt := f_lit (1 # 2) |}.
Definition coarse : gauge_par := {| nominal := f_of_Z 100; rkp := f_of_Z 2; dt := f_of_Z 1 |}.
Definition rd (t : Z) (u : Q) (v : Z) : reading := {| now := t; ud := f_lit u; uref := f_of_Z v |}.
Example C140_example :
  shown 32 cell (gauge0 0 0) [rd 100 4 5; rd 501 4 5; rd 600 8 5; rd 1002 8 5; rd 1600 (801 # 100) 5] = map f_of_Z [0; 40; 40; 80; 80] /\
  (let s := fold_left (gstep 32 cell) [Read (rd 501 4 5)] (gauge0 0 0) in
   shown 32 cell (gstep 32 cell s Tare) [rd 600 4 5; rd 1002 (404 # 100) 5] = [0; 0] /\ steady cell (weight s) (rd 1002 (404 # 100) 5)) /\
  (let s := fold_left (gstep 32 coarse) [Read (rd 501 (404 # 100) 5)] (gauge0 0 0) in
   weight s = f_of_Z 41 /\ shown 32 coarse (gstep 32 coarse s Tare) [rd 600 4 5; rd 1002 (404 # 100) 5] = [0; 0] /\ steady coarse (weight s) (rd 1002 (404 # 100) 5)) /\
  shown 32 cell (gauge0 0 0) [rd 501 4 5; rd 1002 4 0; rd 1010 4 0; rd 1500 4 0] = map f_of_Z [40; -1002; 40; 40].
Proof. vm_compute. repeat split. Qed.
