(** Properties C100 to C104: valves on AS-interface gateways and pneumatic terminals. *)
From Coq Require Import ZArith List Bool Lia.
From Verif Require Import Base TimeModel BusModel BusSpec BusProofs BusProofs2 BusProofs3.
Import ListNotations.
Open Scope Z_scope.

(** * Valves for examples *)

Definition calm (T : Z) : din := {| di0 := false; di1 := false; ain := fun _ => 0; p_time := T; p_fb := true; link := 0 |}.
Definition at_t (t : Z) : env := {| now := t; ins := fun _ => calm 1000 |}.
(** Gateway at byte 100, its inputs at byte 200; terminal at byte 150. *)
Definition as_mix (n : Z) : conf := {| kind := AsMix; ch := fun _ => Some 100; num := fun _ => n; ai := Some 200; rev := false |}.
Definition as_cut (n : Z) : conf := {| kind := AsCut; ch := fun _ => Some 100; num := fun _ => n; ai := Some 200; rev := false |}.
Definition term (k : cls) (a b c : Z) : conf :=
  {| kind := k; ch := fun _ => Some 150; num := fun i => if i =? 0 then a else if i =? 1 then b else c; ai := None; rev := false |}.
Definition park (d : Z) : conf :=
  if d =? 1 then as_mix 3 else if d =? 2 then as_cut 4 else if d =? 3 then as_cut 35
  else if d =? 4 then term T3two 1 2 9 else term T1on 3 0 0.
Definition all5 : list Z := [1; 2; 3; 4; 5].

Lemma park_good : forall e, In e all5 -> good (park e).
Proof.
  intros e [<-|[<-|[<-|[<-|[<-|[]]]]]]; unfold good; cbn; try (split; [discriminate|lia]).
  - split.
    + intros i [<-|[<-|[<-|[]]]]; cbn; (split; [discriminate|lia]).
    + intros i j [<-|[<-|[<-|[]]]] [<-|[<-|[<-|[]]]] E; try reflexivity; vm_compute in E; discriminate E.
  - split.
    + intros i [<-|[]]; cbn; (split; [discriminate|lia]).
    + intros i j [<-|[]] [<-|[]] E; reflexivity.
Qed.
Lemma park_apart : apart park all5.
Proof.
  assert (Q : forall d, In d all5 -> forall x, owns (park d) x ->
    (d = 1 /\ fst x = 109 /\ 0 <= snd x < 4) \/ (d = 2 /\ fst x = 110 /\ 4 <= snd x < 8) \/ (d = 3 /\ fst x = 126 /\ 4 <= snd x < 8) \/
    (d = 4 /\ (x = (150, 0) \/ x = (150, 1) \/ x = (151, 0))) \/ (d = 5 /\ x = (150, 2))).
  { intros d [<-|[<-|[<-|[<-|[<-|[]]]]]] x O; unfold owns in O; cbn in O.
    - destruct O. left. repeat split; tauto.
    - destruct O. right. left. repeat split; tauto.
    - destruct O. right. right. left. repeat split; tauto.
    - destruct O as (i & [<-|[<-|[<-|[]]]] & ->); right; right; right; left; (split; [reflexivity|]); vm_compute; tauto.
    - destruct O as (i & [<-|[]] & ->). right. right. right. right. split; reflexivity. }
  intros d e x Hd He O1 O2. apply (Q d Hd) in O1. apply (Q e He) in O2.
  destruct O1 as [(-> & ? & ?)|[(-> & ? & ?)|[(-> & ? & ?)|[(-> & ?)|(-> & ?)]]]];
  destruct O2 as [(-> & ? & ?)|[(-> & ? & ?)|[(-> & ? & ?)|[(-> & ?)|(-> & ?)]]]]; try reflexivity; exfalso;
  repeat match goal with H : _ \/ _ |- _ => destruct H | H : x = _ |- _ => subst x end; cbn in *; try lia; congruence.
Qed.

(** * C100: each solenoid follows the orders of its own valve *)

(** Any number of valves whose bits do not overlap, any history of orders to them: no crash,
    every solenoid is as the last order of its own valve asks for, every bit of no valve is
    still off. *)
Theorem C100_follow : forall w K D t0 l,
  (forall e, In e D -> good (K e)) -> apart K D -> 0 <= t0 -> timely w t0 l -> within D l ->
  exists p, run w K (start t0) l = Some p /\
    (forall d i, In d D -> In i (sols (K d)) -> bit (W p) (sol (K d) i) = lit (asked (past_of (K d) d t0 l)) i) /\
    (forall x, 0 <= snd x < 8 -> (forall d, In d D -> ~ owns (K d) x) -> bit (W p) x = false).
Proof.
  intros w K D t0 l HG HA H0 T WI. destruct (history w K D t0 l HG HA H0 T WI) as (p & E & I).
  exists p. split; [exact E|]. split.
  - intros d i Hd Hi. exact (v_own _ _ _ _ _ (i_v _ _ _ _ I d Hd) i Hi).
  - intros x X N. apply (i_out _ _ _ _ I). split; assumption.
Qed.
(** So never more than one solenoid of a valve is on. *)
Theorem C100_one : forall w K D t0 l p d i j,
  (forall e, In e D -> good (K e)) -> apart K D -> 0 <= t0 -> timely w t0 l -> within D l ->
  run w K (start t0) l = Some p -> In d D -> In i (sols (K d)) -> In j (sols (K d)) ->
  bit (W p) (sol (K d) i) = true -> bit (W p) (sol (K d) j) = true -> i = j.
Proof.
  intros w K D t0 l p d i j HG HA H0 T WI E Hd Hi Hj. destruct (C100_follow w K D t0 l HG HA H0 T WI) as (p' & E' & F & _).
  assert (p' = p) by congruence. subst p'. rewrite !F by assumption.
  destruct (asked _); cbn; intros A B; try discriminate; lia.
Qed.
(** What is sent is what the orders before asked for. *)
Theorem C100_sent : forall w K D t0 l E,
  (forall e, In e D -> good (K e)) -> apart K D -> 0 <= t0 -> timely w t0 (l ++ [(Sent, E)]) -> within D l ->
  exists p, run w K (start t0) (l ++ [(Sent, E)]) = Some p /\
    forall d i, In d D -> In i (sols (K d)) -> bit (R p) (sol (K d) i) = lit (asked (past_of (K d) d t0 l)) i.
Proof.
  intros w K D t0 l E HG HA H0 T WI.
  assert (T1 : timely w t0 l) by (clear - T; revert t0 T; induction l as [|x l IH]; intros t0 T; [exact I|]; destruct T; split; [assumption|apply IH; assumption]).
  destruct (C100_follow w K D t0 l HG HA H0 T1 WI) as (p & EQ & F & _).
  assert (R : forall l p0, run w K p0 (l ++ [(Sent, E)]) = match run w K p0 l with None => None | Some p => Some {| W := W p; R := W p; vs := vs p |} end).
  { clear. induction l as [|x l IH]; intros p0; [reflexivity|]. cbn [app run]. destruct (step w K p0 x); [apply IH|reflexivity]. }
  rewrite R, EQ. eexists. split; [reflexivity|]. cbn [BusModel.R]. exact F.
Qed.
(** Valves of one gateway with different numbers have no common bits. *)
Theorem C100_numbers : forall a b x, gateway a = true -> gateway b = true -> base a 0 = base b 0 ->
  0 <= num a 0 -> 0 <= num b 0 -> owns a x -> owns b x -> num a 0 = num b 0.
Proof.
  intros a b x GA GB BE NA NB OA OB. unfold owns in OA, OB. rewrite GA in OA. rewrite GB in OB. destruct OA as (A1 & A2), OB as (B1 & B2).
  rewrite BE in A1. assert (E : half (num a 0) / 2 = half (num b 0) / 2) by lia. clear A1 B1.
  assert (P : lowest (num a 0) = lowest (num b 0)).
  { unfold lowest in *. destruct (Z.even (half (num a 0))), (Z.even (half (num b 0))); lia. }
  assert (PE : Z.even (half (num a 0)) = Z.even (half (num b 0))).
  { unfold lowest in P. destruct (Z.even (half (num a 0))), (Z.even (half (num b 0))); congruence || lia. }
  rewrite !Zeven_mod in PE. pose proof (Z.div_mod (half (num a 0)) 2 ltac:(lia)). pose proof (Z.div_mod (half (num b 0)) 2 ltac:(lia)).
  pose proof (Z.mod_pos_bound (half (num a 0)) 2 ltac:(lia)). pose proof (Z.mod_pos_bound (half (num b 0)) 2 ltac:(lia)).
  assert (M : half (num a 0) mod 2 = half (num b 0) mod 2).
  { unfold Zeq_bool in PE. destruct (half (num a 0) mod 2 ?= 0) eqn:C1; destruct (half (num b 0) mod 2 ?= 0) eqn:C2; try discriminate;
    rewrite ?Z.compare_eq_iff, ?Z.compare_lt_iff, ?Z.compare_gt_iff in *; lia. }
  assert (HH : half (num a 0) = half (num b 0)) by lia. unfold half in HH.
  destruct (Z.ltb_spec (num a 0) 32), (Z.ltb_spec (num b 0) 32); lia.
Qed.
Print Assumptions C100_follow.
Print Assumptions C100_one.
Print Assumptions C100_sent.
Print Assumptions C100_numbers.
Example C100_example :
  option_map (fun p => map (fun x => bit (W p) x) [sol (park 1) 0; sol (park 1) 1; sol (park 2) 0; sol (park 3) 0; sol (park 4) 0; sol (park 4) 2; sol (park 5) 0])
   (run 64 park (start 0) [(On 1, at_t 1); (On 2, at_t 2); (Set_ 3 1, at_t 3); (On 4, at_t 3); (Seat 1 true, at_t 4); (Instant 2, at_t 5);
                           (Seat 4 false, at_t 6); (Man 5 1, at_t 7); (On 5, at_t 8); (Cmd 5 1, at_t 9)])
  = Some [false; true; false; true; false; true; true].
Proof. vm_compute. reflexivity. Qed.
Example C100_bytes :
  option_map (fun p => map (W p) [109; 110; 126; 150; 151])
   (run 64 park (start 0) [(On 1, at_t 1); (On 2, at_t 2); (On 3, at_t 3); (On 4, at_t 3); (On 5, at_t 3)])
  = Some [2; 32; 32; 5; 0].
Proof. vm_compute. reflexivity. Qed.

(** * C101: the state reported *)

Theorem C101_report : forall w K D t0 l p d t i,
  (forall e, In e D -> good (K e)) -> apart K D -> 0 <= t0 -> timely w t0 l -> within D l ->
  run w K (start t0) l = Some p -> In d D -> t0 <= t -> (forall x, In x l -> now (snd x) <= t) ->
  fst (get_state w (K d) t i (R p) (vs p d)) = report (K d) i t (past_of (K d) d t0 l).
Proof.
  intros w K D t0 l p d t i HG HA H0 T WI E Hd Ht HL. destruct (history w K D t0 l HG HA H0 T WI) as (p' & E' & I).
  assert (p' = p) by congruence. subst p'. apply (reported (K d) w (W p)); [apply HG; assumption|apply (i_v _ _ _ _ I d Hd)|].
  apply (timely_ok w t0 l (K d) d (fresh t0) T); [unfold past_ok; cbn; lia|assumption|assumption].
Qed.
(** An error is reported only if the feedback is wrong and the time has passed; never
    for an open seat, never without feedback. *)
Theorem C101_errors : forall w K D t0 l p d t i,
  (forall e, In e D -> good (K e)) -> apart K D -> 0 <= t0 -> timely w t0 l -> within D l ->
  run w K (start t0) l = Some p -> In d D -> t0 <= t -> (forall x, In x l -> now (snd x) <= t) -> link i = 0 ->
  let q := past_of (K d) d t0 l in
  fst (get_state w (K d) t i (R p) (vs p d)) < 0 <->
  feedback (K d) = true /\ p_fb i = true /\ is_seat (shown (K d) q) = false /\ agrees (K d) i (shown (K d) q) = false /\
  p_time i < t - since q /\ (kind (K d) = AsCut -> p_time i <= t - seen q).
Proof.
  intros w K D t0 l p d t i HG HA H0 T WI E Hd Ht HL L. cbv zeta.
  rewrite (C101_report w K D t0 l p d t i HG HA H0 T WI E Hd Ht HL). set (q := past_of (K d) d t0 l).
  unfold report. rewrite L. cbn [Z.eqb negb]. rewrite andb_false_r. unfold judge.
  destruct (is_seat (shown (K d) q)) eqn:IS.
  { split; [|intros (_ & _ & X & _); discriminate X]. match goal with |- code _ _ ?v < 0 -> _ => generalize v end.
    intros v. unfold code. destruct (shown (K d) q); try discriminate IS; destruct v, (held q); lia. }
  assert (CN : forall v, code (shown (K d) q) (held q) v < 0 <-> v = Wrong).
  { intros v. unfold code. destruct (shown (K d) q), v, (held q); try discriminate IS; split; intros; try lia; try reflexivity; discriminate. }
  rewrite CN. destruct (feedback (K d)); [|split; [discriminate|intros (X & _); discriminate X]].
  destruct (p_fb i); [|split; [discriminate|intros (_ & X & _); discriminate X]].
  destruct (agrees (K d) i (shown (K d) q)); cbn [orb]; [split; [discriminate|intros (_ & _ & _ & X & _); discriminate X]|].
  destruct (Z.ltb_spec (t - since q) (p_time i)) as [A|A]; cbn [orb]; [split; [discriminate|intros (_ & _ & _ & _ & X & _); lia]|].
  destruct (kind (K d)) eqn:EK; (destruct (Z.eqb_spec (t - since q) (p_time i)) as [B|B];
     [try (split; [discriminate|intros (_ & _ & _ & _ & X & _); lia])|try (split; [intros _; repeat split; try lia; discriminate|reflexivity])]).
  - split; [destruct (t - seen q <? p_time i); discriminate|intros (_ & _ & _ & _ & X & _); lia].
  - destruct (Z.ltb_spec (t - seen q) (p_time i)); split; try discriminate.
    + intros (_ & _ & _ & _ & _ & X). specialize (X eq_refl). lia.
    + intros _. repeat split; try lia.
    + reflexivity.
Qed.
(** The questions [is_opened] and [is_closed]: the open and the closed sensor, whatever was
    ordered; false for ever without the sensor. *)
Theorem C101_questions : forall c i, good c ->
  on_fb c i = match kind c with AsMix | AsCut => sensor c i 1 | T1on | T1two | T3two => di0 i | T1 | T3 | T1off => false end /\
  off_fb c i = match kind c with AsMix | AsCut => sensor c i 0 | T1off => di0 i | T1two | T3two => di1 i | T1 | T3 | T1on => false end.
Proof.
  intros c i H. pose proof (sensor_has c i) as SH. unfold gateway in SH. unfold on_fb, off_fb.
  destruct (kind c); try (split; reflexivity); (destruct (SH eq_refl H) as (A & B); split; assumption).
Qed.
Print Assumptions C101_questions.
Print Assumptions C101_report.
Print Assumptions C101_errors.
Example C101_example :
  let h := [(On 1, at_t 10); (On 4, at_t 10)] in
  let r l d t := option_map (fun p => fst (get_state 64 (park d) t (calm 1000) (R p) (vs p d))) (run 64 park (start 0) l) in
  (map (r h 4) [500; 1010; 1011], r h 1 500, r (h ++ [(Sent, at_t 20)]) 1 500, r (h ++ [(Sent, at_t 20)]) 1 1011, r (h ++ [(Man 4 1, at_t 20)]) 4 1011)
  = ([Some 1; Some 40; Some (-2)], Some 0, Some 1, Some (-2), Some (-12)).
Proof. vm_compute. reflexivity. Qed.

(** * C102: a valve that does not move is found *)

(** [l2]: the order to open is repeated any number of times, other valves get any
    orders, the state is read any number of times and the feedback never agrees. *)
Definition repeats (c : conf) (d : Z) (x : order * env) : Prop :=
  match fst x with
  | On _ => True
  | Set_ y n | Cmd y n => y = d -> n = 1
  | Instant y | Man y _ | Seat y _ => y <> d
  | Poll y => y = d -> agrees c (ins (snd x) d) Open = false
  | Sent => True
  end.
Lemma repeated c d l p t : good c -> asked p = Open -> (gateway c = true -> gone p = Open) -> held p = false -> since p = t ->
  Forall (repeats c d) l -> let q := fold_left (note c d) l p in
  asked q = Open /\ (gateway c = true -> gone q = Open) /\ held q = false /\ since q = t /\ seen q = seen p.
Proof.
  intros HG. revert p. induction l as [|x l IH]; intros p A G H S F; cbn [fold_left]; [repeat split; assumption|].
  inversion F as [|? ? F1 F2]; subst. specialize (IH (note c d p x)).
  assert (AS : asks c (held p) d (fst x) = None \/ asks c (held p) d (fst x) = Some Open).
  { assert (M1 : meaning c 1 = Some Open) by (unfold meaning; cbn; rewrite !andb_false_r; reflexivity).
    unfold repeats in F1. destruct (fst x) as [y|y|y n|y u|y n|y n|y| ]; cbn; rewrite ?H; cbn [negb]; rewrite ?andb_true_r; try (left; reflexivity);
    destruct (Z.eqb_spec y d) as [e|e]; try (left; reflexivity); try (right; reflexivity); try contradiction; rewrite (F1 e); right; exact M1. }
  assert (SH : shown c p = Open) by (unfold shown; destruct (gateway c); auto).
  assert (LK : looks c d x p = false).
  { unfold looks. unfold repeats in F1. destruct (fst x); try reflexivity. cbv zeta. rewrite SH.
    destruct (Z.eqb_spec d0 d); [|reflexivity]. rewrite F1 by assumption. apply andb_false_r. }
  assert (Q : asked (note c d p x) = Open /\ (gateway c = true -> gone (note c d p x) = Open) /\ held (note c d p x) = false /\ since (note c d p x) = since p /\ seen (note c d p x) = seen p).
  { unfold note. rewrite LK, andb_false_r. cbn [asked gone held since seen]. repeat split.
    - destruct AS as [-> | ->]; [exact A|reflexivity].
    - intros GG. destruct (fst x); auto.
    - unfold repeats in F1. destruct (fst x); cbn; try exact H. destruct (Z.eqb_spec d0 d); [contradiction|exact H].
    - destruct AS as [-> | ->]; [reflexivity|]. rewrite A. reflexivity. }
  destruct Q as (Q1 & Q2 & Q3 & Q4 & Q5). specialize (IH Q1 Q2 Q3 ltac:(congruence) F2). cbv zeta in IH.
  destruct IH as (I1 & I2 & I3 & I4 & I5). repeat split; try assumption; congruence.
Qed.
Theorem C102_stuck : forall w K D t0 l1 E1 E2 l2 d p t i,
  (forall e, In e D -> good (K e)) -> apart K D -> 0 <= t0 ->
  let l := l1 ++ (On d, E1) :: (Sent, E2) :: l2 in
  timely w t0 l -> within D l -> In d D ->
  asked (past_of (K d) d t0 l1) <> Open -> held (past_of (K d) d t0 l1) = false ->
  Forall (repeats (K d) d) l2 ->
  run w K (start t0) l = Some p -> (forall x, In x l -> now (snd x) <= t) ->
  feedback (K d) = true -> p_fb i = true -> link i = 0 -> agrees (K d) i Open = false -> 0 <= p_time i < t - now E1 ->
  fst (get_state w (K d) t i (R p) (vs p d)) = -2.
Proof.
  intros w K D t0 l1 E1 E2 l2 d p t i HG HA H0 l T WI Hd NO NH F RU HT FB PF LI AG PT.
  assert (T0 : t0 <= now E1 /\ seen (past_of (K d) d t0 l1) <= now E1).
  { assert (G : forall l1 t0, (forall p0, seen p0 <= t0 -> timely w t0 (l1 ++ (On d, E1) :: (Sent, E2) :: l2) -> t0 <= now E1 /\ seen (fold_left (note (K d) d) l1 p0) <= now E1)).
    { clear. induction l1 as [|x l1 IH]; intros t0 p0 SP T.
      - destruct T as (T & _). cbn [fst snd] in T. cbn [fold_left]. lia.
      - destruct T as (T1 & T2). cbn [fold_left]. destruct (IH (now (snd x)) (note (K d) d p0 x)) as (A & B); [|exact T2|].
        + unfold note. cbn [seen]. destruct (looks _ _ _ _); lia.
        + split; [lia|exact B]. }
    apply (G l1 t0 (fresh t0)); [cbn; lia|exact T]. }
  assert (HE : now E1 <= t) by (apply (HT (On d, E1)); unfold l; apply in_or_app; right; left; reflexivity).
  rewrite (C101_report w K D t0 l p d t i HG HA H0 T WI RU Hd ltac:(lia) HT).
  unfold past_of, l. rewrite fold_left_app. cbn [fold_left]. change (fold_left (note (K d) d) l1 (fresh t0)) with (past_of (K d) d t0 l1).
  set (p1 := past_of (K d) d t0 l1) in *. set (p2 := note (K d) d (note (K d) d p1 (On d, E1)) (Sent, E2)).
  assert (A : asks (K d) (held p1) d (On d) = Some Open) by (cbn; rewrite Z.eqb_refl, NH; reflexivity).
  assert (P2 : asked p2 = Open /\ gone p2 = Open /\ held p2 = false /\ since p2 = now E1 /\ seen p2 = seen p1).
  { unfold p2. unfold note at 1 3 5 7 9. cbn [fst snd asked gone held since seen asks looks held1]. rewrite andb_false_r. cbn [orb].
    unfold note. cbn [fst snd]. rewrite A. cbn [asked gone held since seen looks held1 fst snd]. repeat split; [exact NH|].
    cbn [restarts]. destruct (asked p1); try reflexivity. congruence. }
  destruct P2 as (Q1 & Q2 & Q3 & Q4 & Q5).
  destruct (repeated (K d) d l2 p2 (now E1) (HG d Hd) Q1 (fun _ => Q2) Q3 Q4 F) as (R1 & R2 & R3 & R4 & R5).
  set (q := fold_left (note (K d) d) l2 p2) in *.
  assert (SH : shown (K d) q = Open) by (unfold shown; destruct (gateway (K d)); auto).
  unfold report. rewrite LI. cbn [Z.eqb negb]. rewrite andb_false_r. rewrite SH, R3. unfold judge. rewrite FB, PF, SH, AG, R4. cbn [orb].
  replace (t - now E1 <? p_time i) with false by lia.
  replace (match kind (K d) with AsCut => t - seen q <? p_time i | _ => false end) with false by (destruct (kind (K d)); try reflexivity; lia).
  cbn [orb]. replace (t - now E1 =? p_time i) with false by lia. reflexivity.
Qed.
Print Assumptions C102_stuck.
Example C102_example :
  let h := [(On 1, at_t 10); (Sent, at_t 11); (On 1, at_t 400); (On 2, at_t 401); (Poll 1, at_t 900); (On 1, at_t 1000)] in
  option_map (fun p => map (fun t => fst (get_state 64 (park 1) t (calm 1000) (R p) (vs p 1))) [1009; 1011]) (run 64 park (start 0) h) = Some [1; -2].
Proof. vm_compute. reflexivity. Qed.

(** * C103: valves without channels *)

(** A terminal valve never crashes the program, whatever its settings. *)
Theorem C103_terminal_safe : forall w K t0 l, (forall d, gateway (K d) = false) -> run w K (start t0) l <> None.
Proof.
  intros w K t0 l HK. generalize (start t0). induction l as [|x l IH]; intros p; cbn [run]; [discriminate|].
  assert (S : step w K p x <> None).
  { assert (U : forall d r, r <> None -> upd_o p d r <> None) by (intros d [r|] R; [discriminate|congruence]).
    assert (D : forall d n m s, direct_set_state (K d) (now (snd x)) n m s <> None).
    { intros d n m s. pose proof (HK d) as G. unfold gateway in G. unfold direct_set_state, direct_on, direct_off. destruct (kind (K d)); try discriminate G;
      cbn [is_as]; repeat match goal with |- context [if ?b then _ else _] => destruct b end; discriminate. }
    destruct x as (o, E). cbn [snd] in *. destruct o; unfold step; cbn [fst snd]; cbv zeta; try discriminate; try (destruct (man (vs p d)); [discriminate|]).
    - pose proof (HK d) as G. unfold gateway in G. unfold direct_on. destruct (kind (K d)); try discriminate G; discriminate.
    - pose proof (HK d) as G. unfold gateway in G. unfold direct_off. destruct (kind (K d)); try discriminate G; discriminate.
    - apply U. apply D.
    - apply U. unfold open_seat. destruct (kind (K d)); try apply D; discriminate.
    - apply U. apply D.
    - destruct (n =? 0); [discriminate|]. destruct (n =? 1); discriminate. }
  destruct (step w K p x); [apply IH|congruence].
Qed.
(** One with a channel or a number missing changes no bit. *)
Theorem C103_terminal_unset : forall w K p d n i o E, gateway (K d) = false ->
  In i (sols (K d)) -> ch (K d) i = None \/ num (K d) i <= 0 -> In o [On d; Instant d; Set_ d n; Seat d true; Seat d false; Cmd d n] ->
  exists p', step w K p (o, E) = Some p' /\ (forall a, W p' a = W p a) /\ (forall a, R p' a = R p a).
Proof.
  intros w K p d n i o E G Hi HN Ho.
  assert (C : check (K d) = false).
  { unfold check. apply not_true_iff_false. intros H. rewrite forallb_forall in H. specialize (H i).
    rewrite outs_sols in H by assumption. specialize (H Hi). destruct (ch (K d) i); destruct HN; try discriminate; lia. }
  assert (ON : forall t m s, direct_on (K d) t m s = Some (m, s)).
  { intros. unfold direct_on, t_on. rewrite C. unfold gateway in G. destruct (kind (K d)); try discriminate G; reflexivity. }
  assert (OFF : forall t m s, direct_off (K d) t m s = Some (m, s)).
  { intros. unfold direct_off, t_off. rewrite C. unfold gateway in G. destruct (kind (K d)); try discriminate G; reflexivity. }
  assert (SET : forall k t m s, direct_set_state (K d) t k m s = Some (m, s)).
  { intros k t m s. unfold direct_set_state. rewrite !ON, !OFF. unfold t_upper, t_lower. rewrite C. unfold gateway in G.
    destruct (kind (K d)); try discriminate G; repeat match goal with |- context [if ?b then _ else _] => destruct b end; reflexivity. }
  assert (SEAT : forall u t m s, open_seat (K d) u t m s = Some (m, s)).
  { intros u t m s. unfold open_seat. destruct (kind (K d)); try apply SET; reflexivity. }
  unfold step. destruct Ho as [<-|[<-|[<-|[<-|[<-|[<-|[]]]]]]]; cbn [fst snd]; cbv zeta;
    rewrite ?ON, ?OFF, ?SET, ?SEAT; repeat match goal with |- context [if ?b then _ else _] => destruct b end; (eexists; split; [reflexivity|]; split; reflexivity).
Qed.
(** A gateway valve without its output channel crashes the program with the first order
    to open or to close. *)
Theorem C103_gateway_crash : forall w K p d n E, gateway (K d) = true -> ch (K d) 0 = None ->
  (man (vs p d) = false -> step w K p (On d, E) = None /\ step w K p (Instant d, E) = None) /\
  (n = 0 \/ n = 1 -> step w K p (Cmd d n, E) = None).
Proof.
  intros w K p d n E G C. unfold step. cbn [fst snd]. cbv zeta. unfold direct_set_state, direct_on, direct_off, as_on, as_off. rewrite C.
  split; [intros M; rewrite M|]; unfold gateway in G; destruct (kind (K d)); try discriminate G; cbn [is_as]; try (split; reflexivity); intros [-> | ->]; reflexivity.
Qed.
Print Assumptions C103_terminal_safe.
Print Assumptions C103_terminal_unset.
Print Assumptions C103_gateway_crash.
Example C103_example :
  let bare k := {| kind := k; ch := fun _ => None; num := fun _ => 1; ai := None; rev := false |} in
  (option_map (fun p => map (W p) [0; 1; 8]) (run 64 (fun _ => bare T3) (start 0) [(On 1, at_t 1); (Seat 1 true, at_t 2)]),
   option_map (fun p => map (W p) [0; 1; 8]) (run 64 (fun _ => bare AsMix) (start 0) [(On 1, at_t 1)]))
  = (Some [0; 0; 0], None).
Proof. vm_compute. reflexivity. Qed.

(** * C104: numbers that are not checked *)

(** With an AS number from 0 to 62 only the bytes 8 to 39 of the gateway are reached. *)
Theorem C104_gateway_bytes : forall c x, gateway c = true -> 0 <= num c 0 <= 62 -> owns c x ->
  base c 0 + 8 <= fst x <= base c 0 + 39 /\ 0 <= snd x < 8.
Proof.
  intros c x G N O. unfold owns in O. rewrite G in O. destruct O as (O1 & O2).
  assert (H : 16 <= half (num c 0) <= 79) by (unfold half; destruct (Z.ltb_spec (num c 0) 32); lia).
  split; [|unfold lowest in O2; destruct (Z.even _); lia].
  assert (16 / 2 <= half (num c 0) / 2) by (apply Z.div_le_mono; lia).
  assert (half (num c 0) / 2 <= 79 / 2) by (apply Z.div_le_mono; lia).
  change (16 / 2) with 8 in *. change (79 / 2) with 39 in *. lia.
Qed.
(** A greater one reaches the bytes behind: the order to open then switches on a bit of
    byte 40 or of a later one. *)
Theorem C104_number_refuted : forall w K p d E, gateway (K d) = true -> good (K d) -> 63 <= num (K d) 0 ->
  man (vs p d) = false ->
  exists p', step w K p (On d, E) = Some p' /\ exists a k, base (K d) 0 + 40 <= a /\ bit (W p') (a, k) = true.
Proof.
  intros w K p d E G H N M. unfold step. cbn [fst snd]. cbv zeta. rewrite M. unfold direct_on. rewrite is_as_gateway, G.
  destruct (as_on_bits (K d) (now E) (W p) (vs p d) G H) as (m' & EQ & B).
  rewrite EQ. eexists. split; [reflexivity|]. exists (base (K d) 0 + half (num (K d) 0) / 2), (lowest (num (K d) 0) + 1).
  assert (HB : 80 / 2 <= half (num (K d) 0) / 2).
  { apply Z.div_le_mono; [lia|]. unfold half. destruct (Z.ltb_spec (num (K d) 0) 32); lia. }
  change (80 / 2) with 40 in HB. split; [lia|]. cbn [upd W fst].
  assert (LO : lowest (num (K d) 0) = 0 \/ lowest (num (K d) 0) = 4) by (unfold lowest; destruct (Z.even _); auto).
  rewrite B by lia. unfold mine. rewrite Z.eqb_refl.
  match goal with |- (if ?b then _ else _) = true => replace b with true by lia end.
  replace (lowest (num (K d) 0) + 1 =? lowest (num (K d) 0)) with false by lia. apply Z.eqb_refl.
Qed.
(** A mixproof valve on a terminal whose main number is also the number of a seat is never
    opened by the order to open, though it is shown open. *)
Theorem C104_same_number_refuted : forall w K p d E, kind (K d) = T3 ->
  (forall i, In i (sols (K d)) -> ch (K d) i <> None /\ 1 <= num (K d) i) ->
  ch (K d) 0 = ch (K d) 1 -> num (K d) 0 = num (K d) 1 -> man (vs p d) = false ->
  exists p', step w K p (On d, E) = Some p' /\ bit (W p') (sol (K d) 0) = false /\
    forall t i, link i = 0 -> fst (get_state w (K d) t i (R p') (vs p' d)) = 1.
Proof.
  intros w K p d E KD CH C N M.
  assert (CK : check (K d) = true).
  { unfold check. apply forallb_forall. intros i Hi. rewrite outs_sols in Hi by (unfold gateway; rewrite KD; reflexivity). destruct (CH i Hi).
    destruct (ch (K d) i); [lia|congruence]. }
  unfold step. cbn [fst snd]. cbv zeta. rewrite M. unfold direct_on. rewrite KD. cbn [is_as].
  unfold t_on. rewrite CK. unfold outs. rewrite KD. cbn [tl fold_left].
  eexists. split; [reflexivity|].
  assert (B0 : exists b, ch (K d) 0 = Some b).
  { unfold check, outs in CK. rewrite KD in CK. cbn in CK. destruct (ch (K d) 0) as [b|]; [exists b; reflexivity|discriminate]. }
  destruct B0 as (b & B0). split.
  - cbn [upd W fst]. unfold sol, gateway. rewrite KD. unfold bit, base. cbn [fst snd]. rewrite B0.
    assert (X : forall m, Z.testbit (reset_bit (K d) m 1 (b + (num (K d) 0 - 1) / 8)) ((num (K d) 0 - 1) mod 8) = false).
    { intros m. unfold reset_bit. rewrite <- C, B0, <- N. unfold put. rewrite Z.eqb_refl.
      pose proof (Z.mod_pos_bound (num (K d) 0 - 1) 8 ltac:(lia)).
      rewrite Z.land_spec, Z.lnot_spec, Z.shiftl_spec by lia. rewrite Z.sub_diag. cbn. apply andb_false_r. }
    assert (Y : forall m a k, 0 <= k -> Z.testbit (m a) k = false -> Z.testbit (reset_bit (K d) m 2 a) k = false).
    { intros m a k Hk Z0. unfold reset_bit. destruct (ch (K d) 2); [|exact Z0]. unfold put. destruct (Z.eqb_spec a (z + (num (K d) 2 - 1) / 8)) as [<-|]; [|exact Z0].
      rewrite Z.land_spec, Z0. reflexivity. }
    apply Y; [apply Z.mod_pos_bound; lia|apply X].
  - intros t i L. unfold get_state. cbv zeta. unfold valve_state, has_fb. rewrite upd_vs, Z.eqb_refl. rewrite KD. cbn [is_as negb snd andb].
    rewrite L. cbn. destruct (st (vs p d) =? 1); cbn [wst wt man]; rewrite M; reflexivity.
Qed.
(** A state number nobody defined opens a valve. *)
Theorem C104_unknown_state_refuted : forall w K D t0 l E n d,
  (forall e, In e D -> good (K e)) -> apart K D -> 0 <= t0 -> timely w t0 (l ++ [(Cmd d n, E)]) -> within D (l ++ [(Cmd d n, E)]) -> In d D ->
  n < 0 \/ 3 < n ->
  exists p, run w K (start t0) (l ++ [(Cmd d n, E)]) = Some p /\ bit (W p) (sol (K d) 0) = true.
Proof.
  intros w K D t0 l E n d HG HA H0 T WI Hd HN.
  destruct (C100_follow w K D t0 _ HG HA H0 T WI) as (p & EQ & F & _). exists p. split; [exact EQ|].
  rewrite F; [|exact Hd|unfold sols; destruct (seats (K d)); left; reflexivity].
  unfold past_of. rewrite fold_left_app. cbn [fold_left]. unfold note. cbn [fst snd asked asks]. rewrite Z.eqb_refl.
  unfold meaning. replace (n =? 0) with false by lia. replace (n =? 2) with false by lia. replace (n =? 3) with false by lia.
  rewrite !andb_false_r. reflexivity.
Qed.
Print Assumptions C104_gateway_bytes.
Print Assumptions C104_number_refuted.
Print Assumptions C104_same_number_refuted.
Print Assumptions C104_unknown_state_refuted.
Example C104_example :
  (option_map (fun p => map (W p) [109; 139; 140; 141]) (run 64 (fun d => as_mix (60 + d)) (start 0) [(On 1, at_t 1); (On 2, at_t 1); (On 3, at_t 1); (On 5, at_t 1)]),
   option_map (fun p => (W p 150, fst (get_state 64 (term T3 1 1 2) 9 (calm 1) (R p) (vs p 1)))) (run 64 (fun _ => term T3 1 1 2) (start 0) [(On 1, at_t 1)]),
   option_map (fun p => W p 150) (run 64 (fun _ => term T3 1 2 3) (start 0) [(Cmd 1 77, at_t 1)]))
  = (Some [0; 34; 32; 32], Some (0, 1), Some 1).
Proof. vm_compute. reflexivity. Qed.
