(** Scales: proofs. *)
From Coq Require Import ZArith List Bool Lia QArith Qround Qpower Lqa.
From Verif Require Import Base TimeModel FTextModel FloatModel FloatProofs FloatProofs2 AioProofs AioProofs4 WghModel WghSpec.
Import ListNotations.
Open Scope Z_scope.

(** * Serial *)
Definition put_right (f : Z -> Z) : Z -> Z := swap 10 11 (swap 8 9 (swap 6 7 f)).
Lemma put_right_at : forall f k, put_right f k =
  if k =? 6 then f 7 else if k =? 7 then f 6 else if k =? 8 then f 9 else if k =? 9 then f 8 else if k =? 10 then f 11 else if k =? 11 then f 10 else f k.
Proof.
  intros f k. unfold put_right, swap.
  destruct (Z.eqb_spec k 10) as [->|]; [reflexivity|]. destruct (Z.eqb_spec k 11) as [->|]; [reflexivity|].
  destruct (Z.eqb_spec k 8) as [->|]; [reflexivity|]. destruct (Z.eqb_spec k 9) as [->|]; [reflexivity|].
  destruct (Z.eqb_spec k 6) as [->|]; [reflexivity|]. destruct (Z.eqb_spec k 7) as [->|]; reflexivity.
Qed.
Lemma put_right_twice : forall f k, put_right (put_right f) k = f k.
Proof.
  intros f k. rewrite (put_right_at (put_right f)), !put_right_at.
  destruct (Z.eqb_spec k 6) as [->|]; [reflexivity|]. destruct (Z.eqb_spec k 7) as [->|]; [reflexivity|].
  destruct (Z.eqb_spec k 8) as [->|]; [reflexivity|]. destruct (Z.eqb_spec k 9) as [->|]; [reflexivity|].
  destruct (Z.eqb_spec k 10) as [->|]; [reflexivity|]. destruct (Z.eqb_spec k 11) as [->|]; reflexivity.
Qed.
Lemma letters : forall f k, 0 <= k -> put_right f (6 + k) = letter f k.
Proof.
  intros f k K. rewrite put_right_at. unfold letter. destruct (Z.ltb_spec k 6) as [L|L].
  - assert (C : k = 0 \/ k = 1 \/ k = 2 \/ k = 3 \/ k = 4 \/ k = 5) by lia. destruct C as [->|[->|[->|[->|[->| ->]]]]]; reflexivity.
  - replace (6 + k =? 6) with false by lia. replace (6 + k =? 7) with false by lia. replace (6 + k =? 8) with false by lia.
    replace (6 + k =? 9) with false by lia. replace (6 + k =? 10) with false by lia. replace (6 + k =? 11) with false by lia. reflexivity.
Qed.
Lemma cycle_heard : forall num s f, by_text num ->
  let s1 := cycle num s (Some f) in (sst s1, sval s1) = heard num (sst s, sval s) f.
Proof.
  intros num s f N. cbv zeta. unfold cycle, weigh, heard, kind. cbn [negb img sst sval cmd].
  destruct ((f 0 =? 0) && (f 1 =? 0)); [reflexivity|]. destruct ((f 0 =? 1) && (f 1 =? 0)); [reflexivity|].
  destruct (f 2 =? 43); [|reflexivity]. cbn [negb sst sval]. f_equal. apply N. intros k K. apply letters, K.
Qed.
Lemma cycles_heard : forall num fs s, by_text num ->
  let s1 := cycles num s (map Some fs) in (sst s1, sval s1) = fold_left (heard num) fs (sst s, sval s).
Proof.
  intros num fs. induction fs as [|f fs IH]; intros s N; [reflexivity|]. cbv zeta in *. unfold cycles in *. cbn [map fold_left].
  rewrite IH by exact N. rewrite <- (cycle_heard num s f N). reflexivity.
Qed.
Lemma cycles_asked : forall num fs s, cmd (cycles num s (map Some fs)) = fold_left asked fs (cmd s).
Proof.
  intros num fs. induction fs as [|f fs IH]; intros s; [reflexivity|]. unfold cycles in *. cbn [map fold_left]. rewrite IH. f_equal.
  unfold cycle, weigh, asked, kind. cbn [negb img sst sval cmd]. destruct ((f 0 =? 0) && (f 1 =? 0)); [reflexivity|].
  destruct ((f 0 =? 1) && (f 1 =? 0)); [reflexivity|]. destruct (f 2 =? 43); reflexivity.
Qed.
(** Cycles without new inputs. *)
Definition weighing (f : Z -> Z) : Prop := kind f = Weight.
Lemma stale_one : forall num s, weighing (img s) -> cycle num s None =
  {| img := put_right (img s); sst := 1; sval := num (fun k => put_right (img s) (6 + k)); cmd := 0 |} /\ weighing (put_right (img s)).
Proof.
  intros num s W. unfold weighing, kind in W. unfold cycle, weigh. cbn [negb].
  destruct ((img s 0 =? 0) && (img s 1 =? 0)) eqn:A; [discriminate|]. destruct ((img s 0 =? 1) && (img s 1 =? 0)) eqn:B; [discriminate|].
  destruct (img s 2 =? 43) eqn:C; [|discriminate]. cbn [negb]. split; [reflexivity|]. unfold weighing, kind.
  rewrite !put_right_at. cbn [Z.eqb Pos.eqb]. rewrite A, B, C. reflexivity.
Qed.
Lemma stale_many : forall num n s, by_text num -> weighing (img s) ->
  let s1 := cycles num s (repeat None n) in
  weighing (img s1) /\ (forall k, img s1 k = if Nat.even n then img s k else put_right (img s) k)
  /\ (n <> O -> sst s1 = 1 /\ sval s1 = num (fun k => if Nat.even n then img s (6 + k) else put_right (img s) (6 + k))).
Proof.
  intros num n. induction n as [|n IH]; intros s N W; cbv zeta.
  - split; [exact W|]. split; [reflexivity|]. congruence.
  - unfold cycles in *. cbn [repeat fold_left]. destruct (stale_one num s W) as [E W1]. rewrite E.
    destruct (IH {| img := put_right (img s); sst := 1; sval := num (fun k => put_right (img s) (6 + k)); cmd := 0 |} N W1) as (A & B & C). cbn [img] in *.
    assert (EV : Nat.even (S n) = negb (Nat.even n)) by (rewrite Nat.even_succ, <- Nat.negb_even; reflexivity).
    split; [exact A|]. split.
    + intros k. rewrite B, EV. destruct (Nat.even n); cbn [negb]; [reflexivity|]. apply put_right_twice.
    + intros _. destruct n as [|n]; [split; reflexivity|]. destruct C as [C1 C2]; [discriminate|]. split; [exact C1|]. rewrite C2. apply N. intros k K.
      rewrite EV. destruct (Nat.even (S n)); cbn [negb]; [reflexivity|]. apply put_right_twice.
Qed.

(** * Ethernet *)
Lemma receive_whole : forall num s l, before_unit num -> whole l ->
  let s1 := receive num s l in (est s1, eval s1) = told num (est s, eval s) l.
Proof.
  intros num s l N W. cbv zeta. unfold whole in W. destruct l as [|c l]; [cbn in W; lia|]. remember (c :: l) as m eqn:EM.
  assert (ER : exists b, (forall k, 0 <= k <= 9 -> b k = nth (Z.to_nat k) m 0) /\ receive num s m =
      if negb (b 8 =? 107) || negb (b 9 =? 103) then {| ebuf := b; est := 0; eval := eval s |} else {| ebuf := b; est := 1; eval := num (fun k => b (1 + k)) |}).
  { exists (fun k => if (0 <=? k) && (k <? Z.of_nat (length m)) then nth (Z.to_nat k) m 0 else ebuf s k). split; [|rewrite EM; reflexivity].
    intros k K. cbv beta. replace ((0 <=? k) && (k <? Z.of_nat (length m))) with true by lia. reflexivity. }
  destruct ER as (b & B & ->). clear EM. unfold told.
  unfold in_kg. rewrite (B 8), (B 9) by lia. change (Z.to_nat 8) with 8%nat. change (Z.to_nat 9) with 9%nat.
  destruct (nth 8 m 0 =? 107) eqn:E8, (nth 9 m 0 =? 103) eqn:E9; cbn [negb orb andb est eval snd]; try reflexivity.
  f_equal. apply N.
  - intros k K. apply B. lia.
  - rewrite B by lia. apply Z.eqb_eq. exact E8.
Qed.
Lemma receives_whole : forall num ls s, before_unit num -> Forall whole ls ->
  let s1 := receives num s ls in (est s1, eval s1) = fold_left (told num) ls (est s, eval s).
Proof.
  intros num ls. induction ls as [|l ls IH]; intros s N W; [reflexivity|]. inversion W; subst. cbv zeta in *. unfold receives in *. cbn [fold_left].
  rewrite IH by assumption. rewrite <- (receive_whole num s l N) by assumption. reflexivity.
Qed.
Lemma receives_nothing : forall num n s, receives num s (repeat [] n) = s.
Proof. intros num n. induction n as [|n IH]; intros s; [reflexivity|]. exact (IH s). Qed.

(** * Strain gauges *)
Open Scope Q_scope.
Lemma ceil_close : forall x, inject_Z (Qceiling x) - 1 < x <= inject_Z (Qceiling x).
Proof.
  intros x. split; [|apply Qle_ceiling]. pose proof (Qceiling_lt x) as H. unfold Qceiling in *.
  assert (E : inject_Z (- Qfloor (- x) - 1) == inject_Z (- Qfloor (- x)) - 1) by (unfold Zminus; rewrite inject_Z_plus; reflexivity). rewrite <- E. exact H.
Qed.
Lemma big_integer : forall b, f_finite b = true -> (f_mag b < 150 * 2 ^ 23)%Z \/ exists n, f_val b == inject_Z n.
Proof.
  intros b F. destruct (Z_lt_le_dec (f_mag b) (150 * 2 ^ 23)) as [L|L]; [left; exact L|right].
  assert (E : (0 <= f_e b)%Z).
  { unfold f_e. assert (150 <= f_mag b / 2 ^ 23)%Z by (apply Z.div_le_lower_bound; lia).
    destruct (f_mag b / 2 ^ 23 =? 0)%Z eqn:Z0; [apply Z.eqb_eq in Z0; lia|]. lia. }
  assert (A : f_abs b == inject_Z (f_m b * 2 ^ f_e b)).
  { unfold f_abs. rewrite inject_Z_mult. apply Qmult_comp; [reflexivity|]. unfold p2. change (2 # 1) with (inject_Z 2). rewrite <- Zpower_Qpower by exact E. reflexivity. }
  unfold f_val. destruct (f_neg b).
  - exists (- (f_m b * 2 ^ f_e b))%Z. rewrite A, inject_Z_opp. reflexivity.
  - exists (f_m b * 2 ^ f_e b)%Z. exact A.
Qed.
Lemma ceil_exact : forall b, f_finite b = true -> f_finite (f_ceil b) = true /\ f_val (f_ceil b) == inject_Z (Qceiling (f_val b)).
Proof.
  intros b F. unfold f_ceil. rewrite F. destruct (big_integer b F) as [S|(n & E)].
  - assert (L : - inject_Z (2 ^ 23) <= f_val b <= inject_Z (2 ^ 23)).
    { assert (K : f_finite (f_of_Z (2 ^ 23)) = true) by (vm_compute; reflexivity).
      assert (V : f_val (f_of_Z (2 ^ 23)) == inject_Z (2 ^ 23)) by (apply vz; lia).
      assert (KK : key (f_of_Z (2 ^ 23)) = (150 * 2 ^ 23)%Z) by (vm_compute; reflexivity).
      split.
      - rewrite <- V, <- opp_val. apply val_le; [rewrite opp_finite; exact K|exact F|]. rewrite opp_key, KK. unfold key. pose proof (f_mag_range b). destruct (f_neg b); lia.
      - rewrite <- V. apply val_le; [exact F|exact K|]. rewrite KK. unfold key. pose proof (f_mag_range b). destruct (f_neg b); lia. }
    pose proof (ceil_close (f_val b)) as C.
    assert (R : (- 2 ^ 24 < Qceiling (f_val b) < 2 ^ 24)%Z).
    { rewrite !Zlt_Qlt. change (inject_Z (- 2 ^ 24)) with (- inject_Z (2 ^ 24)). assert (inject_Z (2 ^ 24) == 2 * inject_Z (2 ^ 23)) by reflexivity.
      assert (1 < inject_Z (2 ^ 23)) by reflexivity. split; lra. }
    apply (round_exact _ (f_of_Z (Qceiling (f_val b)))); [apply fz, R|apply vz, R].
  - assert (C : Qceiling (f_val b) = n) by (rewrite (Qceiling_comp _ _ E); apply Qceiling_Z). rewrite C.
    apply (round_exact _ b); [exact F|exact E].
Qed.
Lemma ceil_key : forall a b, f_finite a = true -> key a = key b -> f_finite b = true /\ key (f_ceil a) = key (f_ceil b).
Proof.
  intros a b F K. assert (FB : f_finite b = true) by (apply key_finite; rewrite <- K; apply key_finite; exact F). split; [exact FB|].
  destruct (ceil_exact a F) as [F1 V1]. destruct (ceil_exact b FB) as [F2 V2]. apply val_eq; [exact F1|exact F2|]. rewrite V1, V2.
  apply val_eq in K; [|exact F|exact FB]. rewrite (Qceiling_comp _ _ K). reflexivity.
Qed.
Lemma ceil_twice : forall b, f_finite b = true -> key (f_ceil (f_ceil b)) = key (f_ceil b).
Proof.
  intros b F. destruct (ceil_exact b F) as [F1 V1]. destruct (ceil_exact (f_ceil b) F1) as [F2 V2]. apply val_eq; [exact F2|exact F1|].
  rewrite V2, (Qceiling_comp _ _ V1), Qceiling_Z, V1. reflexivity.
Qed.
Lemma ceil_notnan : forall b, f_isnan b = false -> f_isnan (f_ceil b) = false.
Proof. intros b N. unfold f_ceil. destruct (f_finite b); [|exact N]. apply round_parts. Qed.
Lemma cancel : forall a b, f_finite a = true -> key b = (- key a)%Z -> key (f_add a b) = 0%Z /\ f_isnan (f_add a b) = false.
Proof.
  intros a b F K. assert (FB : f_finite b = true) by (apply key_finite; rewrite K; apply key_finite in F; lia).
  rewrite add_finite by assumption. destruct (round_parts (f_neg a && f_neg b) (f_val a + f_val b)) as (R & N & _). split; [|exact N]. rewrite R.
  assert (E : f_val a + f_val b == 0).
  { assert (f_val b == f_val (f_opp a)) as -> by (apply val_eq; [exact FB|rewrite opp_finite; exact F|rewrite opp_key; exact K]). rewrite opp_val. ring. }
  rewrite (rk_comp _ _ E). reflexivity.
Qed.
Close Scope Q_scope.

(** What holds in all histories with these parameters: a number; with a coarse filter a whole one. *)
Definition gauge_ok (p : gauge_par) (s : gauge) : Prop :=
  f_isnan (weight s) = false /\ (f_le 0x3F800000 (dt p) = true -> f_finite (weight s) = true -> key (f_ceil (weight s)) = key (weight s)).
Lemma ok_read : forall w p r s, gauge_ok p s -> gauge_ok p (fst (get_weight w p r s)).
Proof.
  intros w p r s [N C]. unfold get_weight. destruct (500 <? get_delta_millisec w (now r) (ft s)); [|split; assumption].
  destruct (f_eq 0 (rkp p)); [split; assumption|]. destruct (f_eq 0 (uref r)); [split; assumption|]. cbv zeta.
  set (nw := f_mul (f_div (f_div (ud r) (rkp p)) (uref r)) (nominal p)).
  set (w1 := if f_lt (dt p) (f_fabs (f_sub nw (weight s))) then nw else weight s).
  assert (N1 : f_isnan w1 = false).
  { unfold w1. destruct (f_lt (dt p) (f_fabs (f_sub nw (weight s)))) eqn:L; [|exact N].
    unfold f_lt in L. apply andb_prop in L. destruct L as [L _]. apply andb_prop in L. destruct L as [_ L]. apply negb_true_iff in L.
    apply (sub_nn nw (weight s)). unfold f_isnan, f_fabs in *. rewrite <- L. f_equal. unfold f_mag. rewrite Z.mod_mod by lia. reflexivity. }
  cbn [fst]. destruct (f_le 1065353216 (dt p)) eqn:D; split; cbn [weight]; try assumption; try (intros; discriminate).
  - apply ceil_notnan, N1.
  - intros _ F. destruct (f_finite w1) eqn:F1; [apply ceil_twice, F1|]. unfold f_ceil in F. rewrite F1 in F. congruence.
  - intros D2. unfold gauge_ok in D2. rewrite D in D2. discriminate.
Qed.
Lemma ok_step : forall w p s e, gauge_ok p s -> gauge_ok p (gstep w p s e).
Proof. intros w p s [r| |z] H; [apply ok_read, H|exact H|exact H]. Qed.
Lemma ok_steps : forall w p es s, gauge_ok p s -> gauge_ok p (fold_left (gstep w p) es s).
Proof. intros w p es. induction es as [|e es IH]; intros s H; [exact H|]. apply IH, ok_step, H. Qed.
Lemma ok_start : forall p t z, gauge_ok p (gauge0 t z).
Proof. intros p t z. split; [reflexivity|]. intros _ _. vm_compute. reflexivity. Qed.

(** After taring. *)
Lemma not_above : forall a b, f_le a b = true -> f_lt b a = false.
Proof.
  intros a b H. unfold f_le, f_lt in *. destruct (f_isnan a); [discriminate|]. destruct (f_isnan b); [discriminate|]. cbn in *. lia.
Qed.
Lemma sub_key : forall a b c, f_finite b = true -> key b = key c -> key (f_fabs (f_sub a b)) = key (f_fabs (f_sub a c)) /\ f_isnan (f_fabs (f_sub a b)) = f_isnan (f_fabs (f_sub a c)).
Proof.
  intros a b c F K. assert (FC : f_finite c = true) by (apply key_finite; rewrite <- K; apply key_finite; exact F).
  assert (V : (f_val (f_opp b) == f_val (f_opp c))%Q) by (rewrite !opp_val; apply val_eq in K; [rewrite K; reflexivity|exact F|exact FC]).
  assert (M : f_mag (f_sub a b) = f_mag (f_sub a c)).
  { unfold f_sub, f_add. rewrite !opp_isnan, !opp_isinf. destruct (finite_not b F) as [-> ->]. destruct (finite_not c FC) as [-> ->].
    rewrite !orb_false_r. destruct (f_isnan a); [reflexivity|]. cbn [andb]. destruct (f_isinf a); [reflexivity|].
    destruct (round_parts (f_neg a && f_neg (f_opp b)) (f_val a + f_val (f_opp b))) as (_ & _ & ->). destruct (round_parts (f_neg a && f_neg (f_opp c)) (f_val a + f_val (f_opp c))) as (_ & _ & ->).
    assert (EQ : (f_val a + f_val (f_opp b) == f_val a + f_val (f_opp c))%Q) by (rewrite V; apply Qeq_refl). rewrite (rk_comp _ _ EQ). reflexivity. }
  unfold f_fabs. rewrite M. split; reflexivity.
Qed.
Lemma tared : forall w p w0 rs s, f_eq 0 (rkp p) = false -> f_finite w0 = true -> (f_le 0x3F800000 (dt p) = true -> key (f_ceil w0) = key w0) ->
  key (weight s) = key w0 -> key (zero s) = - key w0 -> Forall (steady p w0) rs -> Forall (fun v => key v = 0 /\ f_isnan v = false) (shown w p s rs).
Proof.
  intros w p w0 rs. induction rs as [|r rs IH]; intros s R F C K Z F2; [constructor|]. inversion F2 as [|? ? [U S] F3]; subst.
  assert (FW : f_finite (weight s) = true) by (apply key_finite; rewrite K; apply key_finite; exact F).
  cbn [shown]. unfold get_weight. destruct (500 <? get_delta_millisec w (now r) (ft s)).
  - rewrite R, U. cbv zeta. fold (load p r).
    assert (L : f_lt (dt p) (f_fabs (f_sub (load p r) (weight s))) = false).
    { destruct (sub_key (load p r) (weight s) w0 FW K) as [K1 K2]. change (f_mag (f_sub (load p r) w0)) with (f_fabs (f_sub (load p r) w0)) in S. apply not_above in S. unfold f_lt in *. rewrite K1, K2. exact S. }
    rewrite L. set (w2 := if f_le 1065353216 (dt p) then f_ceil (weight s) else weight s).
    assert (K2 : key w2 = key w0).
    { unfold w2. destruct (f_le 1065353216 (dt p)) eqn:D; [|exact K]. destruct (ceil_key (weight s) w0 FW K) as [_ ->]. apply C. reflexivity. }
    assert (FW2 : f_finite w2 = true) by (apply key_finite; rewrite K2; apply key_finite; exact F).
    cbn [fst snd]. constructor; [apply cancel; [exact FW2|congruence]|]. apply IH; auto.
  - cbn [fst snd]. constructor; [apply cancel; [exact FW|congruence]|]. apply IH; auto.
Qed.
(** Between samples. *)
Lemma between : forall w p rs s, 0 <= ft s -> in_time (ft s) rs -> Forall (fun r => now r <= ft s + 500) rs ->
  shown w p s rs = repeat (f_add (weight s) (zero s)) (length rs).
Proof.
  intros w p rs s A. assert (H : forall rs t, ft s <= t -> in_time t rs -> Forall (fun r => now r <= ft s + 500) rs -> shown w p s rs = repeat (f_add (weight s) (zero s)) (length rs)).
  { clear rs. induction rs as [|r rs IH]; intros t T I F; [reflexivity|]. destruct I as [I1 I2]. inversion F; subst. cbn [shown length repeat]. unfold get_weight.
    assert (D : get_delta_millisec w (now r) (ft s) = now r - ft s).
    { unfold get_delta_millisec. replace (now r <? ft s) with false by lia. replace (ft s <=? now r) with true by lia. reflexivity. }
    rewrite D. replace (500 <? now r - ft s) with false by lia. cbn [fst snd]. f_equal. apply (IH (now r)); auto; lia. }
  intros I F. apply (H rs (ft s)); auto; lia.
Qed.
