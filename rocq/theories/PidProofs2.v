(** The parts of the law: interval, integral time, error. *)
From Coq Require Import ZArith List Bool Lia QArith Qround Qpower Qabs Qminmax Lqa.
From Verif Require Import Base FTextModel FTextProofs FloatModel FloatProofs FloatProofs2 FloatProofs3 AioProofs TimeModel PidModel PidSpec PidProofs.
Import ListNotations.
Open Scope Q_scope.

Lemma eq_val a b : f_finite a = true -> f_finite b = true -> f_eq a b = Qeq_bool (f_val a) (f_val b).
Proof.
  intros A B. destruct (Qeq_bool (f_val a) (f_val b)) eqn:E.
  - apply Qeq_bool_iff in E. apply (val_eq a b A B) in E. apply f_eq_spec. repeat split; [apply finite_not, A|apply finite_not, B|exact E].
  - destruct (f_eq a b) eqn:F; [|reflexivity]. apply f_eq_spec in F. destruct F as (_ & _ & F). apply (val_eq a b A B) in F.
    apply Qeq_bool_iff in F. congruence.
Qed.
Lemma lt_val a b : f_finite a = true -> f_finite b = true -> f_lt a b = negb (Qle_bool (f_val b) (f_val a)).
Proof.
  intros A B. destruct (Qle_bool (f_val b) (f_val a)) eqn:E.
  - apply Qle_bool_iff in E. destruct (f_lt a b) eqn:F; [|reflexivity]. apply f_lt_spec in F. destruct F as (_ & _ & F).
    apply (val_lt a b A B) in F. lra.
  - apply f_lt_spec. repeat split; [apply finite_not, A|apply finite_not, B|]. apply (val_lt a b A B).
    apply Qnot_le_lt. intros H. apply Qle_bool_iff in H. congruence.
Qed.
Lemma eq0_val a : f_finite a = true -> f_eq a (f_of_Z 0) = Qeq_bool (f_val a) 0.
Proof.
  intros A. rewrite eq_val by (exact A || apply fz; lia). pose proof (vz 0 ltac:(lia)) as V.
  destruct (Qeq_bool (f_val a) 0) eqn:E.
  - apply Qeq_bool_iff in E. apply Qeq_bool_iff. rewrite E, V. reflexivity.
  - destruct (Qeq_bool (f_val a) (f_val (f_of_Z 0))) eqn:F; [|reflexivity]. apply Qeq_bool_iff in F. rewrite V in F.
    apply Qeq_bool_iff in F. change (inject_Z 0) with 0 in F. congruence.
Qed.

Lemma interval_near p : sensible_interval (par p P_dt) ->
  let T := seconds (f_val (par p P_dt)) in near (interval p) T T 2 /\ bp T (-10) 20.
Proof.
  intros (F & H). cbv zeta. unfold interval, seconds. set (d := par p P_dt) in *. clearbody d. cbv zeta.
  pose proof (const_near 1000 ltac:(lia)) as N. change (Qabs (inject_Z 1000)) with 1000 in N. change (inject_Z 1000) with 1000 in N.
  assert (N1 : near (f_of_Z 1) 1 1 2).
  { pose proof (const_near 1 ltac:(lia)) as X. refine (near_more _ _ _ _ 1 2 X _ _ _); [apply Qle_refl|lra|lra]. }
  destruct (Qeq_bool (f_val d) 0) eqn:E.
  - apply Qeq_bool_iff in E.
    assert (D0 : f_eq (f_div d (f_of_Z 1000)) (f_of_Z 0) = true).
    { pose proof (vz 1000 ltac:(lia)) as V. assert (NZ : ~ f_val (f_of_Z 1000) == 0) by (rewrite V; discriminate).
      assert (K0 : key (f_of_Z 1000) <> 0%Z). { intros K. apply NZ. apply val_zero_key; [apply fz; lia|exact K]. }
      rewrite div_finite by (exact F || (apply fz; lia) || exact K0).
      assert (Z0 : f_val d / f_val (f_of_Z 1000) == f_val 0).
      { assert (V0 : f_val 0 == 0) by (vm_compute; reflexivity). rewrite E, V0. unfold Qdiv. ring. }
      apply f_eq_spec. destruct (round_parts (xorb (f_neg d) (f_neg (f_of_Z 1000))) (f_val d / f_val (f_of_Z 1000))) as (-> & -> & _).
      rewrite (rk_comp _ _ Z0), rk_exact by reflexivity. vm_compute. repeat split; reflexivity. }
    rewrite D0. split; [exact N1|]. split; vm_compute; discriminate.
  - assert (H1 : 1 <= f_val d /\ f_val d <= p2 29).
    { destruct H as [H|H]; [|exact H]. apply Qeq_bool_iff in H. congruence. }
    clear H. destruct H1 as (H1 & H2).
    assert (A : Qabs (f_val d) == f_val d) by (apply Qabs_pos; lra).
    assert (B : bp (f_val d / 1000) (-10) 20).
    { split.
      - apply Qle_shift_div_l; [reflexivity|]. assert (p2 (-10) * 1000 <= 1) by (vm_compute; discriminate). lra.
      - apply Qle_shift_div_r; [reflexivity|]. assert (p2 29 <= p2 20 * 1000) by (vm_compute; discriminate). lra. }
    assert (C : near (f_div d (f_of_Z 1000)) (f_val d / 1000) (f_val d / 1000) 2).
    { assert (X : near (f_div d (f_of_Z 1000)) (f_val d / 1000) (f_val d / Qabs 1000) (0 + 0 + 2)).
      { apply near_div; [apply near_exact; [exact F|rewrite A; apply Qle_refl]|exact N|discriminate| |lra].
        change (Qabs 1000) with 1000. apply (bp_fits _ _ _ B); lia. }
      change (Qabs 1000) with 1000 in X. refine (near_more _ _ _ _ _ _ X _ _ _); [apply Qle_refl|lra|lra]. }
    split; [|exact B].
    assert (FN : f_eq (f_div d (f_of_Z 1000)) (f_of_Z 0) = false).
    { destruct C as (FC & C1 & _). rewrite eq0_val by exact FC.
      destruct (Qeq_bool (f_val (f_div d (f_of_Z 1000))) 0) eqn:G; [|reflexivity]. apply Qeq_bool_iff in G.
      apply abs_iff in C1. rewrite G in C1. pose proof (p2_pos (-10)). destruct B. lra. }
    rewrite FN. exact C.
Qed.

Lemma ti_near TI : small 20 TI -> f_val TI == 0 \/ p2 (-20) <= Qabs (f_val TI) ->
  let t := integral_time (f_val TI) in
  near (if f_eq TI (f_of_Z 0) then f_lit (1 # 10000) else TI) t (Qabs t) 1 /\ bp (Qabs t) (-20) 20.
Proof.
  intros (F & H) C. cbv zeta. unfold integral_time. rewrite eq0_val by exact F.
  destruct (Qeq_bool (f_val TI) 0) eqn:E.
  - split; [|split; vm_compute; discriminate].
    assert (V : f_lit (1 # 10000) = 953267991%Z) by (vm_compute; reflexivity). rewrite V.
    unfold near. repeat split; try reflexivity; vm_compute; discriminate.
  - split.
    + apply near_more with (Qabs (f_val TI)) 0; [apply near_exact; [exact F|apply Qle_refl]|apply Qle_refl|lra|lra].
    + destruct C as [C|C]; [apply Qeq_bool_iff in C; congruence|]. split; assumption.
Qed.

Lemma sub_wide a b c : f_finite a = true -> f_finite b = true -> Qabs (f_val a - f_val b) <= c -> fits c ->
  near (f_sub a b) (f_val a - f_val b) c 2.
Proof.
  intros A B H C. destruct (fits_pos _ C) as (P & Z1 & T).
  destruct (sub_rel a b A B) as (F & R); [lra|]. repeat split; try assumption; lra.
Qed.

Definition sign_ok (s : Z) : Prop := s = 1%Z \/ s = (-1)%Z.
Lemma sign_near s : sign_ok s -> near (f_mul (f_of_Z s) MAX_OUT) (inject_Z s * 100) 100 2.
Proof. intros [-> | ->]; unfold near; repeat split; try reflexivity; vm_compute; discriminate. Qed.

Lemma lift_near s set cur : sign_ok s -> small 30 set -> small 30 cur ->
  near (f_mul (f_mul (f_of_Z s) MAX_OUT) (f_sub set cur)) (inject_Z s * 100 * (f_val set - f_val cur))
    (100 * (Qabs (f_val set - f_val cur) + 1)) 6 /\ bp (100 * (Qabs (f_val set - f_val cur) + 1)) 0 39.
Proof.
  intros S (F1 & H1) (F2 & H2). change (Qpower 2 30) with (p2 30) in *.
  pose proof (abs_pos (f_val set - f_val cur)) as P0.
  assert (D : Qabs (f_val set - f_val cur) <= p2 30 + p2 30).
  { pose proof (abs_tri (f_val set) (- f_val cur)) as X. rewrite Qabs_opp in X. unfold Qminus. lra. }
  assert (B : bp (Qabs (f_val set - f_val cur) + 1) 0 32).
  { assert (p2 30 + p2 30 + 1 <= p2 32) by (vm_compute; discriminate). split; [change (p2 0) with 1; lra|lra]. }
  assert (B100 : bp 100 0 7) by (split; vm_compute; discriminate).
  pose proof (bp_mul _ _ _ _ _ _ B100 B) as B2.
  split; [|exact B2].
  assert (N : near (f_sub set cur) (f_val set - f_val cur) (Qabs (f_val set - f_val cur) + 1) 2).
  { apply sub_wide; [exact F1|exact F2|lra|]. apply (bp_fits _ _ _ B); lia. }
  pose proof (near_mul _ _ _ _ _ _ _ _ (sign_near s S) N (bp_fits _ _ _ B2 ltac:(lia) ltac:(lia)) ltac:(lra)) as X.
  refine (near_more _ _ _ _ _ _ X _ _ _); [apply Qle_refl|lra|lra].
Qed.

Lemma error_near p cur s : sign_ok s -> small 30 (set_value p) -> small 30 cur -> sensible_range (par p P_min) (par p P_max) ->
  ~ f_val (par p P_max) == f_val (par p P_min) ->
  let D := f_val (par p P_max) - f_val (par p P_min) in
  near (error p cur s) (percent s (f_val (set_value p)) (f_val cur) (f_val (par p P_min)) (f_val (par p P_max)))
    (100 * (Qabs (f_val (set_value p) - f_val cur) + 1) / Qabs D) 10.
Proof.
  intros S H1 H2 (R1 & R2 & R3) NE. cbv zeta. destruct R1 as (FL & L). destruct R2 as (FH & H). change (Qpower 2 20) with (p2 20) in *.
  destruct R3 as [R3|R3]; [contradiction|]. change (Qpower 2 (-20)) with (p2 (-20)) in R3.
  unfold error, percent. cbv zeta. rewrite eq_val by assumption.
  destruct (Qeq_bool _ _) eqn:E; [apply Qeq_bool_iff in E; contradiction|]. clear E.
  destruct (lift_near s _ _ S H1 H2) as (N & B).
  set (D := f_val (par p P_max) - f_val (par p P_min)) in *.
  assert (BD : bp (Qabs D) (-20) 21).
  { split; [exact R3|]. unfold D. pose proof (abs_tri (f_val (par p P_max)) (- f_val (par p P_min))) as X. rewrite Qabs_opp in X.
    assert (p2 20 + p2 20 <= p2 21) by (vm_compute; discriminate). unfold Qminus. lra. }
  assert (ND : near (f_sub (par p P_max) (par p P_min)) D (Qabs D) 2).
  { apply sub_wide; [assumption|assumption|apply Qle_refl|]. apply (bp_fits _ _ _ BD); lia. }
  assert (NZ : ~ D == 0). { intros X. apply NE. unfold D in X. lra. }
  pose proof (bp_div _ _ _ _ _ _ B BD) as B2.
  pose proof (near_div _ _ _ _ _ _ _ N ND NZ (bp_fits _ _ _ B2 ltac:(lia) ltac:(lia)) ltac:(lra)) as X.
  refine (near_more _ _ _ _ _ _ X _ _ _); [apply Qle_refl|lra|lra].
Qed.

Lemma near_small b x m k n : near b x m k -> bp m 0 n -> k <= 100 -> small (n + 1) b.
Proof.
  intros N (B1 & B2) K. pose proof (near_size _ _ _ _ N) as H. destruct N as (F & _ & _ & K0 & _). split; [exact F|].
  change (Qpower 2 (n + 1)) with (p2 (n + 1)). rewrite p2_plus. change (p2 1) with 2. change (p2 0) with 1 in B1.
  assert (k * m <= 100 * m) by nra. lra.
Qed.
Lemma small_more n m b : small n b -> (n <= m)%Z -> small m b.
Proof. intros (F & H) L. split; [exact F|]. pose proof (p2_le n m L). change (Qpower 2 n) with (p2 n) in H. change (Qpower 2 m) with (p2 m). lra. Qed.

Lemma div_small a b A : f_finite a = true -> f_finite b = true -> Qabs (f_val a) <= A -> (1 # 4) <= Qabs (f_val b) -> fits (4 * A) ->
  f_finite (f_div a b) = true /\ Qabs (f_val (f_div a b)) <= 8 * A.
Proof.
  intros FA FB HA HB FT. destruct (fits_pos _ FT) as (P & Z1 & T).
  assert (NB : ~ f_val b == 0). { intros E. rewrite (abs_comp _ _ E) in HB. change (Qabs 0) with 0 in HB. lra. }
  assert (Q : Qabs (f_val a / f_val b) <= 4 * A).
  { unfold Qdiv. rewrite abs_mul, Qabs_Qinv.
    assert (I : / Qabs (f_val b) <= 4). { apply Qle_shift_inv_r; lra. }
    assert (I0 : 0 <= / Qabs (f_val b)) by (apply Qinv_le_0_compat; lra).
    pose proof (abs_pos (f_val a)). assert (Qabs (f_val a) * / Qabs (f_val b) <= A * 4) by (apply Qmult_le_compat_nonneg; split; assumption). lra. }
  destruct (div_rel a b FA FB NB) as (F & R); [lra|]. split; [exact F|].
  pose proof (abs_tri (f_val (f_div a b) - f_val a / f_val b) (f_val a / f_val b)) as X.
  rewrite (abs_comp (_ + _) (f_val (f_div a b))) in X by ring. lra.
Qed.

Lemma error_small p cur s : sign_ok s -> small 30 (set_value p) -> small 30 cur -> sensible_range (par p P_min) (par p P_max) ->
  small 59 (error p cur s).
Proof.
  intros S H1 H2 R. destruct (Qeq_bool (f_val (par p P_max)) (f_val (par p P_min))) eqn:E.
  - destruct (lift_near s _ _ S H1 H2) as (N & B). pose proof (near_size _ _ _ _ N) as SZ.
    destruct R as ((FL & L) & (FH & H) & _). change (Qpower 2 20) with (p2 20) in *.
    unfold error. cbv zeta. rewrite eq_val by assumption. rewrite E. clear E.
    set (lo := par p P_min) in *. clearbody lo. set (top := f_mul _ _) in *.
    assert (FT : f_finite top = true) by apply N. clearbody top.
    pose proof (abs_pos (f_val lo)) as PL.
    assert (N1 : near (f_of_Z 1) 1 1 0) by exact (const_near 1 ltac:(lia)).
    assert (B1 : bp (Qabs (f_val lo) + 1) 0 21).
    { assert (p2 20 + 1 <= p2 21) by (vm_compute; discriminate). split; [change (p2 0) with 1; lra|lra]. }
    pose proof (near_add _ _ _ _ _ _ _ (near_exact lo (Qabs (f_val lo)) FL (Qle_refl _)) N1 (bp_fits _ _ _ B1 ltac:(lia) ltac:(lia)) ltac:(lra)) as N2.
    assert (B2 : bp (Qabs (f_val lo) + 1 + Qabs (f_val lo)) 0 22).
    { assert (p2 20 + 1 + p2 20 <= p2 22) by (vm_compute; discriminate). split; [change (p2 0) with 1; lra|lra]. }
    pose proof (near_sub _ _ _ _ _ _ 2 (near_more _ _ _ _ _ 2 N2 (Qle_refl _) ltac:(lra) ltac:(lra))
      (near_more _ _ _ _ _ 2 (near_exact lo (Qabs (f_val lo)) FL (Qle_refl _)) (Qle_refl _) ltac:(lra) ltac:(lra))
      (bp_fits _ _ _ B2 ltac:(lia) ltac:(lia)) ltac:(lra)) as N3.
    set (d := f_sub _ _) in *. clearbody d. clear N N2 N1.
    destruct N3 as (FD & D1 & _).
    assert (QD : (1 # 4) <= Qabs (f_val d)).
    { rewrite (abs_comp _ (f_val d - 1)) in D1 by ring.
      pose proof (abs_tri (f_val d) (1 - f_val d)) as X. rewrite (abs_comp (f_val d + (1 - f_val d)) 1) in X by ring.
      rewrite (Qabs_Qminus 1) in X. change (Qabs 1) with 1 in X.
      assert ((2 + 2) * u * (p2 20 + 1 + p2 20) <= (3 # 4)) by (vm_compute; discriminate). lra. }
    assert (SA : Qabs (f_val top) <= p2 40).
    { destruct B as (_ & B). assert (p2 40 == 2 * p2 39) by reflexivity. pose proof (p2_pos 39). lra. }
    assert (FT2 : fits (4 * p2 40)) by (split; vm_compute; discriminate).
    destruct (div_small top d (p2 40) FT FD SA QD FT2) as (F & Z). split; [exact F|].
    assert (8 * p2 40 <= Qpower 2 59) by (vm_compute; discriminate). lra.
  - assert (NE : ~ f_val (par p P_max) == f_val (par p P_min)). { intros X. apply Qeq_bool_iff in X. congruence. }
    pose proof (error_near p cur s S H1 H2 R NE) as N. cbv zeta in N.
    pose proof (near_size _ _ _ _ N) as SZ. split; [apply N|]. clear N.
    destruct R as (_ & _ & [R|R]); [contradiction|]. change (Qpower 2 (-20)) with (p2 (-20)) in R.
    set (D := Qabs (f_val (par p P_max) - f_val (par p P_min))) in *. clearbody D.
    destruct H1 as (_ & H1). destruct H2 as (_ & H2). change (Qpower 2 30) with (p2 30) in *.
    assert (W : Qabs (f_val (set_value p) - f_val cur) <= p2 30 + p2 30).
    { pose proof (abs_tri (f_val (set_value p)) (- f_val cur)) as X. rewrite Qabs_opp in X. unfold Qminus. lra. }
    set (m := 100 * (Qabs (f_val (set_value p) - f_val cur) + 1)) in *.
    assert (M : m <= 100 * (p2 30 + p2 30 + 1)) by (unfold m; lra).
    assert (P20 : 0 < p2 (-20)) by reflexivity.
    assert (MD : m / D <= 100 * (p2 30 + p2 30 + 1) * p2 20).
    { apply Qle_shift_div_r; [lra|].
      assert (X : 1 <= p2 20 * D). { assert (E1 : p2 20 * p2 (-20) == 1) by reflexivity. assert (0 < p2 20) by reflexivity. nra. }
      assert (Y : 0 <= 100 * (p2 30 + p2 30 + 1)) by (vm_compute; discriminate).
      rewrite <- Qmult_assoc. assert (100 * (p2 30 + p2 30 + 1) * 1 <= 100 * (p2 30 + p2 30 + 1) * (p2 20 * D)) by (apply mul_le_l; assumption). lra. }
    assert (100 * (p2 30 + p2 30 + 1) * p2 20 * 2 <= Qpower 2 59) by (vm_compute; discriminate).
    set (X := m / D) in *. clearbody X. set (Y := 100 * (p2 30 + p2 30 + 1) * p2 20) in *.
    assert (0 <= Y) by (vm_compute; discriminate). lra.
Qed.
