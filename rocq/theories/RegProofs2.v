(** The output of the regulator of a washing line: range and law. *)
From Coq Require Import ZArith List Bool Lia QArith Qround Qpower Qabs Lqa.
From Verif Require Import Base FTextModel FTextProofs FloatModel FloatProofs FloatProofs2 FloatProofs3 AioProofs TimeModel.
From Verif Require PidModel.
From Verif Require Import PidSpec PidProofs PidProofs2 PidProofs3 LvlProofs3 RegModel RegSpec.
Import ListNotations.
Open Scope Z_scope.

Definition as_pid_at (t : Z) (f : Z -> Z) : PidModel.pid :=
  {| PidModel.par := f; PidModel.uk_1 := 0; PidModel.ek_1 := 0; PidModel.ek_2 := 0; PidModel.Uk := 0;
     PidModel.start_time := 0; PidModel.last_time := t; PidModel.prev_manual := false; PidModel.state := 0;
     PidModel.out_value := 0; PidModel.set_value := f 0; PidModel.used_par := 1; PidModel.start_value := 0; PidModel.held := false |}.
Definition as_pid := as_pid_at 0.
Lemma interval_as f : PidModel.interval (as_pid f) = interval f.
Proof. reflexivity. Qed.
Lemma hundred : f_mul (f_of_Z 1) PidModel.MAX_OUT = f_of_Z 100.
Proof. vm_compute. reflexivity. Qed.
Lemma error_as f c : PidModel.error (as_pid f) c 1 = error f c.
Proof. unfold PidModel.error, error. cbv zeta. rewrite hundred. reflexivity. Qed.
Lemma increment_as K TI TD dt e e1 e2 : PidModel.increment K TI TD dt e e1 e2 = increment K TI TD dt e e1 e2.
Proof. reflexivity. Qed.
Lemma clamp_as v : PidModel.clamp PidModel.MIN_OUT PidModel.MAX_OUT v = clamp v.
Proof. reflexivity. Qed.

(** * Range *)

Definition ranged (b : Z) : Prop := f_finite b = true /\ (0 <= f_val b)%Q /\ (f_val b <= 100)%Q.
Lemma key100 : key (f_of_Z 100) = 1120403456. Proof. vm_compute. reflexivity. Qed.
Lemma f0 : f_of_Z 0 = 0. Proof. vm_compute. reflexivity. Qed.
Lemma ranged_key b : ranged b <-> f_isnan b = false /\ 0 <= key b <= key (f_of_Z 100).
Proof.
  split.
  - intros (F & A & B). split; [apply finite_not, F|]. split; [apply (val_nonneg_key b F), A|].
    apply (val_le b (f_of_Z 100) F (fz 100 ltac:(lia))). rewrite (vz 100 ltac:(lia)). exact B.
  - intros (N & A & B). rewrite key100 in B. assert (F : f_finite b = true) by (apply key_finite; unfold INF; lia).
    split; [exact F|]. split; [apply (val_nonneg_key b F), A|].
    rewrite <- key100 in B. apply (val_le b (f_of_Z 100) F (fz 100 ltac:(lia))) in B. rewrite (vz 100 ltac:(lia)) in B. exact B.
Qed.
Lemma add_zero x : f_isnan x = false -> f_isnan (f_add x (f_of_Z 0)) = false /\ key (f_add x (f_of_Z 0)) = key x.
Proof.
  intros N. rewrite f0. destruct (nn_cases x N) as [(I & F)|(I & F)].
  - unfold f_add. rewrite N, I. cbn [orb]. change (f_isnan 0) with false. change (f_isinf 0) with false. cbn [andb]. split; [exact N|reflexivity].
  - rewrite add_finite by (exact F || reflexivity). destruct (round_parts (f_neg x && f_neg 0) (f_val x + f_val 0)) as (-> & -> & _).
    split; [reflexivity|]. rewrite <- (rk_exact x F). apply rk_comp. change (f_val 0) with 0%Q || assert (E : (f_val 0 == 0)%Q) by (vm_compute; reflexivity).
    rewrite E. ring.
Qed.
Lemma zero_div a : f_isnan a = false -> 0 < key a -> f_isnan (f_div 0 a) = false /\ key (f_div 0 a) = 0.
Proof.
  intros N K. unfold f_div. rewrite N. change (f_isnan 0) with false. change (f_isinf 0) with false. cbn [orb].
  destruct (f_isinf a); [split; [|apply key_signed_0]; destruct (xorb _ _); reflexivity|].
  destruct (f_iszero a) eqn:Z; [apply key_zero in Z; lia|].
  destruct (round_parts (xorb (f_neg 0) (f_neg a)) (f_val 0 / f_val a)) as (-> & -> & _). split; [reflexivity|].
  rewrite (rk_comp _ (f_val 0)); [vm_compute; reflexivity|]. assert (E : (f_val 0 == 0)%Q) by (vm_compute; reflexivity).
  unfold Qdiv. rewrite E. ring.
Qed.
Lemma div_sign a c : 0 <= key a -> 0 < key c -> f_isnan (f_div a c) = false -> 0 <= key (f_div a c).
Proof.
  intros A C N. destruct (div_nn a c N) as (_ & NC). destruct (zero_div c NC C) as (Z1 & Z2).
  rewrite <- Z2. apply div_mono; [exact C|exact Z1|exact N|]. change (key 0) with 0. exact A.
Qed.
Lemma mul100_sign a : 0 <= key a -> f_isnan (f_mul (f_of_Z 100) a) = false -> 0 <= key (f_mul (f_of_Z 100) a).
Proof.
  intros A N. assert (E : f_mul (f_of_Z 100) 0 = 0) by (vm_compute; reflexivity).
  change 0 with (key 0) at 1. rewrite <- E at 1. apply mul_mono2; [rewrite key100; lia|rewrite E; reflexivity|exact N|exact A].
Qed.
Lemma of_Z_pos d : 0 <= d -> f_isnan (f_of_Z d) = false /\ 0 <= key (f_of_Z d).
Proof.
  intros H. unfold f_of_Z. destruct (round_parts false (inject_Z d)) as (_ & N & _). split; [exact N|].
  apply round_nonneg. change 0%Q with (inject_Z 0). rewrite <- Zle_Qle. exact H.
Qed.
Lemma key1000 : 0 < key (f_of_Z 1000). Proof. vm_compute. reflexivity. Qed.
Lemma times1000_pos a : f_isnan (f_mul a (f_of_Z 1000)) = false -> 0 < key (f_mul a (f_of_Z 1000)) -> 0 < key a.
Proof.
  intros N K. destruct (Z.le_gt_cases (key a) 0) as [L|L]; [|lia]. exfalso.
  assert (E : f_mul 0 (f_of_Z 1000) = 0) by (vm_compute; reflexivity).
  assert (H : key (f_mul a (f_of_Z 1000)) <= key (f_mul 0 (f_of_Z 1000))).
  { apply mul_mono; [pose proof key1000; lia|exact N|rewrite E; reflexivity|exact L]. }
  rewrite E in H. change (key 0) with 0 in H. lia.
Qed.
Lemma ramp_sign a d : 0 <= d -> 0 < key a ->
  let res := f_div (f_mul (f_of_Z 100) (f_div (f_of_Z d) (f_of_Z 1000))) a in f_isnan res = false -> 0 <= key res.
Proof.
  intros D A res N. apply div_sign; [|exact A|exact N]. destruct (div_nn _ _ N) as (N1 & _). apply mul100_sign; [|exact N1].
  destruct (mul_nn _ _ N1) as (_ & N2). destruct (of_Z_pos d D) as (_ & K). apply div_sign; [exact K|exact key1000|exact N2].
Qed.
Lemma accelerated_range w m now v : 0 <= w -> start_value m = f_of_Z 0 -> ranged v -> ranged (accelerated w m now v).
Proof.
  intros W S V. apply ranged_key in V. destruct V as (NV & V0 & V1). apply ranged_key. unfold accelerated. cbv zeta. rewrite S.
  pose proof (delta_nonneg w now (start_time m) W) as D. set (d := get_delta_millisec _ _ _) in *. clearbody d.
  set (a := par m P_acceleration_time). clearbody a.
  destruct (f_lt (f_of_Z d) (f_mul a (f_of_Z 1000))) eqn:Z; [|repeat split; assumption].
  apply f_lt_spec in Z. destruct Z as (_ & NA & Z). destruct (of_Z_pos d D) as (_ & KD).
  pose proof (times1000_pos a NA ltac:(lia)) as A. pose proof (ramp_sign a d D A) as R. cbv zeta in R.
  set (res := f_div _ a) in *. clearbody res.
  destruct (down m).
  - destruct (f_lt v (f_add (f_sub (f_of_Z 100) res) (f_of_Z 0))) eqn:L; [|repeat split; assumption].
    apply f_lt_spec in L. destruct L as (_ & N & L). destruct (add_nn _ _ N) as (N1 & _). destruct (sub_nn _ _ N1) as (_ & N2).
    destruct (add_zero _ N1) as (_ & E). rewrite E in *. split; [exact N|]. split; [lia|].
    assert (E0 : f_sub (f_of_Z 100) 0 = f_of_Z 100) by (vm_compute; reflexivity). rewrite <- E0.
    apply sub_anti; [rewrite E0; reflexivity|exact N1|]. change (key 0) with 0. apply R, N2.
  - destruct (f_lt res v) eqn:L; [|repeat split; assumption].
    apply f_lt_spec in L. destruct L as (N & _ & L). destruct (add_zero _ N) as (N1 & E). rewrite E. split; [exact N1|].
    specialize (R N). lia.
Qed.

(** * Law *)

Definition due (w : Z) (m : msa) (now : Z) : bool :=
  f_lt (f_mul (interval (par m)) (f_of_Z 1000)) (f_of_Z (get_delta_millisec w now (last_time m))).

Lemma recalc_law w m cur now : 
  let f := par m in
  sensible_gains (f 1) (f 2) (f 3) -> sensible_interval (f 4) -> sensible_range (f 6) (f 5) -> small 30 (f 0) -> small 30 cur ->
  ranged (uk_1 m) -> small 59 (ek_1 m) -> small 59 (ek_2 m) -> due w m now = true ->
  let q := recalc w m cur now in
  let T := seconds (f_val (f 4)) in let tI := integral_time (f_val (f 2)) in
  ek_1 q = error f cur /\ ek_2 q = ek_1 m /\ last_time q = now /\ ranged (uk_1 q) /\ small 59 (ek_1 q) /\
  Uk q = accelerated w m now (uk_1 q) /\
  (Qabs (f_val (uk_1 q) - cut (f_val (uk_1 m) + change (f_val (f 1%Z)) tI (f_val (f 3%Z)) T (f_val (ek_1 q)) (f_val (ek_1 m)) (f_val (ek_2 m))))
      <= 20 * u * (100 + size (f_val (f 1%Z)) tI (f_val (f 3%Z)) T (f_val (ek_1 q)) (f_val (ek_1 m)) (f_val (ek_2 m))))%Q.
Proof.
  intros f G SI SR SZ SC UR S1 S2 DUE q T tI. destruct G as (GK & GD & GI & GI2). destruct UR as (FU & U0 & U1).
  pose proof (error_small (as_pid f) cur 1 (or_introl eq_refl) SZ SC SR) as SE. rewrite error_as in SE.
  destruct (interval_near (as_pid f) SI) as (NI & BI). cbv zeta in NI, BI. rewrite interval_as in NI.
  change (PidModel.par (as_pid f) PidModel.P_dt) with (f 4) in NI, BI. fold T in NI, BI.
  destruct (ti_near (f 2) GI GI2) as (NT & BT). cbv zeta in NT, BT. fold tI in NT, BT.
  destruct (increment_near (f 1) _ (f 3) (interval f) (error f cur) (ek_1 m) (ek_2 m) tI T GK GD NI BI NT BT SE S1 S2) as (NC & BS).
  rewrite increment_as in NC. unfold q, recalc. cbv zeta. fold f. unfold due in DUE. fold f in DUE. rewrite DUE.
  cbn [uk_1 ek_1 ek_2 Uk last_time].
  change (f P_k) with (f 1). change (f P_Td) with (f 3). change (f P_Ti) with (f 2).
  set (inc := increment _ _ _ _ _ _ _) in *. clearbody inc.
  set (C := change _ _ _ _ _ _ _) in *. set (Z := size _ _ _ _ _ _ _) in *.
  assert (NU : near (uk_1 m) (f_val (uk_1 m)) 100 18).
  { assert (X : (Qabs (f_val (uk_1 m)) <= 100)%Q) by (apply abs_iff; lra).
    refine (near_more _ _ _ _ _ _ (near_exact _ _ FU X) _ _ _); lra. }
  assert (B2 : bp (100 + Z) 0 117).
  { assert (p2 117 == 2 * p2 116)%Q by (vm_compute; reflexivity). assert (100 <= p2 116)%Q by (vm_compute; discriminate).
    destruct BS as (X1 & X2). change (p2 0) with 1%Q in X1. split; [change (p2 0) with 1%Q|]; lra. }
  pose proof (near_add _ _ _ _ _ _ _ NU NC (bp_fits _ _ _ B2 ltac:(lia) ltac:(lia)) ltac:(lra)) as NS.
  destruct NS as (FS & DS & _).
  destruct (clamp_val _ FS) as (FC & VC). rewrite clamp_as in FC, VC. set (v := clamp (f_add (uk_1 m) inc)) in *.
  destruct (cut_range (f_val (f_add (uk_1 m) inc))) as (R0 & R1). rewrite <- VC in R0, R1.
  do 3 (split; [reflexivity|]). split; [split; [exact FC|split; assumption]|]. split; [exact SE|]. split; [reflexivity|].
  rewrite VC. rewrite Qabs_Qminus. rewrite Qabs_Qminus in DS.
  assert (E : (20 * u * (100 + Z) == (18 + 2) * u * (100 + Z))%Q) by ring. rewrite E. clear E.
  apply cut_close. exact DS.
Qed.

(** * Histories without manual mode *)

Record fine (f : Z -> Z) (m : msa) : Prop := {
  fi_par : forall j, j <> 0 -> j <> 8 -> j <> 10 -> j <> 12 -> par m j = f j;
  fi_task : small 30 (par m 12);
  fi_man : f_eq (par m 8) (f_of_Z 0) = true;
  fi_prev : prev_manual m = false;
  fi_uk : ranged (uk_1 m); fi_U : ranged (Uk m);
  fi_e1 : small 59 (ek_1 m); fi_e2 : small 59 (ek_2 m);
  fi_start : start_value m = f_of_Z 0 }.

Lemma limit_shown x : f_finite x = true -> f_le (f_lit (1 # 10)) x = Qle_bool (1 # 10) (f_val x).
Proof.
  intros F. assert (L : f_finite (f_lit (1 # 10)) = true) by (vm_compute; reflexivity).
  assert (V : (1 # 10 <= f_val (f_lit (1 # 10)))%Q) by (vm_compute; discriminate).
  assert (K : key (f_lit (1 # 10)) = rk (1 # 10)) by apply (round_parts false (1 # 10)).
  set (y := f_lit (1 # 10)) in *. clearbody y.
  destruct (Qle_bool (1 # 10) (f_val x)) eqn:E.
  - apply Qle_bool_iff in E. apply (proj2 (f_le_spec y x)). split; [apply (finite_not y L)|]. split; [apply (finite_not x F)|].
    rewrite <- (rk_exact x F), K. apply rk_mono, E.
  - destruct (f_le y x) eqn:G; [|reflexivity]. apply f_le_spec in G. destruct G as (_ & _ & G). apply (val_le y x L F) in G.
    assert (X : (1 # 10 <= f_val x)%Q) by lra. apply Qle_bool_iff in X. congruence.
Qed.
Lemma share_range f v : ranged v -> f_finite (f 11) = true -> (f_val (f 11%Z) <= 1000)%Q ->
  f_finite (share f v) = true /\ (0 <= f_val (share f v))%Q /\ (f_val (share f v) <= top (f_val (f 11%Z)) * (1 + (1 # 4000000)))%Q.
Proof.
  intros (FV & V0 & V1) FL L. unfold share. change (f P_limit) with (f 11). rewrite (limit_shown _ FL). unfold top.
  set (x := f 11) in *. clearbody x. destruct (Qle_bool (1 # 10) (f_val x)) eqn:E; [apply Qle_bool_iff in E|split; [exact FV|]; split; [exact V0|lra]].
  assert (X : (0 <= f_val v * f_val x)%Q) by (apply Qmult_le_0_compat; lra).
  assert (Y : (f_val v * f_val x <= 100 * f_val x)%Q) by (apply Qmult_le_compat_r; lra).
  assert (B : (100000 <= p2 127)%Q) by (vm_compute; discriminate).
  destruct (mul_rel v x FV FL) as (FM & RM). { rewrite Qabs_pos by exact X. lra. }
  rewrite (Qabs_pos _ X) in RM. apply abs_iff in RM.
  assert (Z0 : (z <= u * (1 # 1000000))%Q) by (vm_compute; discriminate). assert (U0 : (u == 1 # 16777216)%Q) by (vm_compute; reflexivity).
  assert (Z1 : (0 <= z)%Q) by (vm_compute; discriminate).
  assert (KM : 0 <= key (f_mul v x)). { apply mul_pos_key; [exact FM| |]; [apply (val_nonneg_key v FV), V0|apply (val_nonneg_key x FL); lra]. }
  assert (M0 : (0 <= f_val (f_mul v x))%Q) by (apply (val_nonneg_key _ FM), KM).
  set (M := f_mul v x) in *. clearbody M.
  assert (F100 : f_finite (f_of_Z 100) = true) by reflexivity. pose proof (vz 100 ltac:(lia)) as V100.
  assert (DV : (f_val M / f_val (f_of_Z 100) == f_val M * (1 # 100))%Q) by (rewrite V100; reflexivity).
  destruct (div_rel M (f_of_Z 100) FM F100) as (FD & RD). { rewrite V100. discriminate. }
  { rewrite (abs_comp _ _ DV). rewrite Qabs_pos by lra. lra. }
  rewrite (abs_comp (f_val M / f_val (f_of_Z 100)) _ DV) in RD. rewrite (Qabs_pos (f_val M * (1 # 100))) in RD by lra. apply abs_iff in RD. rewrite DV in RD.
  split; [exact FD|]. split.
  - apply (val_nonneg_key _ FD). apply div_sign; [exact KM|rewrite key100; lia|apply finite_not, FD].
  - lra.
Qed.

Lemma zero_ranged : ranged (f_of_Z 0). Proof. split; [reflexivity|split; vm_compute; discriminate]. Qed.
Lemma hundred_ranged : ranged (f_of_Z 100). Proof. split; [reflexivity|split; vm_compute; discriminate]. Qed.
Lemma zero_small : small 59 (f_of_Z 0). Proof. split; [reflexivity|vm_compute; discriminate]. Qed.
Lemma zero_eq : f_eq (f_of_Z 0) (f_of_Z 0) = true. Proof. reflexivity. Qed.

Lemma fine_create f t : f_eq (f 8) (f_of_Z 0) = true -> small 30 (f 12) -> fine f (create f t).
Proof. intros H T. constructor; try reflexivity; try exact zero_ranged; try exact zero_small; assumption. Qed.
Lemma fine_pid_reset f m t : fine f m -> fine f (pid_reset m t).
Proof.
  intros [A TK B C D E F G H]. constructor; cbn [pid_reset par uk_1 ek_1 ek_2 Uk prev_manual start_value]; try assumption; try exact zero_ranged; try exact zero_small.
  - intros j J0 J8 J10 J12. unfold put. change P_is_manual_mode with 8. change P_U with 10. destruct (j =? 8) eqn:X; [apply Z.eqb_eq in X; lia|].
    destruct (j =? 10) eqn:Y; [apply Z.eqb_eq in Y; lia|]. apply A; assumption.
  - reflexivity.
  - destruct (down m); [exact hundred_ranged|exact zero_ranged].
Qed.
Lemma fine_reset f w m t : fine f m -> fine f (reset w m t).
Proof. intros H. unfold reset. destruct (_ <? _); [apply fine_pid_reset, H|exact H]. Qed.
Lemma fine_same f m m' : fine f m -> par m' = par m -> uk_1 m' = uk_1 m -> Uk m' = Uk m -> ek_1 m' = ek_1 m -> ek_2 m' = ek_2 m ->
  prev_manual m' = prev_manual m -> start_value m' = start_value m -> fine f m'.
Proof. intros [A TK B C D E F G H] X1 X2 X3 X4 X5 X6 X7. constructor; rewrite ?X1, ?X2, ?X3, ?X4, ?X5, ?X6, ?X7; assumption. Qed.
Lemma fine_put f m i v : fine f m -> i <> 8 -> (i = 12 -> small 30 v) -> fine (upd f i v) (with_par m (put (par m) i v)).
Proof.
  intros [A TK B C D E F G H] I I12. constructor; cbn [with_par par uk_1 ek_1 ek_2 Uk prev_manual start_value]; try assumption.
  - intros j J0 J8 J10 J12. unfold put, upd. destruct (j =? i); [reflexivity|]. apply A; assumption.
  - unfold put. destruct (12 =? i) eqn:X; [apply Z.eqb_eq in X; apply I12; symmetry; exact X|exact TK].
  - unfold put. destruct (8 =? i) eqn:X; [apply Z.eqb_eq in X; lia|]. exact B.
Qed.
Lemma fine_upd f m i v : (i = 0 \/ i = 10 \/ i = 12) -> fine (upd f i v) m -> fine f m.
Proof.
  intros I [A TK B C D E F G H]. constructor; try assumption. intros j J0 J8 J10 J12. rewrite A by assumption. unfold upd.
  destruct (j =? i) eqn:X; [apply Z.eqb_eq in X; lia|reflexivity].
Qed.

Lemma fine_recalc f w m c now : 0 <= w -> fine f m -> good_settings f -> small 30 (par m 0) -> small 30 c -> fine f (recalc w m c now).
Proof.
  intros W FI (G & SI & SR & _) SZ SC. destruct (due w m now) eqn:DUE.
  2:{ unfold recalc. cbv zeta. fold (due w m now). rewrite DUE. exact FI. }
  destruct FI as [A TK B C D E F G' H].
  assert (P : forall j, j <> 0 -> j <> 8 -> j <> 10 -> j <> 12 -> f j = par m j) by (intros; symmetry; apply A; assumption).
  rewrite (P 1), (P 2), (P 3) in G by lia. rewrite (P 4) in SI by lia. rewrite (P 5), (P 6) in SR by lia.
  pose proof (recalc_law w m c now G SI SR SZ SC D F G' DUE) as L. cbv zeta in L.
  destruct L as (L1 & L2 & L3 & L4 & L5 & L6 & _).
  assert (Q : par (recalc w m c now) = par m /\ prev_manual (recalc w m c now) = prev_manual m /\ start_value (recalc w m c now) = start_value m).
  { unfold recalc. cbv zeta. destruct (f_lt _ _); repeat split. }
  destruct Q as (Q1 & Q2 & Q3).
  constructor; rewrite ?Q1, ?Q2, ?Q3; try assumption.
  - rewrite L6. apply accelerated_range; assumption.
  - rewrite L2. exact F.
Qed.

Lemma fine_eval f w m c now : 0 <= w -> fine f m -> good_settings f -> small 30 (par m 0) -> small 30 c -> on m = true ->
  fine f (fst (pid_eval w m c now)) /\ fits_limit f (snd (pid_eval w m c now)).
Proof.
  intros W FI GS SZ SC O. pose proof (fine_recalc f w m c now W FI GS SZ SC) as R.
  unfold pid_eval. rewrite O. cbn [negb]. cbv zeta. set (q := recalc w m c now) in *. clearbody q.
  destruct R as [A TK B C D E F G H].
  assert (EN : entered q = q). { unfold entered. change P_is_manual_mode with 8. unfold f_true. rewrite B. reflexivity. }
  rewrite EN. change P_is_manual_mode with 8. rewrite C, andb_false_r. cbn [fst snd].
  destruct GS as (_ & _ & _ & _ & FL & LL).
  assert (P11 : par q 11 = f 11) by (apply A; lia).
  destruct (share_range (par q) (Uk q) E) as (S1 & S2 & S3); [rewrite P11; exact FL|rewrite P11; exact LL|]. rewrite P11 in S3.
  assert (FP : fine f (with_par q (put (par q) P_U (share (par q) (Uk q))))).
  { apply fine_upd with (i := 10) (v := share (par q) (Uk q)); [right; left; reflexivity|]. apply fine_put; [|discriminate|discriminate]. constructor; assumption. }
  split; [exact FP|].
  assert (ONE : f_eq (f_of_Z 1) (par (with_par q (put (par q) P_U (share (par q) (Uk q)))) 8) = false).
  { cbn [with_par par]. unfold put. change (8 =? P_U) with false. cbv iota. apply f_eq_spec in B. destruct B as (_ & _ & B).
    destruct (f_eq (f_of_Z 1) (par q 8)) eqn:X; [|reflexivity]. apply f_eq_spec in X. destruct X as (_ & _ & X). rewrite B in X. discriminate X. }
  rewrite ONE. split; [exact S1|]. split; assumption.
Qed.

Lemma top_pos x : (0 <= top x)%Q.
Proof. unfold top. destruct (Qle_bool (1 # 10) x) eqn:E; [apply Qle_bool_iff in E|]; lra. Qed.
Lemma zero_fits f : fits_limit f (f_of_Z 0).
Proof.
  split; [reflexivity|]. assert (E : (f_val (f_of_Z 0) == 0)%Q) by (vm_compute; reflexivity). rewrite E. pose proof (top_pos (f_val (f 11))). split; lra.
Qed.

Lemma fine_step f w m e h : 0 <= w -> fine f m -> good_settings f -> good_history f (e :: h) ->
  fine (next f e) (fst (mstep w m e)) /\ good_settings (next f e) /\ good_history (next f e) h /\
  forall o, snd (mstep w m e) = Some o -> fits_limit f o.
Proof.
  intros W FI GS GH. destruct e as [a t| |t|t|c t|c k t|i v]; cbn [mstep next good_history fst snd] in *.
  - split; [|split; [exact GS|split; [exact GH|discriminate]]]. unfold pid_on. destruct (on m); [exact FI|].
    apply fine_same with m; try reflexivity; exact FI.
  - split; [|split; [exact GS|split; [exact GH|intros o E; inversion E; apply zero_fits]]].
    apply fine_same with m; try reflexivity; exact FI.
  - split; [apply fine_reset, FI|split; [exact GS|split; [exact GH|discriminate]]].
  - split; [apply fine_pid_reset, FI|split; [exact GS|split; [exact GH|discriminate]]].
  - destruct GH as (SC & GH). unfold eval. destruct (on m) eqn:O; [|cbn [fst snd]; split; [exact FI|split; [exact GS|split; [exact GH|discriminate]]]].
    cbv zeta. set (q := with_par _ _).
    assert (T1 : small 30 (par m 12)) by apply FI.
    assert (F1 : fine f q).
    { apply fine_upd with (i := 0) (v := par m 12); [left; reflexivity|]. unfold q. apply (fine_put f (touch m t)); [|discriminate|discriminate].
      apply fine_same with m; try reflexivity; exact FI. }
    assert (T2 : small 30 (par q 0)) by exact T1.
    destruct (fine_eval f w q c t W F1 GS T2 SC O) as (A & B). destruct (pid_eval w q c t) as (r, x). cbn [fst snd] in *.
    split; [exact A|split; [exact GS|split; [exact GH|]]]. intros o E. inversion E; subst. exact B.
  - destruct GH as (SC & SK & GH). unfold eval_task. destruct (on m) eqn:O; [|cbn [fst snd]; split; [exact FI|split; [exact GS|split; [exact GH|discriminate]]]].
    cbv zeta. set (q := with_par _ _).
    assert (F1 : fine f q).
    { apply fine_upd with (i := 12) (v := k); [right; right; reflexivity|]. unfold q.
      change (fine (upd f 12 k) (with_par (with_par (touch m t) (put (par m) 0 k)) (put (par (with_par (touch m t) (put (par m) 0 k))) 12 k))).
      apply fine_put; [|discriminate|intros _; exact SK].
      apply fine_upd with (i := 0) (v := k); [left; reflexivity|]. apply (fine_put f (touch m t)); [|discriminate|discriminate].
      apply fine_same with m; try reflexivity; exact FI. }
    assert (T2 : small 30 (par q 0)) by exact SK.
    destruct (f_eq (f_of_Z 0) k).
    + cbn [fst snd]. split; [exact F1|split; [exact GS|split; [exact GH|]]]. intros o E. inversion E. apply zero_fits.
    + destruct (fine_eval f w q c t W F1 GS T2 SC O) as (A & B). destruct (pid_eval w q c t) as (r, x). cbn [fst snd] in *.
      split; [exact A|split; [exact GS|split; [exact GH|]]]. intros o E. inversion E; subst. exact B.
  - destruct GH as (I0 & I8 & GS' & GH). split; [|split; [exact GS'|split; [exact GH|discriminate]]].
    apply fine_put; [exact FI|exact I8|]. intros ->. destruct GS' as (_ & _ & _ & X & _). exact X.
Qed.
Lemma fine_run w h : 0 <= w -> forall f m, fine f m -> good_settings f -> good_history f h ->
  Forall2 (fun g o => forall v, o = Some v -> fits_limit g v) (settings_then f h) (snd (mrun w m h)).
Proof.
  intros W. induction h as [|e h IH]; intros f m FI GS GH; [constructor|]. cbn [settings_then mrun].
  destruct (fine_step f w m e h W FI GS GH) as (A & B & C & D). destruct (mstep w m e) as (m1, o). cbn [fst snd] in *.
  specialize (IH (next f e) m1 A B C). destruct (mrun w m1 h) as (m2, l). cbn [snd] in *. constructor; assumption.
Qed.
