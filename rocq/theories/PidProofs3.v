(** The regulator as a whole. *)
From Coq Require Import ZArith List Bool Lia QArith Qround Qpower Qabs Qminmax Lqa.
From Verif Require Import Base FTextModel FTextProofs FloatModel FloatProofs FloatProofs2 FloatProofs3 AioProofs TimeModel PidModel PidSpec PidProofs PidProofs2.
Import ListNotations.
Open Scope Q_scope.

(** * Limits *)

Lemma Qle_bool_false a b : Qle_bool a b = false <-> b < a.
Proof.
  split; intros H.
  - apply Qnot_le_lt. intros X. apply Qle_bool_iff in X. congruence.
  - destruct (Qle_bool a b) eqn:E; [|reflexivity]. apply Qle_bool_iff in E. lra.
Qed.
Ltac qcase := repeat match goal with
  | |- context [Qle_bool ?a ?b] => let E := fresh "E" in destruct (Qle_bool a b) eqn:E; [apply Qle_bool_iff in E|apply Qle_bool_false in E]
  | H : context [Qle_bool ?a ?b] |- _ => let E := fresh "E" in destruct (Qle_bool a b) eqn:E; [apply Qle_bool_iff in E|apply Qle_bool_false in E]
  end.

Lemma limit_val lo hi v : f_finite lo = true -> f_finite hi = true -> f_val lo <= f_val hi -> f_finite v = true ->
  f_finite (limit lo hi v) = true /\ f_val (limit lo hi v) == within (f_val lo) (f_val hi) (f_val v).
Proof.
  intros L H O V. unfold limit, within. cbv zeta. rewrite (lt_val v lo V L).
  destruct (Qle_bool (f_val lo) (f_val v)) eqn:E1; cbn [negb]; [apply Qle_bool_iff in E1|apply Qle_bool_false in E1].
  - rewrite (lt_val hi v H V). destruct (Qle_bool (f_val v) (f_val hi)) eqn:E2; cbn [negb]; [apply Qle_bool_iff in E2|apply Qle_bool_false in E2].
    + split; [exact V|]. qcase; lra.
    + split; [exact H|]. qcase; lra.
  - rewrite (lt_val hi lo H L). assert (E2 : Qle_bool (f_val lo) (f_val hi) = true) by (apply Qle_bool_iff; exact O). rewrite E2. cbn [negb].
    split; [exact L|]. qcase; lra.
Qed.
Lemma limit_small lo hi v n : small n lo -> small n hi -> small n v -> small n (limit lo hi v).
Proof. intros. unfold limit. cbv zeta. destruct (f_lt v lo); destruct (f_lt hi _); assumption. Qed.

Lemma min_val : f_finite MIN_OUT = true /\ f_val MIN_OUT == 0.
Proof. split; [reflexivity|vm_compute; reflexivity]. Qed.
Lemma max_val : f_finite MAX_OUT = true /\ f_val MAX_OUT == 100.
Proof. split; [reflexivity|vm_compute; reflexivity]. Qed.
Lemma clamp_val v : f_finite v = true ->
  f_finite (clamp MIN_OUT MAX_OUT v) = true /\ f_val (clamp MIN_OUT MAX_OUT v) == cut (f_val v).
Proof.
  intros V. destruct min_val as (FL & L). destruct max_val as (FH & H). unfold clamp, cut. cbv zeta.
  rewrite (lt_val MAX_OUT v FH V).
  destruct (Qle_bool (f_val v) (f_val MAX_OUT)) eqn:E1; cbn [negb]; [apply Qle_bool_iff in E1|apply Qle_bool_false in E1]; rewrite H in E1.
  - rewrite (lt_val v MIN_OUT V FL). destruct (Qle_bool (f_val MIN_OUT) (f_val v)) eqn:E2; cbn [negb]; [apply Qle_bool_iff in E2|apply Qle_bool_false in E2]; rewrite L in E2.
    + split; [exact V|]. qcase; lra.
    + split; [exact FL|]. rewrite L. qcase; lra.
  - rewrite (lt_val MAX_OUT MIN_OUT FH FL). destruct (Qle_bool (f_val MIN_OUT) (f_val MAX_OUT)) eqn:E2; cbn [negb]; [apply Qle_bool_iff in E2|apply Qle_bool_false in E2]; rewrite L, H in E2.
    + split; [exact FH|]. rewrite H. qcase; lra.
    + lra.
Qed.
Lemma cut_range x : 0 <= cut x /\ cut x <= 100.
Proof. unfold cut. qcase; lra. Qed.
Lemma cut_close x y e : Qabs (x - y) <= e -> Qabs (cut x - cut y) <= e.
Proof. intros H. apply abs_iff in H. apply abs_iff. unfold cut. qcase; lra. Qed.

(** * Time of acceleration *)

Lemma ofz_near v : (1 <= v <= 2 ^ 64)%Z -> near (f_of_Z v) (inject_Z v) (inject_Z v) 2.
Proof.
  intros H. unfold f_of_Z. set (x := inject_Z v).
  assert (X1 : 1 <= x) by (unfold x; change 1 with (inject_Z 1); rewrite <- Zle_Qle; lia).
  assert (X2 : x <= p2 64). { unfold x. rewrite p2_Z by lia. rewrite <- Zle_Qle. lia. }
  assert (p2 64 <= p2 127) by (vm_compute; discriminate).
  destruct (round_near false x x) as (F & R1 & R2); [lra|lra|lra|].
  assert (z <= u) by (vm_compute; discriminate). change (p2 (-24)) with u in R1, R2.
  assert (Qabs x == x) by (apply Qabs_pos; lra).
  repeat split; try assumption; try lra. apply abs_iff. lra.
Qed.
Lemma ofz_near0 v m : (0 <= v <= 2 ^ 64)%Z -> inject_Z v <= m -> near (f_of_Z v) (inject_Z v) m 2.
Proof.
  intros H M. destruct (Z.eq_dec v 0) as [->|N].
  - change (inject_Z 0) with 0 in M |- *. assert (X : near (f_of_Z 0) 0 0 0) by exact (const_near 0 ltac:(lia)).
    refine (near_more _ _ _ _ _ _ X M _ _); lra.
  - refine (near_more _ _ _ _ _ _ (ofz_near v ltac:(lia)) M _ _); lra.
Qed.
Lemma round_nonneg s x : 0 <= x -> (0 <= key (f_round s x))%Z.
Proof.
  intros H. destruct (round_parts s x) as (-> & _). assert (V : f_val 0 == 0) by (vm_compute; reflexivity).
  pose proof (rk_mono (f_val 0) x ltac:(rewrite V; exact H)) as M. rewrite rk_exact in M by reflexivity. exact M.
Qed.

Definition ramp (delta acc : Z) : Z := f_div (f_mul MAX_OUT (f_of_Z delta)) (f_of_Z acc).
Lemma ramp_near d a : (0 <= d < a)%Z -> (a <= 2 ^ 64)%Z ->
  near (ramp d a) (100 * inject_Z d / inject_Z a) 100 8 /\ 0 <= f_val (ramp d a).
Proof.
  intros H A. unfold ramp. set (x := inject_Z d). set (y := inject_Z a).
  assert (XY : x <= y) by (unfold x, y; rewrite <- Zle_Qle; lia).
  assert (Y1 : 1 <= y) by (unfold y; change 1 with (inject_Z 1); rewrite <- Zle_Qle; lia).
  assert (X0 : 0 <= x) by (unfold x; change 0 with (inject_Z 0); rewrite <- Zle_Qle; lia).
  assert (Y2 : y <= p2 64). { unfold y. rewrite p2_Z by lia. rewrite <- Zle_Qle. lia. }
  pose proof (ofz_near0 d y ltac:(lia) XY) as N1. pose proof (ofz_near a ltac:(lia)) as N2. fold x in N1. fold y in N2.
  assert (AY : Qabs y == y) by (apply Qabs_pos; lra).
  assert (B1 : bp (100 * y) 0 71).
  { assert (100 * p2 64 <= p2 71) by (vm_compute; discriminate). split; [change (p2 0) with 1|]; lra. }
  assert (N0 : near MAX_OUT 100 100 0) by exact (const_near 100 ltac:(lia)).
  pose proof (near_mul _ _ _ _ _ _ _ _ N0 N1 (bp_fits _ _ _ B1 ltac:(lia) ltac:(lia)) ltac:(lra)) as N3.
  assert (N2' : near (f_of_Z a) y (Qabs y) 2) by (apply near_more with y 2; [exact N2|rewrite AY; apply Qle_refl|lra|lra]).
  assert (E100 : 100 * y / Qabs y == 100) by (rewrite AY; field; lra).
  assert (FT : fits (100 * y / Qabs y)) by (unfold fits; rewrite E100; split; vm_compute; discriminate).
  pose proof (near_div _ _ _ _ _ _ _ N3 N2' ltac:(lra) FT ltac:(lra)) as N4.
  split.
  - refine (near_more _ _ _ _ _ _ N4 _ _ _); [rewrite E100; apply Qle_refl|lra|lra].
  - destruct N2 as (F2 & E2 & _). destruct N3 as (F3 & _). destruct N1 as (F1 & _).
    assert (V2 : 0 < f_val (f_of_Z a)). { apply abs_iff in E2. lra. }
    assert (K2 : key (f_of_Z a) <> 0%Z). { intros K. apply val_zero_key in K; [lra|exact F2]. }
    apply val_nonneg_key; [apply N4|]. rewrite div_finite by (assumption || exact K2). apply round_nonneg.
    apply Qle_shift_div_l; [exact V2|]. setoid_replace (0 * f_val (f_of_Z a)) with 0 by ring.
    apply val_nonneg_key; [exact F3|]. rewrite mul_finite by (exact F1 || reflexivity). apply round_nonneg.
    destruct max_val as (_ & V). rewrite V. assert (0 <= f_val (f_of_Z d)); [|lra].
    apply val_nonneg_key; [exact F1|]. apply round_nonneg. exact X0.
Qed.
Lemma time_u32 a : sensible_time a -> exists n, f_to_u32 a = Some n /\ n = Qfloor (f_val a) /\ (0 <= n < 2 ^ 32)%Z.
Proof.
  intros (F & H0 & H1). exists (Qfloor (f_val a)).
  assert (A : (Qfloor (f_val a) < 2 ^ 32)%Z).
  { rewrite Zlt_Qlt. pose proof (Qfloor_le (f_val a)). change (Qpower 2 32) with (p2 32) in H1. rewrite (p2_Z 32) in H1 by lia. lra. }
  split; [apply to_u32_pos; assumption|]. split; [reflexivity|]. split; [|exact A].
  apply Qfloor_resp_le in H0. exact H0.
Qed.
Lemma add_above a b : f_finite a = true -> f_finite b = true -> 0 <= f_val b -> (key a <= key (f_add a b))%Z.
Proof.
  intros A B H. rewrite add_finite by assumption.
  destruct (round_parts (f_neg a && f_neg b) (f_val a + f_val b)) as (-> & _).
  rewrite <- (rk_exact a A). apply rk_mono. lra.
Qed.

Lemma delta_nonneg w now t : (0 <= w)%Z -> (0 <= get_delta_millisec w now t)%Z.
Proof.
  intros W. unfold get_delta_millisec. cbv zeta. destruct (now <? t)%Z.
  - destruct (Z.leb_spec t ((now + 2) mod 2 ^ w)); [lia|]. apply Z.mod_pos_bound. apply Z.pow_pos_nonneg; lia.
  - destruct (Z.leb_spec t now); [lia|]. apply Z.mod_pos_bound. apply Z.pow_pos_nonneg; lia.
Qed.

(** What the zone of acceleration does. *)
Lemma accelerated_ok w p now v : (0 <= w <= 64)%Z -> sensible_time (par p P_acceleration_time) -> small 30 (start_value p) ->
  f_finite v = true -> 0 <= f_val v -> f_val v <= 100 ->
  let d := get_delta_millisec w now (start_time p) in
  let a := ((1000 * Qfloor (f_val (par p P_acceleration_time))) mod 2 ^ w)%Z in
  let line := 100 * inject_Z d / inject_Z a in
  exists v', accelerated w p now v = Some v' /\ small 30 v' /\
    ((a <= d)%Z -> v' = v) /\
    ((d < a)%Z -> f_true (par p P_is_zero_start) = true ->
       f_val v' <= f_val v /\ f_val v' <= f_val (start_value p) + line + (Qabs (f_val (start_value p)) + 100) * (10 * u)) /\
    ((d < a)%Z -> f_true (par p P_is_zero_start) = false ->
       f_val v <= f_val v' /\ f_val (start_value p) - line - (Qabs (f_val (start_value p)) + 100) * (10 * u) <= f_val v').
Proof.
  intros W HT (FS & HS) FV V0 V1 d a line. change (Qpower 2 30) with (p2 30) in HS.
  destruct (time_u32 _ HT) as (n & E1 & E2 & E3). unfold accelerated. rewrite E1, E2. fold d. fold a.
  assert (SV : small 30 v).
  { split; [exact FV|]. change (Qpower 2 30) with (p2 30). assert (100 <= p2 30) by (vm_compute; discriminate). apply abs_iff. lra. }
  destruct (Z.ltb_spec d a) as [L|L].
  2:{ exists v. split; [reflexivity|]. split; [exact SV|]. repeat split; intros; lia. }
  assert (D0 : (0 <= d)%Z) by (apply delta_nonneg; lia).
  assert (A1 : (a <= 2 ^ 64)%Z).
  { pose proof (Z.mod_pos_bound (1000 * Qfloor (f_val (par p P_acceleration_time))) (2 ^ w) ltac:(apply Z.pow_pos_nonneg; lia)).
    pose proof (Z.pow_le_mono_r 2 w 64 ltac:(lia) ltac:(lia)). unfold a. lia. }
  destruct (ramp_near d a (conj D0 L) A1) as (N & N0). fold (ramp d a). fold line in N.
  set (st := start_value p) in *. set (r := ramp d a) in *. clearbody r st.
  pose proof (abs_pos (f_val st)) as PS.
  assert (B : bp (Qabs (f_val st) + 100) 0 31).
  { assert (p2 30 + 100 <= p2 31) by (vm_compute; discriminate). split; [change (p2 0) with 1|]; lra. }
  assert (NS : near st (f_val st) (Qabs (f_val st)) 8).
  { refine (near_more _ _ _ _ _ _ (near_exact st (Qabs (f_val st)) FS (Qle_refl _)) _ _ _); [apply Qle_refl|lra|lra]. }
  assert (FR : f_finite r = true) by apply N.
  destruct (f_true (par p P_is_zero_start)) eqn:ZS.
  - pose proof (near_add _ _ _ _ _ _ _ NS N (bp_fits _ _ _ B ltac:(lia) ltac:(lia)) ltac:(lra)) as NA.
    destruct NA as (FA & A2 & _). apply abs_iff in A2.
    pose proof (add_above st r FS FR N0) as AB. apply (val_le st (f_add st r) FS FA) in AB.
    rewrite (lt_val (f_add st r) v FA FV). destruct (Qle_bool (f_val v) (f_val (f_add st r))) eqn:E; cbn [negb];
      [apply Qle_bool_iff in E|apply Qle_bool_false in E].
    + exists v. split; [reflexivity|]. split; [exact SV|]. split; [intros; lia|]. split; [|intros; discriminate].
      intros _ _. lra.
    + exists (f_add st r). split; [reflexivity|]. split.
      * split; [exact FA|]. change (Qpower 2 30) with (p2 30). apply abs_iff in HS. assert (100 <= p2 30) by (vm_compute; discriminate).
        apply abs_iff. lra.
      * split; [intros; lia|]. split; [|intros; discriminate]. intros _ _. lra.
  - pose proof (near_sub _ _ _ _ _ _ _ NS N (bp_fits _ _ _ B ltac:(lia) ltac:(lia)) ltac:(lra)) as NA.
    destruct NA as (FA & A2 & _). apply abs_iff in A2.
    assert (AB : f_val (f_sub st r) <= f_val st).
    { apply (val_le _ _ FA FS). destruct (sub_finite st r FS FR) as (s & y & E & Y). rewrite E.
      destruct (round_parts s y) as (-> & _). rewrite <- (rk_exact st FS). apply rk_mono. rewrite Y. lra. }
    rewrite (lt_val v (f_sub st r) FV FA). destruct (Qle_bool (f_val (f_sub st r)) (f_val v)) eqn:E; cbn [negb];
      [apply Qle_bool_iff in E|apply Qle_bool_false in E].
    + exists v. split; [reflexivity|]. split; [exact SV|]. split; [intros; lia|]. split; [intros; discriminate|].
      intros _ _. lra.
    + exists (f_sub st r). split; [reflexivity|]. split.
      * split; [exact FA|]. change (Qpower 2 30) with (p2 30). apply abs_iff in HS.
        apply abs_iff. lra.
      * split; [intros; lia|]. split; [intros; discriminate|]. intros _ _. lra.
Qed.

(** * Recalculation *)

(** The numbers the regulator keeps are usable. *)
Definition sound (p : pid) : Prop :=
  (f_finite (uk_1 p) = true /\ 0 <= f_val (uk_1 p) /\ f_val (uk_1 p) <= 100) /\
  small 59 (ek_1 p) /\ small 59 (ek_2 p) /\ small 30 (Uk p) /\ small 30 (start_value p) /\ small 30 (out_value p) /\
  small 30 (set_value p) /\ small 30 (par p P_U_manual).

(** The numbers used in a recalculation. *)
Definition used_gains (p : pid) : Z * Z * Z :=
  if (used_par p =? 2)%Z then (par p 10%Z, par p 11%Z, par p 12%Z) else (par p 1%Z, par p 2%Z, par p 3%Z).
Definition due (w : Z) (p : pid) (now : Z) : bool :=
  f_lt (f_mul (interval p) (f_of_Z 1000)) (f_of_Z (get_delta_millisec w now (last_time p))).

Lemma gains_sensible p K TI TD : tuned (par p) -> used_gains p = (K, TI, TD) -> sensible_gains K TI TD.
Proof.
  intros ((G1 & G2 & _) & _) E. unfold used_gains in E. destruct (used_par p =? 2)%Z; inversion E; subst; assumption.
Qed.

Lemma recalc_law w p cur s now K TI TD : (0 <= w <= 64)%Z -> tuned (par p) -> sound p -> small 30 cur -> sign_ok s ->
  used_gains p = (K, TI, TD) -> due w p now = true ->
  let T := seconds (f_val (par p P_dt)) in let tI := integral_time (f_val TI) in
  exists q, recalc w p cur s now = Some q /\ sound q /\ par q = par p /\ prev_manual q = prev_manual p /\ state q = state p /\
    last_time q = now /\ start_time q = start_time p /\ start_value q = start_value p /\ out_value q = out_value p /\
    ek_1 q = error p cur s /\ ek_2 q = ek_1 p /\ accelerated w p now (uk_1 q) = Some (Uk q) /\
    Qabs (f_val (uk_1 q) - cut (f_val (uk_1 p) + change (f_val K) tI (f_val TD) T (f_val (ek_1 q)) (f_val (ek_1 p)) (f_val (ek_2 p))))
      <= 20 * u * (100 + size (f_val K) tI (f_val TD) T (f_val (ek_1 q)) (f_val (ek_1 p)) (f_val (ek_2 p))).
Proof.
  intros W TU SO SC SG UG DUE T tI.
  pose proof (gains_sensible p K TI TD TU UG) as (GK & GD & GI & GI2).
  destruct TU as ((_ & _ & SI & SR & ST) & _).
  destruct SO as ((FU & U0 & U1) & S1 & S2 & SU & SS & SOut & SSet & SM).
  pose proof (error_small p cur s SG SSet SC SR) as SE.
  destruct (interval_near p SI) as (NI & BI). cbv zeta in NI, BI. change (par p 4%Z) with (par p P_dt) in SI. fold T in NI, BI.
  destruct (ti_near TI GI GI2) as (NT & BT). cbv zeta in NT, BT. fold tI in NT, BT.
  destruct (increment_near K _ TD (interval p) (error p cur s) (ek_1 p) (ek_2 p) tI T GK GD NI BI NT BT SE S1 S2) as (NC & BS).
  set (inc := increment _ _ _ _ _ _ _) in NC.
  set (C := change _ _ _ _ _ _ _) in NC. set (Z := size _ _ _ _ _ _ _) in NC, BS.
  assert (NU : near (uk_1 p) (f_val (uk_1 p)) 100 18).
  { assert (X : Qabs (f_val (uk_1 p)) <= 100) by (apply abs_iff; lra).
    refine (near_more _ _ _ _ _ _ (near_exact _ _ FU X) _ _ _); lra. }
  assert (B2 : bp (100 + Z) 0 117).
  { assert (p2 117 == 2 * p2 116) by (vm_compute; reflexivity). assert (100 <= p2 116) by (vm_compute; discriminate). change (p2 0) with 1 in *.
    destruct BS as (X1 & X2). change (p2 0) with 1 in X1. split; [change (p2 0) with 1|]; lra. }
  pose proof (near_add _ _ _ _ _ _ _ NU NC (bp_fits _ _ _ B2 ltac:(lia) ltac:(lia)) ltac:(lra)) as NS.
  destruct NS as (FS & DS & _).
  destruct (clamp_val _ FS) as (FC & VC). set (v := clamp MIN_OUT MAX_OUT _) in *.
  destruct (cut_range (f_val (f_add (uk_1 p) inc))) as (R0 & R1). rewrite <- VC in R0, R1.
  destruct (accelerated_ok w p now v W ST SS FC R0 R1) as (v' & AE & SV' & _).
  unfold recalc. change (gains p) with (used_gains p). rewrite UG. fold (due w p now). rewrite DUE. cbv zeta. fold inc. fold v.
  rewrite AE. eexists. split; [reflexivity|].
  cbn [uk_1 ek_1 ek_2 Uk start_value out_value set_value par prev_manual state last_time start_time].
  split. { repeat split; try assumption; try apply S1; try apply SE; try apply SV'; try apply SS; try apply SOut; try apply SSet; try apply SM. }
  do 10 (split; [reflexivity || exact AE|]).
  rewrite VC. fold C. fold Z. rewrite Qabs_Qminus. rewrite Qabs_Qminus in DS.
  assert (E : 20 * u * (100 + Z) == (18 + 2) * u * (100 + Z)) by ring. rewrite E. clear E.
  apply cut_close. exact DS.
Qed.
