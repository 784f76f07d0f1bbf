(** Histories of the regulator. *)
From Coq Require Import ZArith List Bool Lia QArith Qround Qpower Qabs Qminmax Lqa.
From Verif Require Import Base FTextModel FTextProofs FloatModel FloatProofs FloatProofs2 FloatProofs3 AioProofs TimeModel PidModel PidSpec PidProofs PidProofs2 PidProofs3.
Import ListNotations.
Open Scope Q_scope.

(** * The interval *)

Definition ms (d : Q) : Q := if Qeq_bool d 0 then 1000 else d.
Lemma due_spec w p now : (0 <= w <= 64)%Z -> sensible_interval (par p P_dt) -> f_val (par p P_dt) <= p2 20 ->
  let delta := get_delta_millisec w now (last_time p) in
  ((delta <= 2 ^ 64)%Z -> ms (f_val (par p P_dt)) + 1 <= inject_Z delta -> due w p now = true) /\
  (inject_Z delta <= ms (f_val (par p P_dt)) - 1 -> due w p now = false).
Proof.
  intros W SI L delta. destruct (interval_near p SI) as (N & B). cbv zeta in N, B.
  set (d := f_val (par p P_dt)) in *. set (T := seconds d) in *.
  assert (TM : T * 1000 == ms d). { unfold T, seconds, ms. destruct (Qeq_bool d 0); [reflexivity|]. field. }
  assert (M0 : 1 <= ms d /\ ms d <= p2 20).
  { unfold ms. destruct (Qeq_bool d 0) eqn:E; [split; vm_compute; discriminate|]. destruct SI as (_ & [X|X]); fold d in X; [apply Qeq_bool_iff in X; congruence|].
    split; [apply X|exact L]. }
  pose proof (const_near 1000 ltac:(lia)) as N1. change (Qabs (inject_Z 1000)) with 1000 in N1. change (inject_Z 1000) with 1000 in N1.
  assert (BT : bp 1000 0 10) by (split; vm_compute; discriminate).
  pose proof (bp_mul _ _ _ _ _ _ B BT) as B2.
  pose proof (near_mul _ _ _ _ _ _ _ _ N N1 (bp_fits _ _ _ B2 ltac:(lia) ltac:(lia)) ltac:(lra)) as N2.
  destruct N2 as (F2 & D2 & _). apply abs_iff in D2. rewrite TM in D2.
  unfold due. fold delta. set (lhs := f_mul _ _) in *. clearbody lhs.
  assert (D0 : (0 <= delta)%Z) by (apply delta_nonneg; lia).
  set (m := ms d) in *. clearbody m. assert (p2 20 * u <= 1 # 15) by (vm_compute; discriminate).
  split.
  - intros LE H1. assert (delta <> 0%Z). { intros E. rewrite E in H1. change (inject_Z 0) with 0 in H1. lra. }
    destruct (ofz_near delta ltac:(lia)) as (F3 & D3 & _). apply abs_iff in D3.
    rewrite (lt_val lhs (f_of_Z delta) F2 F3). apply negb_true_iff. apply Qle_bool_false. lra.
  - intros H1.
    assert (LE : (delta <= 2 ^ 64)%Z).
    { rewrite Zle_Qle. assert (p2 20 <= inject_Z (2 ^ 64)) by (vm_compute; discriminate). lra. }
    destruct (ofz_near0 delta m ltac:(lia) ltac:(lra)) as (F3 & D3 & _). apply abs_iff in D3.
    rewrite (lt_val lhs (f_of_Z delta) F2 F3). apply negb_false_iff. apply Qle_bool_iff. lra.
Qed.

(** * Sensible histories *)

Lemma not_due w p cur s now : due w p now = false -> recalc w p cur s now = Some p.
Proof. intros H. unfold recalc. destruct (gains p) as ((K & TI) & TD). fold (due w p now). rewrite H. reflexivity. Qed.
Lemma small_out n : (0 <= n)%Z -> small n (f_of_Z 0).
Proof. intros N. split; [reflexivity|]. rewrite (abs_comp _ 0) by (vm_compute; reflexivity). change (Qabs 0) with 0. pose proof (p2_pos n). change (Qpower 2 n) with (p2 n). lra. Qed.
Lemma small_edge p : small 30 (if f_true (par p P_is_zero_start) then MIN_OUT else MAX_OUT).
Proof. destruct (f_true _); split; try reflexivity; vm_compute; discriminate. Qed.
Lemma zero_ok : f_finite (f_of_Z 0) = true /\ 0 <= f_val (f_of_Z 0) /\ f_val (f_of_Z 0) <= 100.
Proof. split; [reflexivity|]. split; vm_compute; discriminate. Qed.

Lemma reset_sound p now : sound p -> sound (reset p now).
Proof.
  intros (S0 & S1 & S2 & S3 & S4 & S5 & S6 & S7). pose proof (small_edge p). pose proof zero_ok. pose proof (small_out 59 ltac:(lia)).
  unfold sound, reset. cbn [uk_1 ek_1 ek_2 Uk start_value out_value set_value par]. split; [assumption|]. do 6 (split; [assumption|]). exact S7.
Qed.
Lemma finish_sound q now : sound q -> small 30 (par q P_out_min) -> small 30 (par q P_out_max) -> sound (finish q now).
Proof.
  intros SO LO HI. unfold finish.
  assert (SE : sound (entered q) /\ par (entered q) P_out_min = par q P_out_min /\ par (entered q) P_out_max = par q P_out_max).
  { unfold entered. destruct (_ && _); [|auto]. destruct SO as (S0 & S1 & S2 & S3 & S4 & S5 & S6 & S7).
    split; [|split; reflexivity]. unfold sound. cbn [uk_1 ek_1 ek_2 Uk start_value out_value set_value par].
    split; [assumption|]. do 6 (split; [assumption|]). exact S5. }
  destruct SE as (SE & E1 & E2). destruct (_ && _).
  - pose proof (reset_sound _ now SE) as (S0 & S1 & S2 & S3 & S4 & S5 & S6 & S7). unfold sound, left_manual.
    cbn [uk_1 ek_1 ek_2 Uk start_value out_value set_value par]. split; [assumption|]. do 6 (split; [assumption|]). exact S7.
  - destruct SE as (S0 & S1 & S2 & S3 & S4 & S5 & S6 & S7). unfold sound.
    cbn [uk_1 ek_1 ek_2 Uk start_value out_value set_value par].
    assert (SL : small 30 (limit (par (entered q) P_out_min) (par (entered q) P_out_max) (Uk (entered q)))).
    { apply limit_small; [rewrite E1; exact LO|rewrite E2; exact HI|exact S3]. }
    split; [assumption|]. do 2 (split; [assumption|]). split; [exact SL|]. split; [assumption|]. split; [|split; assumption].
    destruct (f_eq _ _); [exact S7|exact SL].
Qed.
Lemma finish_par q now i : i <> 8%Z -> i <> 9%Z -> par (finish q now) i = par q i.
Proof.
  intros H8 H9. assert (E : par (entered q) i = par q i).
  { unfold entered. destruct (_ && _); [|reflexivity]. cbn [par]. destruct (Z.eqb_spec i P_U_manual); [contradiction|reflexivity]. }
  unfold finish. destruct (_ && _); [|exact E]. unfold left_manual, reset. cbn [par].
  destruct (Z.eqb_spec i P_is_manual_mode); [contradiction|exact E].
Qed.
Lemma recalc_par w p cur s now q : recalc w p cur s now = Some q -> par q = par p /\ state q = state p /\ prev_manual q = prev_manual p /\
  out_value q = out_value p /\ set_value q = set_value p /\ held q = held p /\ start_time q = start_time p /\ start_value q = start_value p.
Proof.
  unfold recalc. destruct (gains p) as ((K & TI) & TD). destruct (f_lt _ _); [|intros E; inversion E; subst; auto 10].
  cbv zeta. destruct (accelerated _ _ _ _); [|discriminate]. intros E. inversion E; subst. cbn. auto 10.
Qed.

Lemma eval_sound w p cur s now : (0 <= w <= 64)%Z -> tuned (par p) -> sound p -> small 30 cur -> sign_ok s ->
  exists q o, eval w p cur s now = Some (q, o) /\ sound q /\ small 30 o /\ (forall i, i <> 8%Z -> i <> 9%Z -> par q i = par p i).
Proof.
  intros W TU SO SC SG. unfold eval. destruct (state p =? S_OFF)%Z.
  - eexists. eexists. split; [reflexivity|]. split; [exact SO|]. split; [apply small_edge|reflexivity].
  - destruct (used_gains p) as ((K & TI) & TD) eqn:UG.
    destruct (due w p now) eqn:DUE.
    + destruct (recalc_law w p cur s now K TI TD W TU SO SC SG UG DUE) as (q & E & SQ & PQ & _). rewrite E. cbv zeta.
      destruct TU as (_ & HI & LO).
      assert (SF : sound (finish q now)) by (apply finish_sound; [exact SQ|rewrite PQ; exact LO|rewrite PQ; exact HI]).
      eexists. eexists. split; [reflexivity|]. split; [exact SF|]. split; [apply SF|].
      intros i H8 H9. rewrite finish_par by assumption. rewrite PQ. reflexivity.
    + rewrite (not_due _ _ _ _ _ DUE). cbv zeta. destruct TU as (_ & HI & LO).
      assert (SF : sound (finish p now)) by (apply finish_sound; [exact SO|exact LO|exact HI]).
      eexists. eexists. split; [reflexivity|]. split; [exact SF|]. split; [apply SF|].
      intros i H8 H9. apply finish_par; assumption.
Qed.

(** The parameters of the regulator are the settings of the history. *)
Definition settled (p : pid) (ps : Z -> Z) : Prop :=
  (forall i, (1 <= i <= 7)%Z \/ (10 <= i <= 12)%Z -> par p i = ps i) /\ small 30 (par p 13%Z) /\ small 30 (par p 14%Z).
Lemma settings_ext a b : (forall i, (1 <= i <= 7)%Z \/ (10 <= i <= 12)%Z -> a i = b i) -> settings b -> settings a.
Proof. intros E. unfold settings. rewrite !E by lia. auto. Qed.
Lemma settled_tuned p ps : settled p ps -> settings ps -> tuned (par p).
Proof. intros (E & HI & LO) S. split; [|split; assumption]. exact (settings_ext _ _ E S). Qed.
Lemma settled_more p q ps : settled p ps -> (forall i, i <> 8%Z -> i <> 9%Z -> i <> 15%Z -> i <> 16%Z -> par q i = par p i) -> settled q ps.
Proof. intros (E & HI & LO) H. split; [|rewrite !H by lia; auto]. intros i I. rewrite H by lia. apply E. exact I. Qed.

Definition number (a : act) : Prop :=
  match a with AValue v | AResult v => f_finite v = true | _ => True end.

Lemma on_sound p now : sound p -> sound (direct_on p now) /\ (forall i, i <> 8%Z -> par (direct_on p now) i = par p i).
Proof.
  intros S. unfold direct_on. destruct (state p =? S_ON)%Z; [auto|]. destruct (state p =? S_OFF)%Z; [|auto].
  split; [exact (reset_sound (with_times p now) now S)|]. intros i H. unfold with_state, reset, with_times. cbn [par].
  destruct (Z.eqb_spec i P_is_manual_mode); [contradiction|reflexivity].
Qed.
Lemma off_sound p now q a : direct_off p now = (q, a) -> sound p -> sound q /\ (forall i, i <> 8%Z -> par q i = par p i) /\ number a.
Proof.
  unfold direct_off. destruct (state p =? S_STOPPING)%Z; [|destruct (state p =? S_ON)%Z]; intros E S; inversion E; subst; clear E.
  - split; [exact (reset_sound p now S)|]. split; [|exact I]. intros i H. unfold with_state, reset. cbn [par].
    destruct (Z.eqb_spec i P_is_manual_mode); [contradiction|reflexivity].
  - split; [exact S|]. split; [reflexivity|exact I].
  - split; [exact S|]. split; [reflexivity|exact I].
Qed.
Lemma round_small v : - p2 30 <= v -> v <= p2 30 -> small 30 (f_round false v).
Proof.
  intros H1 H2. set (b := (157 * 2 ^ 23)%Z).
  assert (V1 : f_val b == p2 30) by (vm_compute; reflexivity). assert (V2 : f_val (signed true b) == - p2 30) by (vm_compute; reflexivity).
  destruct (round_between false (signed true b) b v eq_refl eq_refl) as (F & K1); [rewrite V1, V2; lra|].
  split; [exact F|]. apply abs_iff. change (Qpower 2 30) with (p2 30). rewrite V1, V2 in K1. exact K1.
Qed.

Lemma step_sound w p ps e h : (0 <= w <= 64)%Z -> sound p -> settled p ps -> settings ps -> sensible_history ps (e :: h) ->
  exists q a ps', step w p e = Some (q, a) /\ sound q /\ settled q ps' /\ settings ps' /\ sensible_history ps' h /\ number a.
Proof.
  intros W SO SE ST H. pose proof (settled_tuned _ _ SE ST) as TU.
  assert (VALUE : forall v c now, small 30 v -> small 30 c -> sensible_history ps h ->
    exists q a, direct_set_value w p v c now = Some (q, a) /\ sound q /\ settled q ps /\ number a).
  { intros v c now HV HC HH. unfold direct_set_value. cbv zeta.
    assert (S1 : sound (with_set p v)).
    { destruct SO as (S0 & S1 & S2 & S3 & S4 & S5 & S6 & S7). unfold sound, with_set. cbn [uk_1 ek_1 ek_2 Uk start_value out_value set_value par].
      split; [assumption|]. do 6 (split; [assumption|]). exact S7. }
    destruct (eval_sound w (with_set p v) c (if f_lt (f_of_Z 0) (par (with_set p v) P_is_reverse) then (-1)%Z else 1%Z) now W TU S1 HC) as (q & o & E & SQ & SV & PQ).
    { destruct (f_lt _ _); [right|left]; reflexivity. }
    rewrite E. eexists. eexists. split; [reflexivity|]. split; [|split].
    - destruct SQ as (T0 & T1 & T2 & T3 & T4 & T5 & T6 & T7). unfold sound, with_out. cbn [uk_1 ek_1 ek_2 Uk start_value out_value set_value par].
      split; [assumption|]. do 6 (split; [assumption|]). exact T7.
    - apply settled_more with p; [exact SE|]. intros i I8 I9 _ _. cbn [with_out par]. rewrite PQ by assumption. reflexivity.
    - destruct (state q =? S_OFF)%Z; [exact I|]. apply SV. }
  destruct e; cbn [sensible_history step] in *.
  - (* on *)
    set (p1 := match not_zero_start with Some b => _ | None => p end).
    assert (S1 : sound p1) by (unfold p1; destruct not_zero_start; exact SO).
    assert (P1 : forall i, i <> 16%Z -> par p1 i = par p i).
    { intros i I. unfold p1. destruct not_zero_start; [|reflexivity]. unfold set_par. cbn [par]. destruct (Z.eqb_spec i P_is_zero_start); [contradiction|reflexivity]. }
    eexists. eexists. exists ps. split; [reflexivity|]. destruct (on_sound p1 now S1) as (S2 & P2).
    destruct (held p1).
    + split; [exact S1|]. split; [|split; [assumption|split; [assumption|exact I]]]. apply settled_more with p; [exact SE|]. intros i _ _ _ I16. apply P1. exact I16.
    + split; [exact S2|]. split; [|split; [assumption|split; [assumption|exact I]]]. apply settled_more with p; [exact SE|]. intros i I8 _ _ I16. rewrite P2, P1 by assumption. reflexivity.
  - (* off *)
    destruct (held p); [exists p, ANone, ps; split; [reflexivity|]; split; [exact SO|]; split; [exact SE|]; split; [assumption|split; [assumption|exact I]]|].
    destruct (direct_off p now) as (q & a) eqn:E. destruct (off_sound _ _ _ _ E SO) as (S2 & P2 & NA).
    exists q, a, ps. split; [reflexivity|]. split; [exact S2|]. split; [|auto]. apply settled_more with p; [exact SE|]. intros i I8 _ _ _. apply P2. exact I8.
  - (* state *)
    destruct (n =? S_OFF)%Z; [|destruct (n =? S_ON)%Z].
    + destruct (direct_off p now) as (q & a) eqn:E. destruct (off_sound _ _ _ _ E SO) as (S2 & P2 & NA).
      exists q, a, ps. split; [reflexivity|]. split; [exact S2|]. split; [|auto]. apply settled_more with p; [exact SE|]. intros i I8 _ _ _. apply P2. exact I8.
    + destruct (on_sound p now SO) as (S2 & P2). exists (direct_on p now), ANone, ps. split; [reflexivity|]. split; [exact S2|].
      split; [|split; [assumption|split; [assumption|exact I]]]. apply settled_more with p; [exact SE|]. intros i I8 _ _ _. apply P2. exact I8.
    + exists p, ANone, ps. split; [reflexivity|]. split; [exact SO|]. split; [exact SE|]. split; [assumption|split; [assumption|exact I]].
  - (* io *)
    destruct (_ && _).
    + destruct (direct_off p now) as (q & a) eqn:E. destruct (off_sound _ _ _ _ E SO) as (S2 & P2 & NA).
      exists q, a, ps. split; [reflexivity|]. split; [exact S2|]. split; [|auto]. apply settled_more with p; [exact SE|]. intros i I8 _ _ _. apply P2. exact I8.
    + exists p, ANone, ps. split; [reflexivity|]. split; [exact SO|]. split; [exact SE|]. split; [assumption|split; [assumption|exact I]].
  - (* value *)
    destruct H as (HV & HC & HH). destruct (held p).
    + exists p, ANone, ps. split; [reflexivity|]. split; [exact SO|]. split; [exact SE|]. split; [assumption|split; [assumption|exact I]].
    + destruct (VALUE v current now HV HC HH) as (q & a & E & SQ & TQ & NA). exists q, a, ps. split; [exact E|]. split; [exact SQ|]. split; [exact TQ|]. split; [assumption|split; [exact HH|exact NA]].
  - destruct H as (HV & HC & HH). destruct (VALUE v current now HV HC HH) as (q & a & E & SQ & TQ & NA). exists q, a, ps. split; [exact E|]. split; [exact SQ|]. split; [exact TQ|]. split; [assumption|split; [exact HH|exact NA]].
  - (* eval *)
    destruct H as (HC & HS & HH). destruct (eval_sound w p current sign now W TU SO HC HS) as (q & o & E & SQ & SV & PQ).
    rewrite E. exists q, (AResult o), ps. split; [reflexivity|]. split; [exact SQ|]. split; [|split; [assumption|split; [assumption|apply SV]]].
    apply settled_more with p; [exact SE|]. intros i I8 I9 _ _. apply PQ; assumption.
  - (* set *)
    destruct H as (HV & HH). exists (with_set p v), ANone, ps. split; [reflexivity|]. split; [|split; [exact SE|split; [assumption|split; [assumption|exact I]]]].
    destruct SO as (S0 & S1 & S2 & S3 & S4 & S5 & S6 & S7). unfold sound, with_set. cbn [uk_1 ek_1 ek_2 Uk start_value out_value set_value par].
    split; [assumption|]. do 6 (split; [assumption|]). exact S7.
  - destruct H as (HV & HH). exists (with_out p v), ANone, ps. split; [reflexivity|]. split; [|split; [exact SE|split; [assumption|split; [assumption|exact I]]]].
    destruct SO as (S0 & S1 & S2 & S3 & S4 & S5 & S6 & S7). unfold sound, with_out. cbn [uk_1 ek_1 ek_2 Uk start_value out_value set_value par].
    split; [assumption|]. do 6 (split; [assumption|]). exact S7.
  - eexists. eexists. exists ps. split; [reflexivity|]. split; [exact SO|]. split; [exact SE|]. split; [assumption|split; [assumption|exact I]].
  - (* parameter *)
    destruct ((1 <=? i) && (i <=? PARAMS))%Z eqn:R.
    + destruct ((i =? 9) || (i =? 13) || (i =? 14))%Z eqn:C.
      * destruct H as (HV & HH). eexists. eexists. exists ps. split; [reflexivity|]. split; [|split; [|split; [assumption|split; [assumption|exact I]]]].
        -- destruct SO as (S0 & S1 & S2 & S3 & S4 & S5 & S6 & S7). unfold sound, set_par. cbn [uk_1 ek_1 ek_2 Uk start_value out_value set_value par].
           split; [assumption|]. do 6 (split; [assumption|]). destruct (P_U_manual =? i)%Z; [exact HV|exact S7].
        -- destruct SE as (E & HI & LO). unfold settled, set_par. cbn [par]. split; [|split; destruct (_ =? i)%Z; assumption].
           intros j J. destruct (Z.eqb_spec j i); [exfalso; lia|]. apply E. exact J.
      * destruct H as (HV & HH). eexists. eexists. exists (upd ps i v). split; [reflexivity|]. split; [|split; [|split; [assumption|split; [assumption|exact I]]]].
        -- destruct SO as (S0 & S1 & S2 & S3 & S4 & S5 & S6 & S7). unfold sound, set_par. cbn [uk_1 ek_1 ek_2 Uk start_value out_value set_value par].
           split; [assumption|]. do 6 (split; [assumption|]). destruct (Z.eqb_spec P_U_manual i) as [X|X]; [unfold P_U_manual in X; lia|exact S7].
        -- destruct SE as (E & HI & LO). unfold settled, set_par, upd. cbn [par].
           split; [|split; (destruct (_ =? i)%Z eqn:X; [lia|assumption])].
           intros j J. destruct (Z.eqb_spec j i); [reflexivity|]. apply E. exact J.
    + destruct ((i =? 9) || (i =? 13) || (i =? 14))%Z eqn:C; [unfold PARAMS in R; lia|]. destruct H as (HV & HH).
      eexists. eexists. exists (upd ps i v). split; [reflexivity|]. split; [exact SO|]. split; [|split; [assumption|split; [assumption|exact I]]].
      destruct SE as (E & HI & LO). split; [|split; assumption]. intros j J. unfold upd. unfold PARAMS in R. destruct (Z.eqb_spec j i); [lia|]. apply E. exact J.
  - (* old parameter *)
    destruct H as (IR & HH). destruct ((1 <=? i) && (i <=? PARAMS))%Z eqn:R.
    2:{ exists p, ANone, ps. split; [reflexivity|]. split; [exact SO|]. split; [exact SE|]. split; [assumption|split; [assumption|exact I]]. }
    cbv zeta. set (v1 := if ((i =? P_out_min)%Z && negb (Qle_bool 0 v)) then 0 else v).
    set (v2 := if ((i =? P_out_max)%Z && negb (Qle_bool v1 100)) then 100 else v1).
    destruct (_ || _) eqn:REF.
    { exists p, ANone, ps. split; [reflexivity|]. split; [exact SO|]. split; [exact SE|]. split; [assumption|split; [assumption|exact I]]. }
    eexists. eexists. exists ps. split; [reflexivity|]. split; [|split; [|split; [assumption|split; [assumption|exact I]]]].
    + destruct SO as (S0 & S1 & S2 & S3 & S4 & S5 & S6 & S7). unfold sound, set_par. cbn [uk_1 ek_1 ek_2 Uk start_value out_value set_value par].
      split; [assumption|]. do 6 (split; [assumption|]). destruct (Z.eqb_spec P_U_manual i) as [X|X]; [unfold P_U_manual in X; lia|exact S7].
    + apply orb_false_iff in REF. destruct REF as (R1 & R2). destruct SE as (E & HI & LO).
      assert (V100 : 100 <= p2 30) by (vm_compute; discriminate). assert (V0 : 0 <= p2 30) by (vm_compute; discriminate).
      split; [|unfold set_par; cbn [par]; split].
      * intros j J. unfold set_par. cbn [par]. destruct (Z.eqb_spec j i); [lia|]. apply E. exact J.
      * destruct (Z.eqb_spec 13 i) as [X|X]; [|exact HI]. subst i. cbn in v1, v2, R2. fold v1 v2 in R2.
        change (par p P_out_min) with (par p 14%Z) in R2. destruct LO as (FL & LO). destruct (finite_not _ FL) as (_ & FI). rewrite FL, FI in R2.
        cbn in R2. rewrite orb_false_r in R2. apply negb_false_iff in R2. apply Qle_bool_iff in R2. change (Qpower 2 30) with (p2 30) in LO. apply abs_iff in LO.
        apply round_small; [lra|]. unfold v2. destruct (Qle_bool v1 100) eqn:Q; cbn [negb]; [apply Qle_bool_iff in Q; lra|exact V100].
      * destruct (Z.eqb_spec 14 i) as [X|X]; [|exact LO]. subst i. cbn in v1, v2, R1. fold v1 v2 in R1.
        change (par p P_out_max) with (par p 13%Z) in R1. destruct HI as (FL & HI). destruct (finite_not _ FL) as (_ & FI). rewrite FL, FI in R1.
        cbn in R1. rewrite orb_false_r in R1. apply negb_false_iff in R1. apply Qle_bool_iff in R1. change (Qpower 2 30) with (p2 30) in HI. apply abs_iff in HI.
        apply round_small; [|lra]. unfold v2, v1. destruct (Qle_bool 0 v) eqn:Q; cbn [negb]; [apply Qle_bool_iff in Q; lra|lra].
  - eexists. eexists. exists ps. split; [reflexivity|]. split; [exact SO|]. split; [exact SE|]. split; [assumption|split; [assumption|exact I]].
Qed.

Lemma run_sound w h : (0 <= w <= 64)%Z -> forall p ps, sound p -> settled p ps -> settings ps -> sensible_history ps h ->
  exists q l, run w p h = Some (q, l) /\ sound q /\ tuned (par q) /\ Forall number l.
Proof.
  intros W. induction h as [|e h IH]; intros p ps S1 S2 S3 H.
  - exists p, []. split; [reflexivity|]. split; [exact S1|]. split; [exact (settled_tuned _ _ S2 S3)|constructor].
  - destruct (step_sound w p ps e h W S1 S2 S3 H) as (q & a & ps' & E & T1 & T2 & T3 & T4 & NA).
    destruct (IH q ps' T1 T2 T3 T4) as (r & l & R & SR & TR & FL). exists r, (a :: l). cbn [run]. rewrite E, R. auto.
Qed.
Lemma init_sound ps t0 : tuned ps -> small 30 (ps 9%Z) -> sound (init ps t0) /\ settled (init ps t0) ps /\ settings ps.
Proof.
  intros (ST & HI & LO) M. pose proof zero_ok. pose proof (small_out 59 ltac:(lia)). pose proof (small_out 30 ltac:(lia)).
  split; [|split; [|exact ST]].
  - unfold sound, init. cbn [uk_1 ek_1 ek_2 Uk start_value out_value set_value par]. split; [assumption|]. do 6 (split; [assumption|]). exact M.
  - split; [reflexivity|]. split; assumption.
Qed.
