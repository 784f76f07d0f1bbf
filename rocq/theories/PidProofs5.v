(** Direction, rest, manual mode and switching of the regulator. *)
From Coq Require Import ZArith List Bool Lia QArith Qround Qpower Qabs Qminmax Lqa.
From Verif Require Import Base FTextModel FTextProofs FloatModel FloatProofs FloatProofs2 FloatProofs3 AioProofs TimeModel PidModel PidSpec PidProofs PidProofs2 PidProofs3 PidProofs4.
Import ListNotations.
Open Scope Q_scope.

(** * Direction *)

Lemma fin_nn b : f_finite b = true -> f_isnan b = false.
Proof. intros H. apply finite_not, H. Qed.
Lemma small_fin n b : small n b -> f_finite b = true.
Proof. intros H. apply H. Qed.

Lemma signed_inf_fin s : f_finite (signed s INF) = false.
Proof. destruct s; reflexivity. Qed.
Lemma mul_fin a b : f_finite (f_mul a b) = true -> f_finite a = true /\ f_finite b = true.
Proof.
  intros F. destruct (mul_nn _ _ (fin_nn _ F)) as (NA & NB). unfold f_mul in F. rewrite NA, NB in F. cbn [orb] in F. cbv zeta in F.
  destruct (nn_cases a NA) as [[IA _]|[IA FA]]; rewrite IA in F.
  - destruct (f_iszero b); [discriminate F|]. rewrite signed_inf_fin in F. discriminate F.
  - destruct (nn_cases b NB) as [[IB _]|[IB FB]]; [|auto]. rewrite IB in F. destruct (f_iszero a); [discriminate F|]. rewrite signed_inf_fin in F. discriminate F.
Qed.
Lemma add_fin a b : f_finite (f_add a b) = true -> f_finite a = true /\ f_finite b = true.
Proof.
  intros F. destruct (add_nn _ _ (fin_nn _ F)) as (NA & NB). unfold f_add in F. rewrite NA, NB in F. cbn [orb] in F.
  destruct (nn_cases a NA) as [[IA FA]|[IA FA]]; rewrite IA in F.
  - destruct (f_isinf b && _); [discriminate F|]. congruence.
  - destruct (nn_cases b NB) as [[IB FB]|[IB FB]]; [|auto]. rewrite IB in F. congruence.
Qed.
Lemma sub_fin a b : small 30 a -> small 30 b -> f_finite (f_sub a b) = true.
Proof.
  intros (FA & A) (FB & B). change (Qpower 2 30) with (p2 30) in *.
  assert (H : Qabs (f_val a - f_val b) <= p2 31).
  { pose proof (abs_tri (f_val a) (- f_val b)) as X. rewrite Qabs_opp in X. assert (p2 30 + p2 30 <= p2 31) by (vm_compute; discriminate). unfold Qminus. lra. }
  apply (sub_wide a b (p2 31) FA FB H). split; vm_compute; discriminate.
Qed.

Lemma error_mono p a b cur s : sign_ok s -> small 30 a -> small 30 b -> small 30 cur -> sensible_range (par p P_min) (par p P_max) ->
  f_val (par p P_min) < f_val (par p P_max) -> f_val a <= f_val b ->
  if (s =? 1)%Z then f_val (error (with_set p a) cur s) <= f_val (error (with_set p b) cur s)
  else f_val (error (with_set p b) cur s) <= f_val (error (with_set p a) cur s).
Proof.
  intros SG SA SB SC R L AB.
  pose proof (error_small (with_set p a) cur s SG SA SC R) as (EA & _).
  pose proof (error_small (with_set p b) cur s SG SB SC R) as (EB & _).
  destruct (lift_near s a cur SG SA SC) as (NA & _). destruct (lift_near s b cur SG SB SC) as (NB & _).
  destruct R as ((FL & RL) & (FH & RH) & _).
  destruct (sub_nonzero (par p P_max) (par p P_min) FH FL ltac:(lra)) as (_ & DP). specialize (DP L).
  unfold error in *. cbn [with_set set_value par] in *. cbv zeta in *.
  assert (E : f_eq (par p P_max) (par p P_min) = false).
  { rewrite eq_val by assumption. destruct (Qeq_bool _ _) eqn:E; [|reflexivity]. apply Qeq_bool_iff in E. lra. }
  rewrite E in *.
  assert (FA : f_finite a = true) by apply SA. assert (FB : f_finite b = true) by apply SB. assert (FC : f_finite cur = true) by apply SC.
  set (c := f_mul (f_of_Z s) MAX_OUT) in *.
  assert (FMA : f_finite (f_mul c (f_sub a cur)) = true) by apply NA. assert (FMB : f_finite (f_mul c (f_sub b cur)) = true) by apply NB.
  assert (KS : (key (f_sub a cur) <= key (f_sub b cur))%Z).
  { apply sub_mono; [apply sub_is_nn; [apply fin_nn; exact FA|exact FC]|apply sub_is_nn; [apply fin_nn; exact FB|exact FC]|apply (val_le a b FA FB); exact AB]. }
  pose proof (sub_fin _ _ SA SC) as FSA. pose proof (sub_fin _ _ SB SC) as FSB.
  pose proof (proj2 (val_le _ _ FSA FSB) KS) as VS.
  assert (FC' : f_finite c = true). { unfold c. destruct SG as [-> | ->]; reflexivity. }
  assert (DIV : forall x y, f_finite (f_div x (f_sub (par p P_max) (par p P_min))) = true -> f_finite (f_div y (f_sub (par p P_max) (par p P_min))) = true ->
    (key x <= key y)%Z -> f_val (f_div x (f_sub (par p P_max) (par p P_min))) <= f_val (f_div y (f_sub (par p P_max) (par p P_min)))).
  { intros x y FX FY K. apply val_le; [exact FX|exact FY|]. apply div_mono; [exact DP|apply fin_nn; exact FX|apply fin_nn; exact FY|exact K]. }
  destruct SG as [-> | ->]; cbn [Z.eqb Pos.eqb].
  - apply DIV; [exact EA|exact EB|]. rewrite !mul_finite by assumption.
    match goal with |- (key (f_round ?s1 ?x1) <= key (f_round ?s2 ?x2))%Z => destruct (round_parts s1 x1) as (-> & _); destruct (round_parts s2 x2) as (-> & _) end.
    apply rk_mono. assert (VC : f_val c == 100) by (vm_compute; reflexivity). rewrite VC. lra.
  - apply DIV; [exact EB|exact EA|]. rewrite !mul_finite by assumption.
    match goal with |- (key (f_round ?s1 ?x1) <= key (f_round ?s2 ?x2))%Z => destruct (round_parts s1 x1) as (-> & _); destruct (round_parts s2 x2) as (-> & _) end.
    apply rk_mono. assert (VC : f_val c == -100) by (vm_compute; reflexivity). rewrite VC. lra.
Qed.

Lemma round_mono s1 s2 x y : x <= y -> (key (f_round s1 x) <= key (f_round s2 y))%Z.
Proof. intros H. destruct (round_parts s1 x) as (-> & _). destruct (round_parts s2 y) as (-> & _). apply rk_mono. exact H. Qed.
Lemma mul_le_val a b c : f_finite (f_mul c a) = true -> f_finite (f_mul c b) = true -> 0 <= f_val c -> f_val a <= f_val b ->
  f_val (f_mul c a) <= f_val (f_mul c b).
Proof.
  intros FA FB C H. apply val_le; [exact FA|exact FB|]. destruct (mul_fin _ _ FA) as (FC & GA). destruct (mul_fin _ _ FB) as (_ & GB).
  rewrite !mul_finite by assumption. apply round_mono. apply mul_le_l; assumption.
Qed.
Lemma add_le_val a b c d : f_finite (f_add a c) = true -> f_finite (f_add b d) = true -> f_val a <= f_val b -> f_val c <= f_val d ->
  f_val (f_add a c) <= f_val (f_add b d).
Proof.
  intros FA FB H C. apply val_le; [exact FA|exact FB|]. destruct (add_fin _ _ FA) as (GA & GC). destruct (add_fin _ _ FB) as (GB & GD).
  rewrite !add_finite by assumption. apply round_mono. lra.
Qed.
Lemma val_key0 b : f_finite b = true -> 0 <= f_val b <-> (0 <= key b)%Z.
Proof. intros F. apply val_nonneg_key. exact F. Qed.

Lemma increment_mono K TI TD dt a b e1 e2 : f_finite (increment K TI TD dt a e1 e2) = true -> f_finite (increment K TI TD dt b e1 e2) = true ->
  f_finite TD = true -> f_finite dt = true -> 0 <= f_val K -> 0 <= f_val TD -> 0 < f_val dt -> f_val a <= f_val b ->
  f_val (increment K TI TD dt a e1 e2) <= f_val (increment K TI TD dt b e1 e2).
Proof.
  unfold increment. cbv zeta. intros FA FB FTD FDT K0 TD0 DT0 H.
  destruct (add_fin _ _ FA) as (FA1 & FA2). destruct (add_fin _ _ FB) as (FB1 & _).
  destruct (add_fin _ _ FA1) as (FA3 & FA4). destruct (add_fin _ _ FB1) as (FB3 & _).
  apply add_le_val; [exact FA|exact FB| |apply Qle_refl]. apply add_le_val; [exact FA1|exact FB1| |apply Qle_refl].
  apply mul_le_val; [exact FA3|exact FB3| |exact H].
  destruct (mul_fin _ _ FA3) as (FQ & _). destruct (mul_fin _ _ FQ) as (FK & FS). destruct (add_fin _ _ FS) as (F1 & FD).
  apply val_key0; [exact FQ|]. rewrite mul_finite by assumption. apply round_nonneg.
  assert (0 <= f_val (f_add (f_of_Z 1) (f_div TD dt))); [|nra].
  apply val_key0; [exact FS|]. rewrite add_finite by assumption. apply round_nonneg.
  pose proof (vz 1 ltac:(clear; lia)) as V1. change (inject_Z 1) with 1 in V1.
  assert (0 <= f_val (f_div TD dt)); [|lra].
  apply val_key0; [exact FD|]. assert (KD : key dt <> 0%Z). { intros X. apply val_zero_key in X; [lra|exact FDT]. }
  rewrite div_finite by assumption. apply round_nonneg. apply Qle_shift_div_l; lra.
Qed.

Lemma cut_mono x y : x <= y -> cut x <= cut y.
Proof. intros H. unfold cut. qcase; lra. Qed.
Lemma within_mono lo hi x y : lo <= hi -> x <= y -> within lo hi x <= within lo hi y.
Proof. intros L H. unfold within. qcase; lra. Qed.

Lemma lt_key a b : f_isnan a = false -> f_isnan b = false -> f_lt a b = (key a <? key b)%Z.
Proof. intros A B. unfold f_lt. rewrite A, B. reflexivity. Qed.
Lemma lt_nan a b : f_isnan a = true -> f_lt a b = false /\ f_lt b a = false.
Proof. intros A. unfold f_lt. rewrite A. split; [reflexivity|]. rewrite andb_false_r. reflexivity. Qed.
Lemma accelerated_mono w p now a b a' b' : f_finite a = true -> f_finite b = true -> f_val a <= f_val b ->
  accelerated w p now a = Some a' -> accelerated w p now b = Some b' -> f_finite a' = true -> f_finite b' = true -> f_val a' <= f_val b'.
Proof.
  intros FA FB H. apply (val_le _ _ FA FB) in H. unfold accelerated. destruct (f_to_u32 _) as [n|]; [|discriminate]. cbv zeta.
  intros EA EB FA' FB'. apply (val_le _ _ FA' FB'). inversion EA as [EA1]. inversion EB as [EB1]. clear EA EB.
  destruct (_ <? _)%Z; [|lia].
  destruct (f_true _).
  - set (r := f_add _ _). destruct (f_isnan r) eqn:NR; [destruct (lt_nan r a NR) as (-> & _); destruct (lt_nan r b NR) as (-> & _); exact H|].
    rewrite !lt_key by (assumption || apply fin_nn; assumption). destruct (Z.ltb_spec (key r) (key a)), (Z.ltb_spec (key r) (key b)); lia.
  - set (r := f_sub _ _). destruct (f_isnan r) eqn:NR; [destruct (lt_nan r a NR) as (_ & ->); destruct (lt_nan r b NR) as (_ & ->); exact H|].
    rewrite !lt_key by (assumption || apply fin_nn; assumption). destruct (Z.ltb_spec (key a) (key r)), (Z.ltb_spec (key b) (key r)); lia.
Qed.

Definition ti (TI : Z) : Z := if f_eq TI (f_of_Z 0) then f_lit (1 # 10000) else TI.
Lemma recalc_fields w p cur s now q K TI TD : used_gains p = (K, TI, TD) -> due w p now = true -> recalc w p cur s now = Some q ->
  uk_1 q = clamp MIN_OUT MAX_OUT (f_add (uk_1 p) (increment K (ti TI) TD (interval p) (error p cur s) (ek_1 p) (ek_2 p))) /\
  ek_1 q = error p cur s /\ ek_2 q = ek_1 p /\ accelerated w p now (uk_1 q) = Some (Uk q) /\ last_time q = now.
Proof.
  intros G D. unfold recalc. change (gains p) with (used_gains p). rewrite G. fold (due w p now). rewrite D. cbv zeta. fold (ti TI).
  destruct (accelerated _ _ _ _) as [v|] eqn:A; [|discriminate]. intros E. inversion E; subst. cbn [uk_1 ek_1 ek_2 Uk last_time]. auto.
Qed.

Lemma sum_finite w p cur s K TI TD : (0 <= w <= 64)%Z -> tuned (par p) -> sound p -> small 30 cur -> sign_ok s ->
  used_gains p = (K, TI, TD) ->
  f_finite (f_add (uk_1 p) (increment K (ti TI) TD (interval p) (error p cur s) (ek_1 p) (ek_2 p))) = true /\
  f_finite (interval p) = true /\ 0 < f_val (interval p) /\ f_finite TD = true.
Proof.
  intros W TU SO SC SG UG.
  pose proof (gains_sensible p K TI TD TU UG) as (GK & GD & GI & GI2).
  destruct TU as ((_ & _ & SI & SR & ST) & _).
  destruct SO as ((FU & U0 & U1) & S1 & S2 & SU & SS & SOut & SSet & SM).
  pose proof (error_small p cur s SG SSet SC SR) as SE.
  destruct (interval_near p SI) as (NI & BI). cbv zeta in NI, BI. change (par p 4%Z) with (par p P_dt) in SI.
  destruct (ti_near TI GI GI2) as (NT & BT). cbv zeta in NT, BT. fold (ti TI) in NT.
  destruct (increment_near K _ TD (interval p) (error p cur s) (ek_1 p) (ek_2 p) _ _ GK GD NI BI NT BT SE S1 S2) as (NC & BS).
  set (inc := increment _ _ _ _ _ _ _) in *. set (Z := size _ _ _ _ _ _ _) in *.
  assert (NU : near (uk_1 p) (f_val (uk_1 p)) 100 18).
  { assert (X : Qabs (f_val (uk_1 p)) <= 100) by (apply abs_iff; lra).
    refine (near_more _ _ _ _ _ _ (near_exact _ _ FU X) _ _ _); lra. }
  assert (B2 : bp (100 + Z) 0 117).
  { assert (p2 117 == 2 * p2 116) by (vm_compute; reflexivity). assert (100 <= p2 116) by (vm_compute; discriminate).
    destruct BS as (X1 & X2). change (p2 0) with 1 in X1. split; [change (p2 0) with 1|]; lra. }
  pose proof (near_add _ _ _ _ _ _ _ NU NC (bp_fits _ _ _ B2 ltac:(clear; lia) ltac:(clear; lia)) ltac:(lra)) as NS.
  split; [apply NS|]. split; [apply NI|]. split; [|apply GD].
  destruct NI as (_ & D & _). apply abs_iff in D. destruct BI as (B0 & _). pose proof (p2_pos (-10)). lra.
Qed.

Lemma set_sound p v : sound p -> small 30 v -> sound (with_set p v).
Proof.
  intros (S0 & S1 & S2 & S3 & S4 & S5 & S6 & S7) V. unfold sound, with_set. cbn [uk_1 ek_1 ek_2 Uk start_value out_value set_value par].
  split; [assumption|]. do 6 (split; [assumption|]). exact S7.
Qed.

(** A running regulator in automatic mode. *)
Definition auto (p : pid) : Prop := state p <> S_OFF /\ prev_manual p = false /\ f_eq (par p P_is_manual_mode) (f_of_Z 0) = true.
Lemma auto_finish p now : prev_manual p = false -> f_eq (par p P_is_manual_mode) (f_of_Z 0) = true ->
  let q := finish p now in
  Uk q = limit (par p P_out_min) (par p P_out_max) (Uk p) /\ out_value q = Uk q /\ par q = par p /\ prev_manual q = false /\
  state q = state p /\ uk_1 q = uk_1 p /\ held q = held p /\ ek_1 q = ek_1 p /\ ek_2 q = ek_2 p /\ last_time q = last_time p /\
  start_time q = start_time p /\ start_value q = start_value p /\ set_value q = set_value p.
Proof.
  intros P M. cbv zeta. unfold finish. assert (E : entered p = p) by (unfold entered, f_true; rewrite M; reflexivity). rewrite E, P, andb_false_r.
  assert (M1 : f_eq (f_of_Z 1) (par p P_is_manual_mode) = false).
  { destruct (f_eq (f_of_Z 1) (par p P_is_manual_mode)) eqn:X; [|reflexivity]. apply f_eq_spec in X. apply f_eq_spec in M. destruct X as (_ & _ & X), M as (_ & _ & M).
    rewrite M in X. vm_compute in X. discriminate X. }
  rewrite M1. cbn. auto 20.
Qed.
Lemma auto_eval w p cur s now q o : auto p -> eval w p cur s now = Some (q, o) ->
  exists r, recalc w p cur s now = Some r /\ o = limit (par p P_out_min) (par p P_out_max) (Uk r) /\ q = finish r now /\ par q = par p /\
    Uk q = o /\ out_value q = o /\ auto q /\ state q = state p.
Proof.
  intros (S & P & M) E. unfold eval in E. destruct (Z.eqb_spec (state p) S_OFF); [contradiction|].
  destruct (recalc w p cur s now) as [r|] eqn:R; [|discriminate]. cbv zeta in E. inversion E; subst. clear E.
  destruct (recalc_par _ _ _ _ _ _ R) as (RP & RS & RM & _).
  destruct (auto_finish r now) as (F1 & F2 & F3 & F4 & F5 & _); [congruence|rewrite RP; exact M|]. cbv zeta in *.
  exists r. split; [reflexivity|]. split; [rewrite F2, F1, RP; reflexivity|]. split; [reflexivity|]. split; [rewrite F3; exact RP|].
  split; [symmetry; exact F2|]. split; [reflexivity|]. split; [|rewrite F5; exact RS].
  unfold auto. rewrite F3, F4, F5, RP, RS. auto.
Qed.

Lemma direction w p a b cur s now qa oa qb ob K TI TD : (0 <= w <= 64)%Z -> tuned (par p) -> sound p -> auto p ->
  small 30 a -> small 30 b -> small 30 cur -> sign_ok s -> used_gains p = (K, TI, TD) -> 0 <= f_val K -> 0 <= f_val TD ->
  f_val (par p P_min) < f_val (par p P_max) -> f_val (par p P_out_min) <= f_val (par p P_out_max) -> f_val a <= f_val b ->
  eval w (with_set p a) cur s now = Some (qa, oa) -> eval w (with_set p b) cur s now = Some (qb, ob) ->
  if (s =? 1)%Z then f_val oa <= f_val ob else f_val ob <= f_val oa.
Proof.
  intros W TU SO AU SA SB SC SG UG K0 TD0 LH LIM AB EA EB.
  destruct (auto_eval _ _ _ _ _ _ _ (AU : auto (with_set p a)) EA) as (ra & RA & OA & _).
  destruct (auto_eval _ _ _ _ _ _ _ (AU : auto (with_set p b)) EB) as (rb & RB & OB & _).
  cbn [with_set par] in OA, OB.
  assert (FL : f_finite (par p P_out_min) = true /\ f_finite (par p P_out_max) = true) by (destruct TU as (_ & X & Y); split; [apply Y|apply X]).
  destruct FL as (FL & FH).
  assert (KEY : f_finite (Uk ra) = true -> f_finite (Uk rb) = true ->
    (if (s =? 1)%Z then f_val (Uk ra) <= f_val (Uk rb) else f_val (Uk rb) <= f_val (Uk ra)) ->
    if (s =? 1)%Z then f_val oa <= f_val ob else f_val ob <= f_val oa).
  { intros FA FB H. destruct (limit_val _ _ (Uk ra) FL FH LIM FA) as (_ & VA). destruct (limit_val _ _ (Uk rb) FL FH LIM FB) as (_ & VB).
    rewrite OA, OB. destruct (s =? 1)%Z; rewrite VA, VB; apply within_mono; assumption. }
  pose proof (set_sound p a SO SA) as SOA. pose proof (set_sound p b SO SB) as SOB.
  destruct (due w p now) eqn:D.
  - destruct (recalc_law w (with_set p a) cur s now K TI TD W TU SOA SC SG UG D) as (ra' & RA' & ((FUA & _) & _ & _ & SUA & _) & _). rewrite RA in RA'. inversion RA'; subst ra'; clear RA'.
    destruct (recalc_law w (with_set p b) cur s now K TI TD W TU SOB SC SG UG D) as (rb' & RB' & ((FUB & _) & _ & _ & SUB & _) & _). rewrite RB in RB'. inversion RB'; subst rb'; clear RB'.
    destruct (recalc_fields w (with_set p a) cur s now ra K TI TD UG D RA) as (UA & _ & _ & AA & _).
    destruct (recalc_fields w (with_set p b) cur s now rb K TI TD UG D RB) as (UB & _ & _ & AB' & _).
    destruct (sum_finite w (with_set p a) cur s K TI TD W TU SOA SC SG UG) as (FSA & FI & IP & FTD).
    destruct (sum_finite w (with_set p b) cur s K TI TD W TU SOB SC SG UG) as (FSB & _).
    change (interval (with_set p a)) with (interval p) in *. change (interval (with_set p b)) with (interval p) in *.
    assert (SR : sensible_range (par p P_min) (par p P_max)) by (destruct TU as ((_ & _ & _ & X & _) & _); exact X).
    pose proof (error_mono p a b cur s SG SA SB SC SR LH AB) as EM.
    cbn [with_set uk_1 ek_1 ek_2] in UA, UB, FSA, FSB.
    change (accelerated w (with_set p a) now (uk_1 ra)) with (accelerated w p now (uk_1 ra)) in AA.
    change (accelerated w (with_set p b) now (uk_1 rb)) with (accelerated w p now (uk_1 rb)) in AB'.
    apply KEY; [apply SUA|apply SUB|].
    destruct (clamp_val _ FSA) as (_ & CA). destruct (clamp_val _ FSB) as (_ & CB). rewrite <- UA in CA. rewrite <- UB in CB.
    destruct (add_fin _ _ FSA) as (FU & FIA). destruct (add_fin _ _ FSB) as (_ & FIB).
    destruct (s =? 1)%Z.
    + apply (accelerated_mono w p now (uk_1 ra) (uk_1 rb)); try assumption; [|apply SUA|apply SUB].
      rewrite CA, CB. apply cut_mono. apply add_le_val; [exact FSA|exact FSB|apply Qle_refl|].
      apply increment_mono; try assumption.
    + apply (accelerated_mono w p now (uk_1 rb) (uk_1 ra)); try assumption; [|apply SUB|apply SUA].
      rewrite CA, CB. apply cut_mono. apply add_le_val; [exact FSB|exact FSA|apply Qle_refl|].
      apply increment_mono; try assumption.
  - rewrite not_due in RA, RB by exact D. inversion RA; subst ra. inversion RB; subst rb.
    apply KEY; [apply SO|apply SO|]. cbn [with_set Uk]. destruct (s =? 1)%Z; apply Qle_refl.
Qed.

(** * Rest *)

Lemma mul_zero a b : f_finite (f_mul a b) = true -> f_val b == 0 -> f_val (f_mul a b) == 0.
Proof.
  intros F B. destruct (mul_fin _ _ F) as (FA & FB). apply val_zero_key; [exact F|]. rewrite mul_finite by assumption.
  destruct (round_parts (xorb (f_neg a) (f_neg b)) (f_val a * f_val b)) as (-> & _).
  assert (V0 : f_val 0 == 0) by (vm_compute; reflexivity).
  assert (V : f_val a * f_val b == f_val 0) by (rewrite B, V0; ring). rewrite (rk_comp _ _ V), rk_exact by reflexivity. reflexivity.
Qed.
Lemma add_zero a b : f_finite (f_add a b) = true -> f_val b == 0 -> f_val (f_add a b) == f_val a.
Proof.
  intros F B. destruct (add_fin _ _ F) as (FA & FB). apply val_eq; [exact F|exact FA|]. rewrite add_finite by assumption.
  destruct (round_parts (f_neg a && f_neg b) (f_val a + f_val b)) as (-> & _).
  assert (V : f_val a + f_val b == f_val a) by (rewrite B; ring). rewrite (rk_comp _ _ V). apply rk_exact. exact FA.
Qed.
Lemma increment_zero K TI TD dt a e1 e2 : f_finite (increment K TI TD dt a e1 e2) = true -> f_val a == 0 -> f_val e1 == 0 -> f_val e2 == 0 ->
  f_val (increment K TI TD dt a e1 e2) == 0.
Proof.
  unfold increment. cbv zeta. intros F A E1 E2. destruct (add_fin _ _ F) as (F1 & F2). destruct (add_fin _ _ F1) as (F3 & F4).
  rewrite add_zero; [|exact F|apply mul_zero; assumption]. rewrite add_zero; [|exact F1|apply mul_zero; assumption]. apply mul_zero; assumption.
Qed.
