(** The start of the regulator. *)
From Coq Require Import ZArith List Bool Lia QArith Qround Qpower Qabs Qminmax Lqa.
From Verif Require Import Base FTextModel FTextProofs FloatModel FloatProofs FloatProofs2 FloatProofs3 AioProofs TimeModel PidModel PidSpec PidProofs PidProofs2 PidProofs3 PidProofs4 PidProofs5 PidProofs6.
Import ListNotations.
Open Scope Q_scope.

(** The setting of the start: time of the start [t0], its length, its kind and the limits. *)
Record start := { t0 : Z; a7 : Z; z16 : Z; lo14 : Z; hi13 : Z }.
Definition len (s : start) : Z := (1000 * Qfloor (f_val (a7 s)))%Z.
Definition zs (s : start) : bool := f_true (z16 s).
Definition edge (s : start) : Z := if zs s then MIN_OUT else MAX_OUT.

Definition started (w : Z) (s : start) (t : Z) (p : pid) : Prop :=
  auto p /\ state p = S_ON /\ par p P_acceleration_time = a7 s /\ par p P_is_zero_start = z16 s /\ par p P_out_min = lo14 s /\
  par p P_out_max = hi13 s /\ start_time p = t0 s /\ start_value p = edge s /\ (t0 s <= t)%Z /\
  ((t - t0 s < len s)%Z -> follows (zs s) (f_val (lo14 s)) (f_val (hi13 s)) (len s) (t - t0 s) (f_val (Uk p))).

Lemma follows_mono b lo hi a t t' x : (0 < a)%Z -> (t <= t')%Z -> follows b lo hi a t x -> follows b lo hi a t' x.
Proof.
  intros A T. unfold follows. cbv zeta.
  assert (L : 100 * inject_Z t / inject_Z a <= 100 * inject_Z t' / inject_Z a).
  { assert (0 < inject_Z a) by (change 0 with (inject_Z 0); rewrite <- Zlt_Qlt; exact A).
    assert (inject_Z t <= inject_Z t') by (rewrite <- Zle_Qle; exact T).
    unfold Qdiv. apply Qmult_le_compat_r; [lra|]. apply Qinv_le_0_compat. lra. }
  destruct b; intros [H|H]; auto; right; lra.
Qed.
Lemma follows_limit b lo hi a t v : f_finite lo = true -> f_finite hi = true -> f_val lo <= f_val hi -> f_finite v = true ->
  follows b (f_val lo) (f_val hi) a t (f_val v) -> follows b (f_val lo) (f_val hi) a t (f_val (limit lo hi v)).
Proof.
  intros L H O V. destruct (limit_val lo hi v L H O V) as (_ & E). unfold follows. cbv zeta. unfold within in E.
  generalize dependent (f_val (limit lo hi v)). generalize (100 * inject_Z t / inject_Z a). intros line y E.
  destruct b; intros [X|X]; qcase; (right; lra) || (left; lra).
Qed.

Lemma started_recalc w s t p cur sg now q : (0 <= w <= 64)%Z -> tuned (par p) -> sound p -> small 30 cur -> sign_ok sg ->
  started w s t p -> (t <= now < 2 ^ w)%Z -> (len s < 2 ^ w)%Z -> recalc w p cur sg now = Some q ->
  started w s now q /\ f_finite (Uk q) = true.
Proof.
  intros W TU SO SC SG (AU & ON & H7 & H16 & H14 & H13 & HT & HV & T0 & FO) NOW LEN R.
  destruct (recalc_par _ _ _ _ _ _ R) as (RP & RS & RM & _ & _ & _ & RT & RV).
  assert (AQ : auto q). { destruct AU as (A1 & A2 & A3). split; [congruence|]. split; [congruence|]. rewrite RP. exact A3. }
  destruct (used_gains p) as ((K & TI) & TD) eqn:UG.
  destruct (due w p now) eqn:D.
  - destruct (recalc_law w p cur sg now K TI TD W TU SO SC SG UG D) as (q' & E & SQ & _ & _ & _ & _ & _ & _ & _ & _ & _ & AC & _).
    rewrite R in E. inversion E; subst q'. clear E.
    split; [|apply SQ].
    split; [exact AQ|]. split; [congruence|]. rewrite RP. do 4 (split; [assumption|]). split; [congruence|]. split; [congruence|]. split; [lia|].
    intros L. destruct SQ as ((FU & U0 & U1) & _). destruct SO as (_ & _ & _ & _ & SS & _).
    assert (ST : sensible_time (par p P_acceleration_time)) by (destruct TU as ((_ & _ & _ & _ & X) & _); exact X).
    destruct (accelerated_ok w p now (uk_1 q) W ST SS FU U0 U1) as (v' & AC' & _ & _ & Z1 & Z2).
    rewrite AC in AC'. injection AC' as AC'. subst v'.
    rewrite H7, H16, HV, HT in Z1, Z2.
    assert (DL : get_delta_millisec w now (t0 s) = (now - t0 s)%Z).
    { unfold get_delta_millisec. cbv zeta. destruct (Z.ltb_spec now (t0 s)); [lia|]. destruct (Z.leb_spec (t0 s) now); [reflexivity|lia]. }
    assert (LM : ((1000 * Qfloor (f_val (a7 s))) mod 2 ^ w = len s)%Z). { unfold len in *. apply Z.mod_small. lia. }
    cbv zeta in Z1, Z2. rewrite DL, LM in Z1, Z2. unfold follows. cbv zeta. unfold edge, zs in *.
    destruct (f_true (z16 s)).
    + destruct (Z1 L eq_refl) as (_ & Z1'). right.
      assert (V : f_val MIN_OUT == 0) by (vm_compute; reflexivity). assert (VA : Qabs (f_val MIN_OUT) == 0) by (vm_compute; reflexivity).
      generalize dependent (Qabs (f_val MIN_OUT)). generalize dependent (f_val MIN_OUT). intros. lra.
    + destruct (Z2 L eq_refl) as (_ & Z2'). right.
      assert (V : f_val MAX_OUT == 100) by (vm_compute; reflexivity). assert (VA : Qabs (f_val MAX_OUT) == 100) by (vm_compute; reflexivity).
      generalize dependent (Qabs (f_val MAX_OUT)). generalize dependent (f_val MAX_OUT). intros. lra.
  - rewrite not_due in R by exact D. inversion R; subst q. split; [|apply SO].
    split; [exact AU|]. do 7 (split; [assumption|]). split; [lia|].
    intros L. apply follows_mono with (t - t0 s)%Z; [lia|lia|]. apply FO. lia.
Qed.

Lemma started_eval w s t p cur sg now q o : (0 <= w <= 64)%Z -> tuned (par p) -> sound p -> small 30 cur -> sign_ok sg ->
  f_val (lo14 s) <= f_val (hi13 s) ->
  started w s t p -> (t <= now < 2 ^ w)%Z -> (len s < 2 ^ w)%Z -> eval w p cur sg now = Some (q, o) ->
  started w s now q /\ ((now - t0 s < len s)%Z -> follows (zs s) (f_val (lo14 s)) (f_val (hi13 s)) (len s) (now - t0 s) (f_val o)).
Proof.
  intros W TU SO SC SG LH ST NOW LEN E.
  destruct ST as (AU & ON & H7 & H16 & H14 & H13 & HT & HV & T0 & FO).
  destruct (auto_eval _ _ _ _ _ _ _ AU E) as (r & R & O & Q & PQ & UQ & _ & AQ & SQ).
  destruct (started_recalc w s t p cur sg now r W TU SO SC SG) as (SR & FR); try assumption; [repeat (split; [assumption|]); assumption|].
  destruct SR as (AR & ONR & R7 & R16 & R14 & R13 & RT & RV & _ & RF).
  assert (FL : f_finite (lo14 s) = true /\ f_finite (hi13 s) = true).
  { destruct TU as (_ & X & Y). rewrite <- H14, <- H13. split; [apply Y|apply X]. }
  assert (FO' : (now - t0 s < len s)%Z -> follows (zs s) (f_val (lo14 s)) (f_val (hi13 s)) (len s) (now - t0 s) (f_val o)).
  { intros L. rewrite O, H14, H13. apply follows_limit; try apply FL; [exact LH|exact FR|]. apply RF. exact L. }
  split; [|exact FO'].
  destruct AR as (_ & AR1 & AR2). destruct (auto_finish r now AR1 AR2) as (_ & _ & FP & _ & _ & _ & _ & _ & _ & _ & FT & FV & _).
  cbv zeta in *. rewrite <- Q in *.
  split; [exact AQ|]. split; [congruence|]. rewrite FP. do 4 (split; [assumption|]). split; [congruence|]. split; [congruence|]. split; [lia|].
  rewrite UQ. exact FO'.
Qed.

Lemma started_value w s t p v cur now q a : (0 <= w <= 64)%Z -> tuned (par p) -> sound p -> small 30 v -> small 30 cur ->
  f_val (lo14 s) <= f_val (hi13 s) ->
  started w s t p -> (t <= now < 2 ^ w)%Z -> (len s < 2 ^ w)%Z -> direct_set_value w p v cur now = Some (q, a) ->
  started w s now q /\ (forall x, a = AValue x -> (now - t0 s < len s)%Z -> follows (zs s) (f_val (lo14 s)) (f_val (hi13 s)) (len s) (now - t0 s) (f_val x)).
Proof.
  intros W TU SO SV SC LH ST NOW LEN E. unfold direct_set_value in E. cbv zeta in E. destruct (eval w _ _ _ _) as [(q' & o)|] eqn:EV; [|discriminate].
  assert (SG : sign_ok (if f_lt (f_of_Z 0) (par (with_set p v) P_is_reverse) then (-1)%Z else 1%Z)) by (destruct (f_lt _ _); [right|left]; reflexivity).
  destruct (started_eval w s t (with_set p v) cur _ now q' o W TU (set_sound p v SO SV) SC SG LH ST NOW LEN EV) as (S1 & F1).
  inversion E; subst. split; [exact S1|]. intros x X L. destruct (state q' =? S_OFF)%Z; [discriminate X|]. inversion X; subst. apply F1. exact L.
Qed.

Lemma started_step w s t p ps e h q a : (0 <= w <= 64)%Z -> settled p ps -> settings ps -> sound p -> sensible_history ps (e :: h) -> starting e ->
  f_val (lo14 s) <= f_val (hi13 s) -> (len s < 2 ^ w)%Z -> started w s t p ->
  let t' := match ev_time e with Some n => n | None => t end in
  (t <= t' < 2 ^ w)%Z -> step w p e = Some (q, a) ->
  started w s t' q /\ (forall x, a = AValue x -> (t' - t0 s < len s)%Z -> follows (zs s) (f_val (lo14 s)) (f_val (hi13 s)) (len s) (t' - t0 s) (f_val x)).
Proof.
  intros W SE SG SO SH (UN & ST2) LH LEN ST t' TT E. pose proof (settled_tuned _ _ SE SG) as TU.
  assert (KEEP : (t <= t')%Z -> started w s t' p).
  { intros L. destruct ST as (AU & ON & H7 & H16 & H14 & H13 & HT & HV & T0 & FO). split; [exact AU|]. do 7 (split; [assumption|]). split; [lia|].
    intros X. apply follows_mono with (t - t0 s)%Z; [|lia|apply FO; lia]. lia. }
  destruct e; cbn [step undisturbed sensible_history ev_time] in *; try contradiction.
  - destruct ST as (AU & ON & REST). rewrite ON in E. change (S_ON =? S_STOPPING)%Z with false in E. inversion E; subst. split; [apply KEEP; lia|discriminate].
  - destruct SH as (S1 & S2 & _). destruct (held p); [inversion E; subst; split; [apply KEEP; lia|discriminate]|].
    apply (started_value w s t p v current now q a W TU SO S1 S2 LH ST TT LEN E).
  - destruct SH as (S1 & S2 & _). apply (started_value w s t p v current now q a W TU SO S1 S2 LH ST TT LEN E).
  - destruct SH as (S1 & S2 & _). destruct (eval w p current sign now) as [(q' & o)|] eqn:EV; [|discriminate]. inversion E; subst.
    destruct (started_eval w s t p current sign now q o W TU SO S1 S2 LH ST TT LEN EV) as (X & _). split; [exact X|discriminate].
  - inversion E; subst. split; [|discriminate]. exact (KEEP ltac:(lia)).
  - inversion E; subst. split; [|discriminate]. exact (KEEP ltac:(lia)).
  - inversion E; subst. split; [|discriminate]. destruct (_ && _)%bool; [|exact (KEEP ltac:(lia))].
    destruct (KEEP ltac:(lia)) as ((A1 & A2 & A3) & ON & H7 & H16 & H14 & H13 & REST). unfold started, auto, set_par. cbn [par state prev_manual start_time start_value Uk].
    destruct (Z.eqb_spec P_is_manual_mode i) as [X|X]; [unfold P_is_manual_mode in X; lia|].
    destruct (Z.eqb_spec P_acceleration_time i) as [X1|X1]; [unfold P_acceleration_time in X1; lia|].
    destruct (Z.eqb_spec P_is_zero_start i) as [X2|X2]; [unfold P_is_zero_start in X2; lia|].
    destruct (Z.eqb_spec P_out_min i) as [X3|X3]; [unfold P_out_min in X3; lia|].
    destruct (Z.eqb_spec P_out_max i) as [X4|X4]; [unfold P_out_max in X4; lia|].
    split; [auto|]. do 5 (split; [assumption|]). exact REST.
  - destruct (_ && _)%bool; [|inversion E; subst; split; [exact (KEEP ltac:(lia))|discriminate]]. cbv zeta in E.
    destruct (_ || _)%bool; inversion E; subst; (split; [|discriminate]); [exact (KEEP ltac:(lia))|].
    destruct (KEEP ltac:(lia)) as ((A1 & A2 & A3) & ON & H7 & H16 & H14 & H13 & REST). unfold started, auto, set_par. cbn [par state prev_manual start_time start_value Uk].
    destruct (Z.eqb_spec P_is_manual_mode i) as [X|X]; [unfold P_is_manual_mode in X; lia|].
    destruct (Z.eqb_spec P_acceleration_time i) as [X1|X1]; [unfold P_acceleration_time in X1; lia|].
    destruct (Z.eqb_spec P_is_zero_start i) as [X2|X2]; [unfold P_is_zero_start in X2; lia|].
    destruct (Z.eqb_spec P_out_min i) as [X3|X3]; [unfold P_out_min in X3; lia|].
    destruct (Z.eqb_spec P_out_max i) as [X4|X4]; [unfold P_out_max in X4; lia|].
    split; [auto|]. do 5 (split; [assumption|]). exact REST.
  - inversion E; subst. split; [|discriminate]. exact (KEEP ltac:(lia)).
Qed.

Lemma last_ge t h : ordered t h -> (t <= last_event t h)%Z.
Proof.
  revert t. induction h as [|e h IH]; intros t H; cbn [ordered last_event] in *; [lia|].
  destruct (ev_time e) as [n|]; [|apply IH; exact H]. destruct H as (L & H). apply IH in H. lia.
Qed.
Lemma started_run w s h : (0 <= w <= 64)%Z -> f_val (lo14 s) <= f_val (hi13 s) -> (len s < 2 ^ w)%Z ->
  Forall starting h -> forall t p ps q l, settled p ps -> settings ps -> sound p -> sensible_history ps h ->
  started w s t p -> ordered t h -> (last_event t h < 2 ^ w)%Z -> run w p h = Some (q, l) ->
  started w s (last_event t h) q /\ sound q /\ tuned (par q).
Proof.
  intros W LH LEN FA. induction FA as [|e h A _ IH]; intros t p ps q l SE SG SO SH ST OR LA E; cbn [run] in E.
  - inversion E; subst. split; [exact ST|]. split; [exact SO|exact (settled_tuned _ _ SE SG)].
  - destruct (step_sound w p ps e h W SO SE SG SH) as (p1 & a & ps' & E1 & T1 & T2 & T3 & T4 & _). rewrite E1 in E.
    destruct (run w p1 h) as [(p2 & l2)|] eqn:R; [|discriminate]. inversion E; subst. clear E.
    cbn [last_event ordered] in *. set (t' := match ev_time e with Some n => n | None => t end) in *.
    assert (OR' : (t <= t')%Z /\ ordered t' h). { unfold t'. destruct (ev_time e); [exact OR|]. split; [lia|exact OR]. }
    destruct OR' as (O1 & O2). pose proof (last_ge _ _ O2) as L2.
    destruct (started_step w s t p ps e h p1 a W SE SG SO SH A LH LEN ST) as (S1 & _); [fold t'; lia|exact E1|]. fold t' in S1.
    exact (IH t' p1 ps' _ _ T2 T3 T1 T4 S1 O2 LA R).
Qed.
