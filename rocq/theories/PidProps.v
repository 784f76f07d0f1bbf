(** Properties of the regulator (C18, C70-C73). *)
From Coq Require Import ZArith List Bool Lia QArith Qround Qpower Qabs Qminmax Lqa.
From Verif Require Import Base FTextModel FTextProofs FloatModel FloatProofs FloatProofs2 FloatProofs3 AioProofs TimeModel PidModel PidSpec.
From Verif Require Import PidProofs PidProofs2 PidProofs3 PidProofs4 PidProofs5 PidProofs6 PidProofs7.
Import ListNotations.
Open Scope Q_scope.

(** Settings for the examples: k 2, Ti 10 s, every second, 0..100 measured, limits 10..90. *)
Definition ex_par (acc man : Z) : Z -> Z := fun i =>
  match i with
  | 1 | 10 => f_of_Z 2 | 2 | 11 => f_of_Z 10 | 4 => f_of_Z 1000 | 5 => f_of_Z 100 | 7 => f_of_Z acc | 8 => f_of_Z 0 | 9 => f_of_Z man
  | 13 => f_of_Z 90 | 14 => f_of_Z 10 | 16 => f_of_Z 1 | _ => f_of_Z 0
  end%Z.
Definition outs (r : option (pid * list act)) : option (list Q) :=
  match r with
  | Some (_, l) => Some (flat_map (fun a => match a with AValue v | AResult v => [Qred (f_val v)] | _ => [] end) l)
  | None => None
  end.

(** A regulator with sensible settings after a sensible history. *)
Definition reached (w : Z) (p : pid) : Prop :=
  exists ps t h l, tuned ps /\ small 30 (ps 9%Z) /\ sensible_history ps h /\ run w (init ps t) h = Some (p, l).
Lemma reached_sound w p : (0 <= w <= 64)%Z -> reached w p -> sound p /\ tuned (par p).
Proof.
  intros W (ps & t & h & l & TU & S9 & SH & R). destruct (init_sound ps t TU S9) as (S1 & S2 & S3).
  destruct (run_sound w h W (init ps t) ps S1 S2 S3 SH) as (q & l' & R' & SQ & TQ & _). rewrite R in R'. inversion R'; subst. auto.
Qed.
(** It works and nobody uses manual mode. *)
Definition working (p : pid) : Prop :=
  state p = 1%Z /\ prev_manual p = false /\ f_eq (par p 8%Z) (f_of_Z 0) = true.
Lemma working_auto p : working p -> auto p.
Proof. intros (A & B). split; [rewrite A; discriminate|exact B]. Qed.
(** The interval between recalculations, in ms. *)
Definition interval_ms (p : pid) : Q := if Qeq_bool (f_val (par p 4%Z)) 0 then 1000 else f_val (par p 4%Z).
Lemma past_due w p t : (0 <= w <= 64)%Z -> tuned (par p) -> f_val (par p 4%Z) <= Qpower 2 20 -> (last_time p <= t <= last_time p + 2 ^ 64)%Z ->
  (interval_ms p + 1 <= inject_Z (t - last_time p) -> due w p t = true) /\ (inject_Z (t - last_time p) <= interval_ms p - 1 -> due w p t = false).
Proof.
  intros W ((_ & _ & SI & _) & _) L T. destruct (due_spec w p t W SI L) as (D1 & D2). cbv zeta in D1, D2.
  assert (DL : get_delta_millisec w t (last_time p) = (t - last_time p)%Z).
  { unfold get_delta_millisec. cbv zeta. destruct (Z.ltb_spec t (last_time p)); [lia|]. destruct (Z.leb_spec (last_time p) t); [reflexivity|lia]. }
  rewrite DL in *. split; [apply D1; lia|exact D2].
Qed.

(** * C18: the output stays inside the limits *)

Theorem C18_limits w ps t h p l : f_eq (ps 8%Z) (f_of_Z 0) = true -> f_le (ps 14%Z) (ps 13%Z) = true -> Forall automatic h ->
  run w (init ps t) h = Some (p, l) ->
  forall v, In (AValue v) l -> f_isnan v = true \/ (f_le (ps 14%Z) v = true /\ f_le v (ps 13%Z) = true).
Proof.
  intros M LE A R v I. apply f_le_spec in LE. destruct LE as (NL & NH & LE).
  destruct (run_limits w h (ps 14%Z) (ps 13%Z) A (init ps t) p l) as (_ & H); [repeat split; exact M|exact R|].
  destruct (H v I) as (y & ->). destruct (limit_key (ps 14%Z) (ps 13%Z) y NL NH LE) as [X|(X & Y)]; [left; exact X|right].
  split; apply f_le_spec; repeat split; try assumption; lia.
Qed.

Definition finite_act (a : act) : Prop := match a with AValue v | AResult v => f_finite v = true | _ => True end.
Theorem C18_number w ps t h : (0 <= w <= 64)%Z -> tuned ps -> small 30 (ps 9%Z) -> sensible_history ps h ->
  exists p l, run w (init ps t) h = Some (p, l) /\ Forall finite_act l.
Proof.
  intros W TU S9 SH. destruct (init_sound ps t TU S9) as (S1 & S2 & S3).
  destruct (run_sound w h W (init ps t) ps S1 S2 S3 SH) as (q & l & R & _ & _ & F). exists q, l. split; [exact R|exact F].
Qed.

Theorem C18_inside w ps t h : (0 <= w <= 64)%Z -> tuned ps -> small 30 (ps 9%Z) -> sensible_history ps h -> Forall automatic h ->
  f_val (ps 8%Z) == 0 -> f_finite (ps 8%Z) = true -> f_val (ps 14%Z) <= f_val (ps 13%Z) ->
  exists p l, run w (init ps t) h = Some (p, l) /\
    forall v, In (AValue v) l -> f_finite v = true /\ f_val (ps 14%Z) <= f_val v /\ f_val v <= f_val (ps 13%Z).
Proof.
  intros W TU S9 SH A M FM LE. destruct (C18_number w ps t h W TU S9 SH) as (p & l & R & F). exists p, l. split; [exact R|].
  intros v I. assert (FV : f_finite v = true). { rewrite Forall_forall in F. exact (F _ I). }
  assert (FL : f_finite (ps 14%Z) = true) by (destruct TU as (_ & _ & X); apply X).
  assert (FH : f_finite (ps 13%Z) = true) by (destruct TU as (_ & X & _); apply X).
  assert (E8 : f_eq (ps 8%Z) (f_of_Z 0) = true). { rewrite eq0_val by exact FM. apply Qeq_bool_iff. exact M. }
  assert (LE' : f_le (ps 14%Z) (ps 13%Z) = true). { apply f_le_spec. repeat split; [apply fin_nn; exact FL|apply fin_nn; exact FH|apply val_le; assumption]. }
  split; [exact FV|]. destruct (C18_limits w ps t h p l E8 LE' A R v I) as [X|(X & Y)].
  - rewrite (fin_nn _ FV) in X. discriminate X.
  - apply f_le_spec in X. apply f_le_spec in Y. destruct X as (_ & _ & X), Y as (_ & _ & Y). split; apply val_le; assumption.
Qed.

(** The limits themselves: the commands of the old kind keep them between 0 and 100. *)
Definition proper (lo hi : Z) : Prop :=
  f_finite lo = true /\ f_finite hi = true /\ 0 <= f_val lo /\ f_val lo <= f_val hi /\ f_val hi <= 100.
Theorem C18_old_commands w p i v q a : proper (par p 14%Z) (par p 13%Z) -> step w p (POldPar i v) = Some (q, a) ->
  proper (par q 14%Z) (par q 13%Z).
Proof.
  intros (FL & FH & L0 & LH & H1) E. assert (PR : proper (par p 14%Z) (par p 13%Z)) by (split; [exact FL|auto]).
  cbn [step] in E. destruct (_ && _); [|inversion E; subst; exact PR]. cbv zeta in E.
  set (v1 := if ((i =? P_out_min)%Z && negb (Qle_bool 0 v)) then 0 else v) in E.
  set (v2 := if ((i =? P_out_max)%Z && negb (Qle_bool v1 100)) then 100 else v1) in E.
  destruct (_ || _) eqn:REF; inversion E; subst; [exact PR|]. clear E.
  apply orb_false_iff in REF. destruct REF as (R1 & R2). unfold set_par. cbn [par].
  destruct (finite_not _ FL) as (_ & IL). destruct (finite_not _ FH) as (_ & IH).
  pose proof (vz 0 ltac:(clear; lia)) as V0. pose proof (vz 100 ltac:(clear; lia)) as V100. change (inject_Z 0) with 0 in V0. change (inject_Z 100) with 100 in V100.
  pose proof (fz 0 ltac:(clear; lia)) as F0. pose proof (fz 100 ltac:(clear; lia)) as F100.
  destruct (Z.eqb_spec 14 i) as [X|X]; [subst i|destruct (Z.eqb_spec 13 i) as [Y|Y]; [subst i|exact PR]].
  - change (14 =? P_out_min)%Z with true in *. change (14 =? P_out_max)%Z with false in *. cbn [andb] in *. change (13 =? 14)%Z with false. cbv iota.
    change (par p P_out_max) with (par p 13%Z) in R1. rewrite FH, IH in R1. cbn [andb orb] in R1. rewrite orb_false_r in R1.
    apply negb_false_iff in R1. apply Qle_bool_iff in R1.
    assert (V1 : 0 <= v2). { unfold v2, v1. destruct (Qle_bool 0 v) eqn:Q; cbn [negb]; [apply Qle_bool_iff; exact Q|apply Qle_refl]. }
    destruct (round_between false (f_of_Z 0) (par p 13%Z) v2 F0 FH) as (F & K1 & K2); [rewrite V0; lra|]. rewrite V0 in K1.
    split; [exact F|]. auto.
  - change (13 =? P_out_min)%Z with false in *. change (13 =? P_out_max)%Z with true in *. cbn [andb orb] in *.
    change (par p P_out_min) with (par p 14%Z) in R2. rewrite FL, IL in R2. cbn [andb orb] in R2. rewrite orb_false_r in R2.
    apply negb_false_iff in R2. apply Qle_bool_iff in R2.
    assert (V1 : v2 <= 100). { unfold v2. destruct (Qle_bool v1 100) eqn:Q; cbn [negb]; [apply Qle_bool_iff; exact Q|apply Qle_refl]. }
    destruct (round_between false (par p 14%Z) (f_of_Z 100) v2 FL F100) as (F & K1 & K2); [rewrite V100; lra|]. rewrite V100 in K2.
    split; [exact FL|]. split; [exact F|]. split; [exact L0|]. split; assumption.
Qed.
(** What a command of the old kind does exactly, also when the other limit is not a
    finite number: the value is cut at 0 or 100 and refused if it passes the other
    limit; [beyond x v]: the float [x] is greater than [v]. *)
Definition beyond (x : Z) (v : Q) : Prop :=
  f_isnan x = false /\ (if f_isinf x then f_neg x = false else v < f_val x).
Definition short_of (x : Z) (v : Q) : Prop :=
  f_isnan x = false /\ (if f_isinf x then f_neg x = true else f_val x < v).
Theorem C18_old_command_effect w p i v : (1 <= i <= 16)%Z ->
  let v' := if (i =? 14)%Z then Qmax v 0 else if (i =? 13)%Z then Qmin v 100 else v in
  let refused := (i = 14%Z /\ short_of (par p 13%Z) v') \/ (i = 13%Z /\ beyond (par p 14%Z) v') in
  exists q, step w p (POldPar i v) = Some (q, ANone) /\
    (forall j, j <> i -> par q j = par p j) /\
    (refused -> par q i = par p i) /\ (~ refused -> exists x, x == v' /\ par q i = f_round false x).
Proof.
  intros I v' refused. cbn [step]. replace ((1 <=? i)%Z && (i <=? PARAMS)%Z) with true by (unfold PARAMS; symmetry; apply andb_true_iff; split; lia).
  cbv zeta. set (v1 := if ((i =? P_out_min)%Z && negb (Qle_bool 0 v)) then 0 else v).
  set (v2 := if ((i =? P_out_max)%Z && negb (Qle_bool v1 100)) then 100 else v1).
  assert (E : v2 == v').
  { unfold v2, v1, v', P_out_min, P_out_max. destruct (Z.eqb_spec i 14) as [->|A].
    - cbn [Z.eqb Pos.eqb andb]. destruct (Qle_bool 0 v) eqn:B; cbn [negb].
      + apply Qle_bool_iff in B. symmetry. apply Q.max_l. exact B.
      + symmetry. apply Q.max_r. destruct (Qlt_le_dec v 0) as [L|L]; [apply Qlt_le_weak; exact L|]. apply Qle_bool_iff in L. congruence.
    - cbn [andb]. destruct (Z.eqb_spec i 13) as [->|B]; cbn [andb]; [|reflexivity]. destruct (Qle_bool v 100) eqn:C; cbn [negb].
      + apply Qle_bool_iff in C. symmetry. apply Q.min_l. exact C.
      + symmetry. apply Q.min_r. destruct (Qlt_le_dec 100 v) as [L|L]; [apply Qlt_le_weak; exact L|]. apply Qle_bool_iff in L. congruence. }
  clearbody v2. clear v1.
  assert (CL : forall x, f_finite x = negb (f_isnan x) && negb (f_isinf x)).
  { intros x. unfold f_finite, f_isnan, f_isinf. unfold INF. change (255 * 2 ^ 23)%Z with 2139095040%Z. destruct (Z.ltb_spec (f_mag x) 2139095040), (Z.ltb_spec 2139095040 (f_mag x)), (Z.eqb_spec (f_mag x) 2139095040); try reflexivity; clear - H H0 n || clear - H H0 e; lia. }
  assert (A1 : forall x, (f_finite x && negb (Qle_bool v2 (f_val x)) || f_isinf x && f_neg x) = true <-> short_of x v').
  { intros x. unfold short_of. rewrite CL. destruct (f_isnan x) eqn:N, (f_isinf x) eqn:F; cbn [negb andb orb].
    - exfalso. unfold f_isnan, f_isinf in *. unfold INF in F. change (255 * 2 ^ 23)%Z with 2139095040%Z in *. clear - N F. lia.
    - split; [discriminate|]. intros [X _]. discriminate.
    - split; [intros X; split; [reflexivity|exact X]|intros [_ X]; exact X].
    - rewrite orb_false_r, negb_true_iff. rewrite <- E. split.
      + intros X. split; [reflexivity|]. destruct (Qlt_le_dec (f_val x) v2) as [L|L]; [exact L|]. apply Qle_bool_iff in L. congruence.
      + intros [_ X]. destruct (Qle_bool v2 (f_val x)) eqn:Y; [|reflexivity]. apply Qle_bool_iff in Y. exfalso. apply (Qlt_not_le _ _ X Y). }
  assert (A2 : forall x, (f_finite x && negb (Qle_bool (f_val x) v2) || f_isinf x && negb (f_neg x)) = true <-> beyond x v').
  { intros x. unfold beyond. rewrite CL. destruct (f_isnan x) eqn:N, (f_isinf x) eqn:F; cbn [negb andb orb].
    - exfalso. unfold f_isnan, f_isinf in *. unfold INF in F. change (255 * 2 ^ 23)%Z with 2139095040%Z in *. clear - N F. lia.
    - split; [discriminate|]. intros [X _]. discriminate.
    - rewrite negb_true_iff. split; [intros X; split; [reflexivity|exact X]|intros [_ X]; exact X].
    - rewrite orb_false_r, negb_true_iff. rewrite <- E. split.
      + intros X. split; [reflexivity|]. destruct (Qlt_le_dec v2 (f_val x)) as [L|L]; [exact L|]. apply Qle_bool_iff in L. congruence.
      + intros [_ X]. destruct (Qle_bool (f_val x) v2) eqn:Y; [|reflexivity]. apply Qle_bool_iff in Y. exfalso. apply (Qlt_not_le _ _ X Y). }
  change (par p P_out_max) with (par p 13%Z). change (par p P_out_min) with (par p 14%Z).
  specialize (A1 (par p 13%Z)). specialize (A2 (par p 14%Z)).
  set (b1 := f_finite (par p 13%Z) && _ || _) in *. set (b2 := f_finite (par p 14%Z) && _ || _) in *. clearbody b1 b2.
  destruct ((i =? P_out_min)%Z && b1 || (i =? P_out_max)%Z && b2) eqn:REF.
  - exists p. split; [reflexivity|]. split; [reflexivity|]. split; [reflexivity|]. intros N. exfalso. apply N. unfold refused.
    apply orb_true_iff in REF. destruct REF as [R|R]; apply andb_true_iff in R; destruct R as [R1 R2]; apply Z.eqb_eq in R1; [left|right]; split; tauto.
  - exists (set_par p i (f_round false v2)). split; [reflexivity|].
    assert (G : forall j, par (set_par p i (f_round false v2)) j = if (j =? i)%Z then f_round false v2 else par p j) by reflexivity.
    split; [intros j J; rewrite G; replace (j =? i)%Z with false by lia; reflexivity|]. rewrite G, Z.eqb_refl. split.
    + intros R. exfalso. unfold refused in R. apply orb_false_iff in REF. destruct REF as [R1 R2].
      destruct R as [[-> R]|[-> R]].
      * apply A1 in R. subst b1. discriminate.
      * apply A2 in R. subst b2. discriminate.
    + intros _. exists v2. split; [exact E|reflexivity].
Qed.
(** The commands of the new kind do not: the actuator gets 150. *)
Theorem C18_new_commands_refuted : exists p l,
  run 64 (init (ex_par 0 0) 0) [POn None 0; PPar 13 (f_of_Z 200); PPar 14 (f_of_Z 150); PValue (f_of_Z 50) (f_of_Z 40) 2000] = Some (p, l) /\
  In (AValue (f_of_Z 150)) l.
Proof. eexists. eexists. split; [vm_compute; reflexivity|]. vm_compute. auto 10. Qed.

(** One measurement that is not a number when a recalculation is due: from then on every
    value is not a number, until the regulator is switched or put in manual mode. *)
Theorem C18_nan_refuted w p v c t h q l : (0 <= w <= 64)%Z -> sensible_interval (par p 4%Z) -> f_val (par p 4%Z) <= Qpower 2 20 ->
  state p = 1%Z -> prev_manual p = false -> f_eq (par p 8%Z) (f_of_Z 0) = true -> f_isnan c = true ->
  (last_time p <= t <= last_time p + 2 ^ 64)%Z ->
  (if Qeq_bool (f_val (par p 4%Z)) 0 then 1000 else f_val (par p 4%Z)) + 1 <= inject_Z (t - last_time p) ->
  Forall undisturbed h -> run w p (PCmdValue v c t :: h) = Some (q, l) ->
  forall a, In a l -> match a with AValue x | AResult x => f_isnan x = true | _ => True end.
Proof.
  intros W SI L20 ON PM M NC T DUE FU R a I.
  assert (D : due w p t = true).
  { destruct (due_spec w p t W SI L20) as (D & _). cbv zeta in D.
    assert (DL : get_delta_millisec w t (last_time p) = (t - last_time p)%Z).
    { unfold get_delta_millisec. cbv zeta. destruct (Z.ltb_spec t (last_time p)); [lia|]. destruct (Z.leb_spec (last_time p) t); [reflexivity|lia]. }
    rewrite DL in D. apply D; [lia|exact DUE]. }
  cbn [run] in R. destruct (step w p (PCmdValue v c t)) as [(p1 & a1)|] eqn:S; [|discriminate].
  destruct (run w p1 h) as [(p2 & l2)|] eqn:R2; [|discriminate]. inversion R; subst. clear R. cbn [step] in S.
  assert (AU : auto p) by (split; [rewrite ON; discriminate|auto]).
  destruct (lost_value w p v c t p1 a1 AU ON S) as (L1 & N1); [auto|intros X; congruence|].
  destruct (run_lost w h FU p1 q l2 L1 R2) as (_ & FN). destruct I as [<-|I]; [exact N1|]. rewrite Forall_forall in FN. exact (FN a I).
Qed.

Print Assumptions C18_old_command_effect.
Print Assumptions C18_inside.
Print Assumptions C18_nan_refuted.

(** Settings of the examples are sensible, so the theorems apply to them. *)
Lemma small_dec n b : f_finite b = true -> Qle_bool (Qabs (f_val b)) (Qpower 2 n) = true -> small n b.
Proof. intros F H. split; [exact F|]. apply Qle_bool_iff. exact H. Qed.
Example ex_tuned : tuned (ex_par 20 0) /\ small 30 (ex_par 20 0 9%Z).
Proof.
  split; [|apply small_dec; vm_compute; reflexivity].
  split; [|split; apply small_dec; vm_compute; reflexivity].
  split; [|split; [|split; [|split]]].
  - split; [apply small_dec; vm_compute; reflexivity|]. split; [apply small_dec; vm_compute; reflexivity|]. split; [apply small_dec; vm_compute; reflexivity|].
    right. apply Qle_bool_iff. vm_compute. reflexivity.
  - split; [apply small_dec; vm_compute; reflexivity|]. split; [apply small_dec; vm_compute; reflexivity|]. split; [apply small_dec; vm_compute; reflexivity|].
    right. apply Qle_bool_iff. vm_compute. reflexivity.
  - split; [reflexivity|]. right. split; apply Qle_bool_iff; vm_compute; reflexivity.
  - split; [apply small_dec; vm_compute; reflexivity|]. split; [apply small_dec; vm_compute; reflexivity|].
    right. apply Qle_bool_iff. vm_compute. reflexivity.
  - split; [reflexivity|]. split; [apply Qle_bool_iff; vm_compute; reflexivity|]. vm_compute. reflexivity.
Qed.
Example C18_example :
  outs (run 64 (init (ex_par 0 0) 0) [POn None 0; PValue (f_of_Z 50) (f_of_Z 45) 500; PValue (f_of_Z 50) (f_of_Z 45) 1500;
    PValue (f_of_Z 50) (f_of_Z 48) 2600; PValue (f_of_Z 50) (f_of_Z (-100)) 3700; PValue (f_of_Z 50) (f_of_Z 100) 4800])
  = Some [10; 10; 10; 90; 10].
Proof. vm_compute. reflexivity. Qed.
Example C18_nan_example : exists l,
  (match run 64 (init (ex_par 0 0) 0) [POn None 0; PValue (f_of_Z 50) NAN 1500; PValue (f_of_Z 50) (f_of_Z 45) 1600; PValue (f_of_Z 50) (f_of_Z 45) 3000] with
   | Some (_, l') => l' = l | None => False end) /\ l = [ANone; AValue NAN; AValue NAN; AValue NAN].
Proof. eexists. split; [vm_compute; reflexivity|reflexivity]. Qed.

(** * C70: the law of regulation *)

(** The parameters in use, the direction, and the time of the start in ms. *)
Definition tuning (p : pid) : Q * Q * Q :=
  if (used_par p =? 2)%Z then (f_val (par p 10%Z), f_val (par p 11%Z), f_val (par p 12%Z))
  else (f_val (par p 1%Z), f_val (par p 2%Z), f_val (par p 3%Z)).
Definition direct (p : pid) : Z := if f_lt (f_of_Z 0) (par p 15%Z) then (-1)%Z else 1%Z.
Definition start_ms (p : pid) : Z := (1000 * Qfloor (f_val (par p 7%Z)))%Z.

Lemma value_auto w p v c t q a : auto p -> direct_set_value w p v c t = Some (q, a) ->
  exists r, recalc w (with_set p v) c (direct p) t = Some r /\ a = AValue (limit (par p 14%Z) (par p 13%Z) (Uk r)) /\
    uk_1 q = uk_1 r /\ ek_1 q = ek_1 r /\ ek_2 q = ek_2 r /\ last_time q = last_time r /\ start_time q = start_time r /\
    out_value q = limit (par p 14%Z) (par p 13%Z) (Uk r) /\ auto q /\ state q = state p /\ par q = par p.
Proof.
  intros AU E. unfold direct_set_value in E. cbv zeta in E. fold (direct p) in E.
  change (if f_lt (f_of_Z 0) (par (with_set p v) P_is_reverse) then (-1)%Z else 1%Z) with (direct p) in E.
  destruct (eval w (with_set p v) c (direct p) t) as [(q' & o)|] eqn:EV; [|discriminate].
  destruct (auto_eval w (with_set p v) c (direct p) t q' o (AU : auto (with_set p v)) EV) as (r & R & O & Q & PQ & _ & OQ & AQ & SQ).
  destruct (recalc_par _ _ _ _ _ _ R) as (RP & RS & RM & _).
  destruct (auto_finish r t) as (_ & _ & _ & _ & _ & F6 & _ & F8 & F9 & F10 & F11 & _); [rewrite RM; apply AU|rewrite RP; apply AU|]. cbv zeta in *.
  rewrite <- Q in *. inversion E; subst. exists r. split; [exact R|].
  destruct (Z.eqb_spec (state (finish r t)) S_OFF) as [X|X]; [exfalso; apply AQ; exact X|].
  split; [reflexivity|]. cbn [with_out uk_1 ek_1 ek_2 last_time start_time out_value state par]. do 5 (split; [assumption|]).
  split; [reflexivity|]. split; [exact AQ|]. split; [exact SQ|]. exact PQ.
Qed.
Lemma direct_ok p : sign_ok (direct p).
Proof. unfold direct. destruct (f_lt _ _); [right|left]; reflexivity. Qed.

(** Once the interval has passed the output changes by the law, up to rounding. *)
Theorem C70_law w p v c t q a K TI TD : (0 <= w <= 64)%Z -> reached w p -> working p -> small 30 v -> small 30 c ->
  f_val (par p 4%Z) <= Qpower 2 20 -> (last_time p <= t <= last_time p + 2 ^ 64)%Z -> interval_ms p + 1 <= inject_Z (t - last_time p) ->
  tuning p = (K, TI, TD) -> step w p (PCmdValue v c t) = Some (q, a) ->
  let T := seconds (f_val (par p 4%Z)) in
  let law f := f K (integral_time TI) TD T (f_val (ek_1 q)) (f_val (ek_1 p)) (f_val (ek_2 p)) in
  Qabs (f_val (uk_1 q) - cut (f_val (uk_1 p) + law change)) <= (20 # 2 ^ 24) * (100 + law size) /\
  ek_2 q = ek_1 p /\ last_time q = t.
Proof.
  intros W RE WO SV SC L20 T DUE TU E. destruct (reached_sound w p W RE) as (SO & TN). cbn [step] in E.
  destruct (past_due w p t W TN L20 T) as (D & _). specialize (D DUE).
  destruct (value_auto w p v c t q a (working_auto p WO) E) as (r & R & _ & U1 & E1 & E2 & LT & _).
  assert (UG : exists K' TI' TD', used_gains (with_set p v) = (K', TI', TD') /\ K = f_val K' /\ TI = f_val TI' /\ TD = f_val TD').
  { unfold tuning in TU. unfold used_gains. cbn [with_set used_par par]. destruct (used_par p =? 2)%Z; inversion TU; do 3 eexists; split; try reflexivity; auto. }
  destruct UG as (K' & TI' & TD' & UG & -> & -> & ->).
  destruct (recalc_law w (with_set p v) c (direct p) t K' TI' TD' W TN (set_sound p v SO SV) SC (direct_ok p) UG D) as
    (r' & R' & _ & _ & _ & _ & LT' & _ & _ & _ & EK1 & EK2 & _ & LAW).
  rewrite R in R'. inversion R'; subst r'. cbv zeta. rewrite U1, E1. split; [exact LAW|]. split; [rewrite E2; exact EK2|]. rewrite LT. exact LT'.
Qed.
(** The error is the distance to the set value in percent of the range, negative when reversed. *)
Theorem C70_error w p v c t q a : (0 <= w <= 64)%Z -> reached w p -> working p -> small 30 v -> small 30 c ->
  f_val (par p 4%Z) <= Qpower 2 20 -> (last_time p <= t <= last_time p + 2 ^ 64)%Z -> interval_ms p + 1 <= inject_Z (t - last_time p) ->
  ~ f_val (par p 5%Z) == f_val (par p 6%Z) -> step w p (PCmdValue v c t) = Some (q, a) ->
  let lo := f_val (par p 6%Z) in let hi := f_val (par p 5%Z) in
  Qabs (f_val (ek_1 q) - percent (direct p) (f_val v) (f_val c) lo hi)
    <= (10 # 2 ^ 24) * (100 * (Qabs (f_val v - f_val c) + 1) / Qabs (hi - lo)).
Proof.
  intros W RE WO SV SC L20 T DUE NE E. destruct (reached_sound w p W RE) as (SO & TN). cbn [step] in E.
  destruct (past_due w p t W TN L20 T) as (D & _). specialize (D DUE).
  destruct (value_auto w p v c t q a (working_auto p WO) E) as (r & R & _ & U1 & E1 & _).
  assert (UG : exists K' TI' TD', used_gains (with_set p v) = (K', TI', TD')) by (destruct (used_gains (with_set p v)) as ((K' & TI') & TD'); eauto).
  destruct UG as (K' & TI' & TD' & UG).
  destruct (recalc_fields w (with_set p v) c (direct p) t r K' TI' TD' UG D R) as (_ & EK & _).
  cbv zeta. rewrite E1, EK. destruct TN as ((_ & _ & _ & SR & _) & _).
  exact (proj1 (proj2 (error_near (with_set p v) c (direct p) (direct_ok p) SV SC SR NE))).
Qed.
(** Before that nothing changes: the value is the last one, inside the present limits. *)
Theorem C70_interval w p v c t q a : (0 <= w <= 64)%Z -> reached w p -> working p ->
  f_val (par p 4%Z) <= Qpower 2 20 -> (last_time p <= t <= last_time p + 2 ^ 64)%Z -> inject_Z (t - last_time p) <= interval_ms p - 1 ->
  f_val (par p 14%Z) <= f_val (par p 13%Z) ->
  step w p (PCmdValue v c t) = Some (q, a) ->
  uk_1 q = uk_1 p /\ ek_1 q = ek_1 p /\ ek_2 q = ek_2 p /\ last_time q = last_time p /\
  exists o, a = AValue o /\ f_val o == within (f_val (par p 14%Z)) (f_val (par p 13%Z)) (f_val (Uk p)).
Proof.
  intros W RE WO L20 T DUE LE E. destruct (reached_sound w p W RE) as (SO & TN). cbn [step] in E.
  destruct (past_due w p t W TN L20 T) as (_ & D). specialize (D DUE).
  destruct (value_auto w p v c t q a (working_auto p WO) E) as (r & R & A & U1 & E1 & E2 & LT & _).
  rewrite (not_due w (with_set p v) c (direct p) t D) in R. inversion R; subst r. clear R.
  do 4 (split; [assumption|]). eexists. split; [exact A|]. destruct TN as (_ & H13 & H14).
  apply limit_val; [apply H14|apply H13|exact LE|]. apply SO.
Qed.
(** After the start the value sent is the result of the law inside the limits. *)
Theorem C70_output w p v c t q a : (0 <= w <= 64)%Z -> reached w p -> working p -> small 30 v -> small 30 c ->
  f_val (par p 4%Z) <= Qpower 2 20 -> (last_time p <= t <= last_time p + 2 ^ 64)%Z -> interval_ms p + 1 <= inject_Z (t - last_time p) ->
  f_val (par p 14%Z) <= f_val (par p 13%Z) -> (start_ms p < 2 ^ w)%Z -> (start_time p + start_ms p <= t)%Z ->
  step w p (PCmdValue v c t) = Some (q, a) ->
  exists o, a = AValue o /\ f_val o == within (f_val (par p 14%Z)) (f_val (par p 13%Z)) (f_val (uk_1 q)).
Proof.
  intros W RE WO SV SC L20 T DUE LE LEN ST E. destruct (reached_sound w p W RE) as (SO & TN). cbn [step] in E.
  destruct (past_due w p t W TN L20 T) as (D & _). specialize (D DUE).
  destruct (value_auto w p v c t q a (working_auto p WO) E) as (r & R & A & U1 & E1 & E2 & LT & _).
  assert (UG : exists K' TI' TD', used_gains (with_set p v) = (K', TI', TD')) by (destruct (used_gains (with_set p v)) as ((K' & TI') & TD'); eauto).
  destruct UG as (K' & TI' & TD' & UG).
  destruct (recalc_law w (with_set p v) c (direct p) t K' TI' TD' W TN (set_sound p v SO SV) SC (direct_ok p) UG D) as
    (r' & R' & SR & _ & _ & _ & _ & _ & _ & _ & _ & _ & AC & _).
  rewrite R in R'. inversion R'; subst r'. clear R'. eexists. split; [exact A|].
  assert (X : Uk r = uk_1 r).
  { destruct TN as ((_ & _ & _ & _ & ST7) & _). unfold start_ms in *. destruct (time_u32 _ ST7) as (n & N1 & N2 & N3). rewrite <- N2 in *.
    unfold accelerated in AC. change (par (with_set p v) P_acceleration_time) with (par p 7%Z) in AC. rewrite N1 in AC. cbv zeta in AC.
    rewrite Z.mod_small in AC by lia. change (start_time (with_set p v)) with (start_time p) in AC.
    assert (DL : get_delta_millisec w t (start_time p) = (t - start_time p)%Z).
    { unfold get_delta_millisec. cbv zeta. destruct (Z.ltb_spec t (start_time p)); [lia|]. destruct (Z.leb_spec (start_time p) t); [reflexivity|lia]. }
    rewrite DL in AC. destruct (Z.ltb_spec (t - start_time p) (1000 * n)); [lia|]. inversion AC. reflexivity. }
  rewrite X, U1. destruct TN as (_ & H13 & H14). apply limit_val; [apply H14|apply H13|exact LE|]. apply SR.
Qed.
(** A higher set value never gives a lower output; reversed, never a higher one. *)
Theorem C70_direction w p v v' c t q q' o o' K TI TD : (0 <= w <= 64)%Z -> reached w p -> working p -> small 30 v -> small 30 v' -> small 30 c ->
  tuning p = (K, TI, TD) -> 0 <= K -> 0 <= TD -> f_val (par p 6%Z) < f_val (par p 5%Z) -> f_val (par p 14%Z) <= f_val (par p 13%Z) ->
  f_val v <= f_val v' ->
  step w p (PCmdValue v c t) = Some (q, AValue o) -> step w p (PCmdValue v' c t) = Some (q', AValue o') ->
  if f_lt (f_of_Z 0) (par p 15%Z) then f_val o' <= f_val o else f_val o <= f_val o'.
Proof.
  intros W RE WO SV SV' SC TU K0 TD0 R LE VV E E'. destruct (reached_sound w p W RE) as (SO & TN). cbn [step] in E, E'.
  assert (UG : exists K' TI' TD', used_gains p = (K', TI', TD') /\ K = f_val K' /\ TD = f_val TD').
  { unfold tuning in TU. unfold used_gains. destruct (used_par p =? 2)%Z; inversion TU; do 3 eexists; split; try reflexivity; auto. }
  destruct UG as (K' & TI' & TD' & UG & -> & ->).
  unfold direct_set_value in E, E'. cbv zeta in E, E'.
  change (if f_lt (f_of_Z 0) (par (with_set p v) P_is_reverse) then (-1)%Z else 1%Z) with (direct p) in E.
  change (if f_lt (f_of_Z 0) (par (with_set p v') P_is_reverse) then (-1)%Z else 1%Z) with (direct p) in E'.
  destruct (eval w (with_set p v) c (direct p) t) as [(r & x)|] eqn:EV; [|discriminate].
  destruct (eval w (with_set p v') c (direct p) t) as [(r' & x')|] eqn:EV'; [|discriminate].
  destruct (state r =? S_OFF)%Z; [discriminate|]. destruct (state r' =? S_OFF)%Z; [discriminate|]. inversion E; inversion E'; subst.
  pose proof (direction w p v v' c (direct p) t r o r' o' K' TI' TD' W TN SO (working_auto p WO) SV SV' SC (direct_ok p) UG K0 TD0 R LE VV EV EV') as X.
  unfold direct in X. destruct (f_lt (f_of_Z 0) (par p 15%Z)); exact X.
Qed.
Lemma div_zero a b : f_finite (f_div a b) = true -> f_finite a = true -> f_val a == 0 -> f_val (f_div a b) == 0.
Proof.
  intros F FA A. apply val_zero_key; [exact F|]. revert F. unfold f_div. destruct (finite_not a FA) as (-> & ->). cbn [orb].
  assert (KA : f_iszero a = true). { apply key_zero. apply val_zero_key; assumption. }
  destruct (f_isnan b); [intros F; vm_compute in F; discriminate F|]. cbv zeta.
  destruct (f_isinf b); [intros _; destruct (xorb _ _); reflexivity|].
  destruct (f_iszero b) eqn:ZB; [rewrite ?KA; intros F; vm_compute in F; discriminate F|].
  intros _. destruct (round_parts (xorb (f_neg a) (f_neg b)) (f_val a / f_val b)) as (-> & _).
  assert (V0 : f_val 0 == 0) by (vm_compute; reflexivity).
  assert (V : f_val a / f_val b == f_val 0) by (rewrite A, V0; unfold Qdiv; ring). rewrite (rk_comp _ _ V), rk_exact by reflexivity. reflexivity.
Qed.
Lemma cut_id x : 0 <= x /\ x <= 100 -> cut x == x.
Proof. intros (A & B). unfold cut. qcase; lra. Qed.
Global Instance cut_comp : Proper (Qeq ==> Qeq) cut.
Proof. intros x y E. unfold cut. qcase; lra. Qed.
(** At the set value the output rests. *)
Theorem C70_rest w p v c t q a : (0 <= w <= 64)%Z -> reached w p -> working p -> small 30 v -> small 30 c ->
  f_val v == f_val c -> f_val (ek_1 p) == 0 -> f_val (ek_2 p) == 0 -> step w p (PCmdValue v c t) = Some (q, a) ->
  f_val (uk_1 q) == f_val (uk_1 p) /\ f_val (ek_1 q) == 0 /\ f_val (ek_2 q) == 0.
Proof.
  intros W RE WO SV SC VC E10 E20 E. destruct (reached_sound w p W RE) as (SO & TN). cbn [step] in E.
  destruct (value_auto w p v c t q a (working_auto p WO) E) as (r & R & A & U1 & E1 & E2 & _). rewrite U1, E1, E2.
  destruct (due w (with_set p v) t) eqn:D.
  2:{ rewrite (not_due w (with_set p v) c (direct p) t D) in R. inversion R; subst r. cbn [with_set uk_1 ek_1 ek_2]. split; [reflexivity|]. split; assumption. }
  assert (UG : exists K' TI' TD', used_gains (with_set p v) = (K', TI', TD')) by (destruct (used_gains (with_set p v)) as ((K' & TI') & TD'); eauto).
  destruct UG as (K' & TI' & TD' & UG).
  destruct (recalc_fields w (with_set p v) c (direct p) t r K' TI' TD' UG D R) as (UK & EK & EK2 & _).
  pose proof (sum_finite w (with_set p v) c (direct p) K' TI' TD' W TN (set_sound p v SO SV) SC (direct_ok p) UG) as F.
  assert (EZ : f_val (error (with_set p v) c (direct p)) == 0).
  { destruct TN as ((_ & _ & _ & SR & _) & _). pose proof (error_small (with_set p v) c (direct p) (direct_ok p) SV SC SR) as (ES & _).
    destruct (lift_near (direct p) v c (direct_ok p) SV SC) as (NA & _). destruct NA as (NA & _).
    unfold error in *. cbv zeta in *. cbn [with_set set_value] in *. apply div_zero; [exact ES|exact NA|]. apply mul_zero; [exact NA|].
    destruct (sub_finite v c (proj1 SV) (proj1 SC)) as (s & y & SE & YE). apply val_zero_key; [exact (sub_fin _ _ SV SC)|]. rewrite SE.
    destruct (round_parts s y) as (-> & _). assert (V0 : f_val 0 == 0) by (vm_compute; reflexivity).
    assert (V : y == f_val 0) by (rewrite YE, VC, V0; ring). rewrite (rk_comp _ _ V), rk_exact by reflexivity. reflexivity. }
  rewrite UK, EK, EK2. split; [|split; [exact EZ|exact E10]].
  destruct F as (F & _). destruct (add_fin _ _ F) as (FU & FI). cbn [with_set uk_1] in *.
  destruct (clamp_val _ F) as (_ & ->). rewrite cut_id.
  - apply add_zero; [exact F|]. apply increment_zero; assumption.
  - rewrite add_zero; [|exact F|apply increment_zero; assumption]. apply SO.
Qed.

Print Assumptions C70_law.
Print Assumptions C70_output.
Print Assumptions C70_rest.
(** Error 5%: first 2*5 = 10, then 2*(2/10)*5 = 2 per second; an evaluation inside the interval repeats. *)
Definition ex_free : Z -> Z := fun i => if ((i =? 13)%Z) then f_of_Z 100 else if (i =? 14)%Z then f_of_Z 0 else ex_par 0 0 i.
Example C70_example :
  outs (run 64 (init ex_free 0) [POn None 0; PValue (f_of_Z 50) (f_of_Z 45) 1100; PValue (f_of_Z 50) (f_of_Z 45) 1900;
    PValue (f_of_Z 50) (f_of_Z 45) 2200; PValue (f_of_Z 50) (f_of_Z 50) 3300; PValue (f_of_Z 50) (f_of_Z 50) 4400; PValue (f_of_Z 50) (f_of_Z 50) 5500])
  = Some [10; 10; 12; 4; 4; 4].
Proof. vm_compute. reflexivity. Qed.
