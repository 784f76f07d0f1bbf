(** The model of threshold regulators against the specification. *)
From Coq Require Import ZArith List Bool Lia QArith Qabs Lqa.
From Verif Require Import Base FTextModel FloatModel AioProofs PidProofs2 TmrModel TmrSpec.
Import ListNotations.
Open Scope Z_scope.

Lemma lt_iff a b : f_finite a = true -> f_finite b = true -> f_lt a b = true <-> (f_val a < f_val b)%Q.
Proof.
  intros A B. rewrite lt_val by assumption. rewrite negb_true_iff. split.
  - intros H. apply Qnot_le_lt. intros L. apply Qle_bool_iff in L. congruence.
  - intros H. destruct (Qle_bool (f_val b) (f_val a)) eqn:E; [|reflexivity]. apply Qle_bool_iff in E. lra.
Qed.
Lemma add_slack v d : small v d -> f_finite (f_add v d) = true /\
  (f_val v + f_val d - slack (f_val v + f_val d) <= f_val (f_add v d) /\ f_val (f_add v d) <= f_val v + f_val d + slack (f_val v + f_val d))%Q.
Proof.
  intros (A & B & C & _). destruct (add_rel v d A B C) as (F & G). split; [exact F|]. apply abs_iff in G. unfold slack. lra.
Qed.
Lemma sub_slack v d : small v d -> f_finite (f_sub v d) = true /\
  (f_val v - f_val d - slack (f_val v - f_val d) <= f_val (f_sub v d) /\ f_val (f_sub v d) <= f_val v - f_val d + slack (f_val v - f_val d))%Q.
Proof.
  intros (A & B & _ & C). destruct (sub_rel v d A B C) as (F & G). split; [exact F|]. apply abs_iff in G. unfold slack. lra.
Qed.
Lemma is_above v d x : small v d -> f_finite x = true -> above v d x -> f_lt (f_add v d) x = true.
Proof. intros S X A. destruct (add_slack v d S) as (F & G). apply lt_iff; [exact F|exact X|]. unfold above in A. lra. Qed.
Lemma is_below v d x : small v d -> f_finite x = true -> below v d x -> f_lt x (f_sub v d) = true.
Proof. intros S X A. destruct (sub_slack v d S) as (F & G). apply lt_iff; [exact X|exact F|]. unfold below in A. lra. Qed.
Lemma slack_nn x : (0 <= slack x)%Q.
Proof. unfold slack. assert (0 <= p2 (-150))%Q by (unfold p2; cbn; lra). pose proof (Qabs_nonneg x). lra. Qed.
Lemma not_above v d x : small v d -> f_finite x = true -> (f_val x <= f_val v + f_val d - slack (f_val v + f_val d))%Q -> f_lt (f_add v d) x = false.
Proof.
  intros S X A. destruct (add_slack v d S) as (F & G). destruct (f_lt (f_add v d) x) eqn:E; [|reflexivity]. apply lt_iff in E; [|exact F|exact X]. lra.
Qed.
Lemma not_below v d x : small v d -> f_finite x = true -> (f_val v - f_val d + slack (f_val v - f_val d) <= f_val x)%Q -> f_lt x (f_sub v d) = false.
Proof.
  intros S X A. destruct (sub_slack v d S) as (F & G). destruct (f_lt x (f_sub v d)) eqn:E; [|reflexivity]. apply lt_iff in E; [|exact X|exact F]. lra.
Qed.

Record rinv (s : reg) (l : list rev_) : Prop := { g_man : man s = manual l; g_delta : delta s = band l; g_rev : rev s = reverse l }.
Lemma set_value_keeps v x s : rev (r_set_value v x s) = rev s /\ delta (r_set_value v x s) = delta s /\ on (r_set_value v x s) = on s /\ man (r_set_value v x s) = man s.
Proof. unfold r_set_value. repeat match goal with |- context [if ?b then _ else _] => destruct b end; repeat split. Qed.
Lemma set_state_keeps n s : rev (r_set_state n s) = rev s /\ delta (r_set_state n s) = delta s /\ out (r_set_state n s) = out s /\ man (r_set_state n s) = man s.
Proof. unfold r_set_state, r_off, r_on. repeat match goal with |- context [if ?b then _ else _] => destruct b end; repeat split. Qed.
Lemma step_keeps s e : (match e with Man _ | ParRev _ | ParDelta _ => False | _ => True end) -> rev (r_step s e) = rev s /\ delta (r_step s e) = delta s /\ man (r_step s e) = man s.
Proof.
  intros H. destruct e; try tauto; cbn [r_step].
  - change (r_on s) with (r_set_state 1 s). destruct (set_state_keeps 1 s) as (A & B & _ & C). destruct (man s) eqn:M; rewrite ?A, ?B, ?C; auto.
  - change (r_off s) with (r_set_state 0 s). destruct (set_state_keeps 0 s) as (A & B & _ & C). destruct (man s) eqn:M; rewrite ?A, ?B, ?C; auto.
  - destruct (set_state_keeps n s) as (A & B & _ & C). destruct (man s) eqn:M; rewrite ?A, ?B, ?C; auto.
  - destruct (set_value_keeps v x s) as (A & B & _ & C). destruct (man s) eqn:M; rewrite ?A, ?B, ?C; auto.
  - destruct (set_state_keeps n s) as (A & B & _ & C). auto.
  - destruct (set_value_keeps v x s) as (A & B & _ & C). auto.
Qed.
Lemma reg_inv l : rinv (r_run l) l.
Proof.
  induction l as [|e l IH] using rev_ind; [constructor; reflexivity|]. destruct IH as [A B C].
  assert (R : r_run (l ++ [e]) = r_step (r_run l) e) by (unfold r_run; rewrite fold_left_app; reflexivity).
  assert (M : manual (l ++ [e]) = match e with Man n => if n =? 0 then false else if n =? 1 then true else manual l | _ => manual l end) by (unfold manual; rewrite fold_left_app; reflexivity).
  assert (D : band (l ++ [e]) = match e with ParDelta v => v | _ => band l end) by (unfold band; rewrite fold_left_app; reflexivity).
  assert (V : reverse (l ++ [e]) = match e with ParRev v => v | _ => reverse l end) by (unfold reverse; rewrite fold_left_app; reflexivity).
  pose proof (step_keeps (r_run l) e) as K.
  destruct e; try (destruct (K I) as (X & Y & W)); constructor; rewrite R, ?M, ?D, ?V; try congruence; cbn [r_step man delta rev]; try assumption; try reflexivity.
  rewrite A. reflexivity.
Qed.
(** A regulation call. *)
Lemma step_reg s e v x : regulate (man s) e = Some (v, x) -> r_step s e = r_set_value v x s.
Proof. destruct e; cbn; try discriminate; [destruct (man s); [discriminate|]|]; intros H; injection H as <- <-; reflexivity. Qed.
(** Quiet calls: nothing changes but repeated orders to the actuator. *)
Lemma quiet_step d s e : quiet d e -> delta s = d -> on s = true ->
  delta (r_step s e) = d /\ on (r_step s e) = true /\ out (r_step s e) = out s /\ rev (r_step s e) = rev s /\
  (told (r_step s e) = told s \/ exists r, told (r_step s e) = AState (out s) :: r).
Proof.
  intros Q D N.
  assert (V : forall v x, small v d /\ f_finite x = true /\ inside v d x -> r_set_value v x s = tell (AState (out s)) s).
  { intros v x (S & X & I1 & I2). unfold r_set_value. rewrite N, D. cbn [negb]. rewrite not_above, not_below by assumption. reflexivity. }
  assert (G : forall n, n <> 0 -> r_set_state n s = s).
  { intros n NZ. unfold r_set_state, r_on. rewrite N. replace (n =? 0) with false by lia. destruct (n =? 1); reflexivity. }
  destruct e; cbn [quiet] in Q; try tauto; cbn [r_step].
  - unfold r_on. rewrite N. destruct (man s); repeat split; auto.
  - rewrite (G n Q). destruct (man s); repeat split; auto.
  - rewrite (V v x Q). destruct (man s); [repeat split; auto|]. cbn [tell delta on out rev told]. repeat split; auto. right. eexists. reflexivity.
  - rewrite (G n Q). repeat split; auto.
  - rewrite (V v x Q). cbn [tell delta on out rev told]. repeat split; auto. right. eexists. reflexivity.
Qed.
Lemma quiet_run d l : forall s, Forall (quiet d) l -> delta s = d -> on s = true -> (exists r, told s = AState (out s) :: r) ->
  out (fold_left r_step l s) = out s /\ on (fold_left r_step l s) = true /\ exists r, told (fold_left r_step l s) = AState (out s) :: r.
Proof.
  induction l as [|e l IH]; intros s Q D N T; [auto|]. cbn [fold_left]. inversion Q as [|? ? Q1 Q2]; subst.
  destruct (quiet_step (delta s) s e Q1 eq_refl N) as (A & B & C & _ & E).
  destruct (IH (r_step s e) Q2 A B) as (X & Y & Z0).
  - rewrite C. destruct E as [->|E]; [exact T|exact E].
  - rewrite X, C in *. auto.
Qed.
