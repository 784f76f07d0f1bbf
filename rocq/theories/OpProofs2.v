(** Proofs about operations: the whole operation. *)
From Coq Require Import ZArith List Bool Lia.
From Verif Require Import Base TimeModel OpModel OpSpec OpProofs.
Import ListNotations.
Open Scope Z_scope.

Definition view (s : Z) (o : oper) : ctx := {| dy := sts o s; tr := otr o; ub := oub o |}.
(** Steps of UNPAUSING may be left engaged. *)
Definition left_over (s k : Z) : Prop := s = UNPAUSING.

Definition base (o : oper) : Prop :=
  (forall s, inv s (conf o s) (left_over s) (view s o)) /\ exclusive UNPAUSING (otr o) /\ oub o = false /\
  (empty (conf o UNPAUSING) = true -> forall k, engaged (otr o) UNPAUSING k = false).
Definition quiet (a : Z) (o : oper) : Prop := forall s k, engaged (otr o) s k = true -> s = a \/ s = UNPAUSING.
Definition still (o : oper) : Prop := forall s k, engaged (otr o) s k = true -> s = UNPAUSING.
Definition allowed (s : Z) (o : oper) : Prop := empty (conf o UNPAUSING) = true -> s <> UNPAUSING.

Lemma view_in s f o : view s (in_state s f o) = f (view s o).
Proof. unfold view, in_state. cbn. rewrite Z.eqb_refl. destruct (f _); reflexivity. Qed.
Lemma view_other s f o s' : s' <> s ->
  view s' (in_state s f o) = {| dy := sts o s'; tr := tr (f (view s o)); ub := ub (f (view s o)) |}.
Proof. intros N. unfold view, in_state. cbn. replace (s' =? s) with false by lia. reflexivity. Qed.

Lemma quiet_ext s o c : quiet s o -> ext s (view s o) c -> forall s' k, engaged (tr c) s' k = true -> s' = s \/ s' = UNPAUSING.
Proof.
  intros Q (new & E & F) s' k H. rewrite E in H. destruct (Z.eq_dec s' s) as [|N]; [auto|].
  rewrite (engaged_other new _ s s' k F N) in H. exact (Q s' k H).
Qed.

Lemma in_state_base s f o : base o -> quiet s o -> allowed s o -> ext s (view s o) (f (view s o)) ->
  inv s (conf o s) (left_over s) (f (view s o)) -> ub (f (view s o)) = oub o ->
  base (in_state s f o) /\ quiet s (in_state s f o).
Proof.
  intros (I & X & U & P) Q A E J UB. pose proof (quiet_ext s o _ Q E) as Q'.
  assert (QQ : quiet s (in_state s f o)) by (intros s' k H; exact (Q' s' k H)).
  split; [|exact QQ]. destruct E as (new & E & F). split; [|split; [|split]].
  - intros s'. change (conf (in_state s f o)) with (conf o). destruct (Z.eq_dec s' s) as [->|N].
    + rewrite view_in. exact J.
    + rewrite (view_other s f o s' N). destruct (I s') as [R L]. split; [exact R|]. intros k H. cbn [tr dy] in *.
      rewrite E, (engaged_other new _ s s' k F N) in H. exact (L k H).
  - change (otr (in_state s f o)) with (tr (f (view s o))). rewrite E. eapply exclusive_app; [exact F|exact X|exact Q].
  - change (oub (in_state s f o)) with (ub (f (view s o))). congruence.
  - intros M k. change (otr (in_state s f o)) with (tr (f (view s o))). rewrite E.
    rewrite (engaged_other new _ s UNPAUSING k F); [exact (P M k)|]. intros D. apply (A M). auto.
Qed.

Lemma eval_base e s o : base o -> quiet s o -> allowed s o -> base (fst (eval_st e s o)) /\ quiet s (fst (eval_st e s o)).
Proof.
  intros Bo Q A. cbn [eval_st fst]. destruct (inv_evaluate s (conf o s) (left_over s) e (num o) (view s o) (proj1 Bo s)) as [J UB].
  apply in_state_base; auto. apply ext_state_evaluate.
Qed.
Lemma fin_base e s o : base o -> quiet s o -> allowed s o -> base (fin_st e s o) /\ still (fin_st e s o).
Proof.
  intros Bo Q A. pose proof (proj1 Bo s) as I. destruct (inv_finalize s (conf o s) (left_over s) e (view s o) I) as [J UB].
  destruct (in_state_base s (state_finalize s (conf o s) e) o Bo Q A (ext_state_finalize _ _ _ _) J UB) as [B' Q'].
  split; [exact B'|]. intros s' k H. destruct (Q' s' k H) as [->|]; [|auto].
  exact (fin_clears s (conf o s) (left_over s) e (view s o) I k H).
Qed.
Lemma still_quiet s o : still o -> quiet s o.
Proof. intros S s' k H. right. eauto. Qed.
Lemma init_base e s first o : base o -> still o -> allowed s o -> base (init_st e s first o) /\ quiet s (init_st e s first o).
Proof.
  intros Bo S A. pose proof (proj1 Bo s) as I.
  destruct (inv_state_init s (conf o s) (left_over s) e first (view s o)) as [J UB].
  - exact (proj1 I).
  - intros j H. right. right. exact (S s j H).
  - apply in_state_base; auto using still_quiet, ext_state_init.
Qed.

(** Things the invariant does not look at. *)
Lemma base_cur s o : base o -> base (set_cur s o).
Proof. exact (fun H => H). Qed.
Lemma base_run_time s o : base o -> base (set_run_time s o).
Proof. exact (fun H => H). Qed.
Lemma base_run_step s o : base o -> base (set_run_step s o).
Proof. exact (fun H => H). Qed.

Lemma save_base o s : base o -> quiet s o -> allowed s o -> base (in_state s save_steps o) /\ quiet s (in_state s save_steps o).
Proof.
  intros Bo Q A. apply in_state_base; auto; [apply ext_upd|].
  destruct (proj1 Bo s) as [(R1 & R2 & R3) L]. split; [repeat split; auto|exact L].
Qed.
Lemma load_base o s : base o -> still o -> allowed s o ->
  base (in_state s load_steps o) /\ still (in_state s load_steps o).
Proof.
  intros Bo S A. destruct (in_state_base s load_steps o Bo (still_quiet s o S) A (ext_upd _ _ _)) as [B' Q']; auto.
  destruct (proj1 Bo s) as [(R1 & R2 & R3) L]. split; [repeat split; auto|].
  intros k H. right. right. right. exact (S s k H).
Qed.
Lemma dx_base o s : base o -> quiet s o -> allowed s o -> base (in_state s add_dx_step_time o) /\ quiet s (in_state s add_dx_step_time o).
Proof.
  intros Bo Q A. apply in_state_base; auto; [apply ext_upd|].
  eapply inv_same; [exact (proj1 Bo s)|reflexivity|..]; cbn; destruct (0 <? act (sts o s)); reflexivity.
Qed.

Definition all_states : list Z := [IDLE; RUN; PAUSE; STOP; STARTING; PAUSING; UNPAUSING; STOPPING].
Definition oinv (o : oper) : Prop :=
  base o /\ quiet (cur o) o /\ allowed (cur o) o /\ In (cur o) all_states.

Lemma allowed_not s o : s <> UNPAUSING -> allowed s o.
Proof. intros N _. exact N. Qed.

Lemma enter e s first o : base o -> still o -> allowed s o -> In s all_states ->
  oinv (init_st e s first (set_cur s o)) /\ oinv (fst (eval_st e s (init_st e s first (set_cur s o)))).
Proof.
  intros Bo S A I. destruct (init_base e s first (set_cur s o) (base_cur _ _ Bo) S A) as [B1 Q1].
  split; [repeat split; auto; apply B1|].
  destruct (eval_base e s _ B1 Q1 A) as [B2 Q2]. repeat split; auto; apply B2.
Qed.

Ltac st := cbn; tauto.
Ltac notun := apply allowed_not; discriminate.

Lemma oinv_pause e o : oinv o -> oinv (fst (op_pause e o)).
Proof.
  intros (Bo & Q & A & I). unfold op_pause. cbv zeta. destruct (Z.eqb_spec (cur o) RUN) as [E|_].
  - rewrite E in *. set (o1 := set_run_step _ _).
    destruct (save_base o1 RUN Bo Q A) as [B1 Q1]. destruct (fin_base e RUN _ B1 Q1 A) as [B2 S2].
    apply enter; auto; destruct (empty _); first [notun|st].
  - destruct (Z.eqb_spec (cur o) PAUSING) as [E|_]; [|repeat split; auto; apply Bo].
    rewrite E in *. destruct (fin_base e PAUSING o Bo Q A) as [B2 S2]. apply enter; auto; first [notun|st].
Qed.

Lemma oinv_stop e o : oinv o -> oinv (fst (op_stop e o)).
Proof.
  intros (Bo & Q & A & I). unfold op_stop. cbv zeta. destruct (fin_base e (cur o) o Bo Q A) as [B2 S2].
  destruct (_ || _).
  - apply enter; auto; destruct (empty _); first [notun|st].
  - destruct (Z.eqb_spec (cur o) STOPPING) as [E|_]; [|repeat split; auto; apply Bo].
    rewrite E in *. apply enter; auto; first [notun|st].
Qed.

Lemma oinv_off e o : oinv o -> oinv (fst (op_switch_off e o)).
Proof.
  intros (Bo & Q & A & I). unfold op_switch_off. destruct (fin_base e (cur o) o Bo Q A) as [B2 S2].
  destruct (cur o =? IDLE); [repeat split; auto; apply Bo|]. apply enter; auto; first [notun|st].
Qed.

Lemma oinv_to_run e new o : base o -> still o -> oinv (fst (to_run_state e new o)).
Proof.
  intros Bo S. unfold to_run_state. cbv zeta.
  destruct (load_base (set_cur RUN o) RUN Bo S) as [B1 S1]; [notun|].
  set (o1 := in_state RUN load_steps (set_cur RUN o)) in *.
  set (o2 := if 0 <? new then _ else _).
  assert (X : base o2 /\ quiet RUN o2 /\ cur o2 = RUN).
  { assert (Y : forall k, base (init_st e RUN k o1) /\ quiet RUN (init_st e RUN k o1) /\
        base (in_state RUN add_dx_step_time (init_st e RUN k o1)) /\ quiet RUN (in_state RUN add_dx_step_time (init_st e RUN k o1))).
    { intros k. destruct (init_base e RUN k o1 B1 S1) as [Bk Qk]; [notun|].
      destruct (dx_base _ RUN Bk Qk) as [Bd Qd]; [notun|]. auto. }
    unfold o2. destruct (0 <? new); [destruct (new =? run_step o)|destruct (0 <? run_step o)];
      match goal with |- context[init_st e RUN ?k o1] => destruct (Y k) as (Y1 & Y2 & Y3 & Y4) end; auto. }
  destruct X as (B2 & Q2 & C2). destruct (eval_base e RUN o2 B2 Q2) as [B3 Q3]; [notun|].
  assert (C3 : cur (fst (eval_st e RUN o2)) = RUN) by exact C2.
  unfold oinv. rewrite C3. repeat split; auto; try apply B3; [notun|st].
Qed.

Lemma oinv_start e new o : oinv o -> oinv (fst (op_start e new o)).
Proof.
  intros (Bo & Q & A & I). unfold op_start. cbv zeta.
  destruct (Z.eqb_spec (cur o) IDLE) as [E|_].
  { rewrite E in *. destruct (fin_base e IDLE o Bo Q A) as [B2 S2].
    cbn [fst]. destruct (enter e (if empty (conf o STARTING) then RUN else STARTING) 1 _ B2 S2) as [H _];
      [destruct (empty _); notun|destruct (empty _); st|]. exact H. }
  destruct (Z.eqb_spec (cur o) PAUSE) as [E|_].
  { rewrite E in *. destruct (fin_base e PAUSE o Bo Q A) as [B2 S2].
    destruct (empty (conf o UNPAUSING)) eqn:M; [apply oinv_to_run; auto|].
    apply enter; auto; [|st]. intros H. change (conf (fin_st e PAUSE o)) with (conf o) in H. congruence. }
  destruct (Z.eqb_spec (cur o) STARTING) as [E|_].
  { rewrite E in *. destruct (fin_base e STARTING o Bo Q A) as [B2 S2].
    destruct (enter e RUN 1 _ B2 S2) as [H _]; [notun|st|]. exact H. }
  destruct (Z.eqb_spec (cur o) UNPAUSING) as [E|_].
  { rewrite E in *. apply oinv_to_run; auto. intros s k H. destruct (Q s k H); auto. }
  repeat split; auto; apply Bo.
Qed.

Lemma oinv_finalize e o : oinv o -> oinv (op_finalize e o).
Proof.
  intros (Bo & Q & A & I). unfold op_finalize. destruct (0 <? cur o); [|repeat split; auto; apply Bo].
  destruct (fin_base e (cur o) o Bo Q A) as [(B1 & B2 & B3 & B4) S2].
  split; [|split; [|split]].
  - split; [|auto]. intros s. eapply inv_same; [exact (B1 s)|reflexivity|..]; cbn; destruct (_ && _); reflexivity.
  - intros s k H. right. exact (S2 s k H).
  - intros _. discriminate.
  - st.
Qed.

Lemma oinv_in o f : oinv o ->
  (forall B, inv (cur o) (conf o (cur o)) B (view (cur o) o) ->
     inv (cur o) (conf o (cur o)) B (f (view (cur o) o)) /\ ub (f (view (cur o) o)) = oub o) ->
  ext (cur o) (view (cur o) o) (f (view (cur o) o)) -> oinv (in_state (cur o) f o).
Proof.
  intros (Bo & Q & A & I) H E. destruct (H _ (proj1 Bo (cur o))) as [J U].
  destruct (in_state_base (cur o) f o Bo Q A E J U) as [B1 Q1]. repeat split; auto; apply B1.
Qed.

Lemma oinv_call e c o : wild_call c = false -> oinv o -> oinv (do_call e c o).
Proof.
  intros W I. destruct c; cbn [do_call wild_call] in *;
    auto using oinv_start, oinv_pause, oinv_stop, oinv_off, oinv_finalize.
  - destruct I as (Bo & Q & A & I). destruct (eval_base e (cur o) o Bo Q A) as [B1 Q1].
    unfold op_evaluate_state. repeat split; auto; apply B1.
  - apply oinv_in; auto; [intros B; apply inv_to_step|apply ext_to_step].
  - apply oinv_in; auto; [intros B; apply inv_to_next|apply ext_to_next].
  - apply oinv_in; auto; [intros B; apply inv_turn_off|apply ext_turn_off].
  - apply oinv_in; auto; [intros B; apply inv_on_extra; lia|apply ext_on_extra].
  - apply oinv_in; auto; [intros B; apply inv_off_extra|apply ext_off_extra].
  - apply oinv_in; auto; [intros B; apply inv_switch; lia|apply ext_switch].
Qed.

Lemma oinv_new n cf : oinv (new_oper n cf).
Proof.
  split; [|split; [|split]].
  - split; [|cbn; auto]. intros s. split; [repeat split; cbn; auto|]. intros k H. discriminate.
  - intros s k H. discriminate.
  - intros _. discriminate.
  - st.
Qed.

Definition tame (h : list (env * call)) : Prop := forall e c, In (e, c) h -> wild_call c = false.

Lemma oinv_run : forall h o, tame h -> oinv o -> oinv (run_calls h o).
Proof.
  induction h as [|[e c] r IH]; intros o W I; cbn [run_calls]; [exact I|].
  apply IH; [intros e' c' H; apply (W e' c'); cbn; auto|]. apply oinv_call; [apply (W e c); cbn; auto|exact I].
Qed.

Lemma conf_call e c o : conf (do_call e c o) = conf o /\ num (do_call e c o) = num o.
Proof.
  destruct c; cbn [do_call]; try (split; reflexivity).
  - unfold op_start, to_run_state. cbv zeta.
    repeat match goal with |- context[if ?b then _ else _] => destruct b; cbn [fst eval_st init_st fin_st in_state set_cur set_run_time conf num] end; auto.
  - unfold op_pause. cbv zeta.
    repeat match goal with |- context[if ?b then _ else _] => destruct b; cbn [fst eval_st init_st fin_st in_state set_cur set_run_time conf num] end; auto.
  - unfold op_stop. cbv zeta.
    repeat match goal with |- context[if ?b then _ else _] => destruct b; cbn [fst eval_st init_st fin_st in_state set_cur set_run_time conf num] end; auto.
  - unfold op_switch_off. destruct (_ =? _); auto.
  - unfold op_finalize. destruct (_ <? _); auto.
Qed.

Lemma conf_run : forall h o, conf (run_calls h o) = conf o /\ num (run_calls h o) = num o.
Proof.
  induction h as [|[e c] r IH]; intros o; cbn [run_calls]; [auto|].
  destruct (IH (do_call e c o)) as [-> ->]. apply conf_call.
Qed.

(** The current state after a call. *)
Lemma cur_to_run e n o : cur (fst (to_run_state e n o)) = RUN.
Proof. unfold to_run_state. cbv zeta. destruct (0 <? n); [destruct (n =? _)|destruct (0 <? run_step o)]; reflexivity. Qed.

Lemma edges e c o : In (cur o) all_states -> cur (do_call e c o) <> cur o -> edge (cur o) c (cur (do_call e c o)).
Proof.
  intros I N. destruct c; cbn [do_call] in *; try (exfalso; apply N; reflexivity).
  - revert N. unfold op_start. cbv zeta.
    destruct (Z.eqb_spec (cur o) IDLE) as [->|_].
    { cbn [fst]. intros _. constructor. cbn. destruct (empty _); cbn; auto. }
    destruct (Z.eqb_spec (cur o) PAUSE) as [->|_].
    { intros _. constructor. destruct (empty _); [left; apply cur_to_run|right; reflexivity]. }
    destruct (Z.eqb_spec (cur o) STARTING) as [->|_]; [intros _; constructor|].
    destruct (Z.eqb_spec (cur o) UNPAUSING) as [->|_]; [intros _; rewrite cur_to_run; constructor|].
    intros N. exfalso. apply N. reflexivity.
  - revert N. unfold op_pause. cbv zeta. destruct (Z.eqb_spec (cur o) RUN) as [->|_].
    { intros _. constructor. destruct (empty _); cbn; auto. }
    destruct (Z.eqb_spec (cur o) PAUSING) as [->|_]; [intros _; constructor|].
    intros N. exfalso. apply N. reflexivity.
  - revert N. unfold op_stop. cbv zeta. destruct (_ || _) eqn:E.
    { intros _. constructor; [|destruct (empty _); cbn; auto]. rewrite !orb_true_iff, !Z.eqb_eq in E. cbn. intuition. }
    destruct (Z.eqb_spec (cur o) STOPPING) as [->|_]; [intros _; apply stop_stopping|].
    intros N. exfalso. apply N. reflexivity.
  - revert N. unfold op_switch_off. destruct (Z.eqb_spec (cur o) IDLE) as [D|D]; intros N; [exfalso; apply N; reflexivity|].
    constructor; auto.
  - revert N. unfold op_finalize. destruct (Z.ltb_spec 0 (cur o)) as [D|D]; intros N; [|exfalso; apply N; reflexivity].
    constructor; [unfold IDLE; lia|auto].
Qed.

Lemma refused_same e c o : In (cur o) all_states -> refused (cur o) c = true -> do_call e c o = o.
Proof.
  intros I R. destruct c; cbn [refused do_call] in *; try discriminate.
  - unfold op_start. cbv zeta. rewrite !orb_true_iff, !Z.eqb_eq in R.
    destruct R as [[[R|R]|R]|R]; rewrite R; reflexivity.
  - unfold op_pause. rewrite negb_true_iff, orb_false_iff in R. destruct R as [-> ->]. reflexivity.
  - unfold op_stop. rewrite orb_true_iff, !Z.eqb_eq in R. destruct R as [R|R]; rewrite R; reflexivity.
  - unfold op_switch_off. rewrite R. reflexivity.
  - unfold op_finalize. apply Z.eqb_eq in R. rewrite R. reflexivity.
Qed.
