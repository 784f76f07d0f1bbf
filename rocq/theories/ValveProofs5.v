(** Lemmas about valves: pulses and jams of bistable valves, state commands. *)
From Coq Require Import ZArith List Bool Lia.
From Verif Require Import Base TimeModel ValveModel ValveSpec ValveProofs ValveProofs2 ValveProofs3 ValveProofs4.
Import ListNotations.
Open Scope Z_scope.

Lemma no_off_swoff w k d a x :
  fst x <> Off d -> swoff (fst a) = false -> swoff (fst (step1 w k d a x)) = false.
Proof.
  intros N H. destruct x as (o, E). cbn [fst] in N. unfold step1. cbn [fst snd].
  destruct o as [y|y|y|y m|y u|y m|y m|y|]; try (destruct (y =? d) eqn:Ey; [apply Z.eqb_eq in Ey; subst y; cbn [fst snd]|exact H]).
  - unfold on. cbv zeta. cbn [wq manual]. destruct (manual (fst a)); [reflexivity|].
    destruct (direct_on_keeps k (now E) (ins E d) (wq true false (t_off (fst a)) (fst a))) as (_ & _ & -> & _). reflexivity.
  - exfalso. apply N. reflexivity.
  - unfold instant_off. destruct (manual (fst a)); [exact H|].
    destruct (direct_off_keeps k (now E) (ins E d) (fst a)) as (_ & _ & -> & _). exact H.
  - unfold set_state. destruct (manual (fst a)); [exact H|].
    destruct (direct_set_keeps k (now E) (ins E d) m (fst a)) as (_ & _ & -> & _). exact H.
  - destruct (seat_keeps k u (now E) (ins E d) (fst a)) as (_ & _ & -> & _). exact H.
  - destruct (direct_set_keeps k (now E) (ins E d) m (fst a)) as (_ & _ & -> & _). exact H.
  - destruct (m =? 0); [exact H|]. destruct (m =? 1); exact H.
  - destruct (poll_core_fields w k (now E) (ins E d) (fst a)) as (_ & _ & _ & _ & -> & _). exact H.
  - unfold eval1. cbv zeta. cbn [fst].
    destruct (fins_keeps w k (now E) (ins E d) (mdelay E) (snd a) (dues w k (now E) (ins E d) (delay E) (snd a)
      match k with Bist => bist_eval w (now E) (ins E d) (fst a) | _ => fst a end)) as (_ & _ & -> & _).
    assert (G : swoff match k with Bist => bist_eval w (now E) (ins E d) (fst a) | _ => fst a end = false).
    { destruct k; try exact H. destruct (bist_keeps w (now E) (ins E d) (fst a)) as (_ & _ & -> & _). exact H. }
    rewrite dues_idle by exact G. exact G.
Qed.
Lemma no_off_run w k d l a :
  Forall (fun x => fst x <> Off d) l -> swoff (fst a) = false -> swoff (fst (fold_left (step1 w k d) l a)) = false.
Proof.
  intros C. revert a. induction C as [|x l Hx C IH]; intros a H; cbn [fold_left]; [exact H|].
  apply IH, no_off_swoff; assumption.
Qed.

Lemma eval1_bist_idle w E i s c : swoff s = false -> fst (eval1 w Bist E i s c) = bist_eval w (now E) i s.
Proof.
  intros H. unfold eval1. cbv zeta. cbn [fst].
  rewrite dues_idle by (destruct (bist_keeps w (now E) i s) as (_ & _ & -> & _); exact H).
  rewrite fins_plain by discriminate. reflexivity.
Qed.
Lemma bist_step_close w d a x :
  let s := fst a in let s' := fst (step1 w Bist d a x) in
  swoff s = false ->
  o1 s' = true -> (o1 s = true -> t_sw s' = t_sw s) /\ (o1 s = false -> t_sw s' = now (snd x)).
Proof.
  cbv zeta. destruct x as (o, E). cbn [snd]. intros SW.
  assert (Refl : forall s, o1 s = true -> (o1 s = true -> t_sw s = t_sw s) /\ (o1 s = false -> t_sw s = now E))
    by (intros s H; split; [reflexivity|congruence]).
  assert (On_ : forall s, o1 (direct_on Bist (now E) (ins E d) s) = true ->
    (o1 s = true -> t_sw (direct_on Bist (now E) (ins E d) s) = t_sw s) /\ (o1 s = false -> t_sw (direct_on Bist (now E) (ins E d) s) = now E)).
  { intros s. unfold direct_on. destruct (o0 s) eqn:A, (di0 (ins E d)), (o1 s) eqn:C; cbn; rewrite ?C; intros H; split; congruence. }
  assert (Off_ : forall s, o1 (direct_off Bist (now E) (ins E d) s) = true ->
    (o1 s = true -> t_sw (direct_off Bist (now E) (ins E d) s) = t_sw s) /\ (o1 s = false -> t_sw (direct_off Bist (now E) (ins E d) s) = now E)).
  { intros s. unfold direct_off. destruct (o1 s) eqn:A, (di1 (ins E d)); cbn; rewrite ?A; intros H; split; congruence. }
  assert (Set__ : forall m s, o1 (direct_set_state Bist (now E) (ins E d) m s) = true ->
    (o1 s = true -> t_sw (direct_set_state Bist (now E) (ins E d) m s) = t_sw s) /\ (o1 s = false -> t_sw (direct_set_state Bist (now E) (ins E d) m s) = now E)).
  { intros m s. unfold direct_set_state. destruct (m =? V_STOP), (di0 (ins E d)), (di1 (ins E d)); cbn; intros H; split; congruence. }
  unfold step1. cbn [fst snd].
  destruct o as [y|y|y|y m|y u|y m|y m|y|]; try (destruct (y =? d); cbn [fst snd]; [|exact (Refl (fst a))]).
  - unfold on. cbv zeta. cbn [wq manual]. destruct (manual (fst a)); [exact (Refl (fst a))|]. exact (On_ (wq true false (t_off (fst a)) (fst a))).
  - unfold off. cbv zeta. destruct (_ || _); cbn [fst].
    + destruct (manual (fst a)); [exact (Refl (fst a))|]. apply Off_.
    + destruct (swoff (fst a)); exact (Refl (fst a)).
  - unfold instant_off. destruct (manual (fst a)); [exact (Refl (fst a))|]. apply Off_.
  - unfold set_state. destruct (manual (fst a)); [exact (Refl (fst a))|]. apply Set__.
  - destruct u; exact (Refl (fst a)).
  - apply Set__.
  - destruct (m =? 0); [exact (Refl (fst a))|]. destruct (m =? 1); exact (Refl (fst a)).
  - intros H. destruct (poll_core_fields w Bist (now E) (ins E d) (fst a)) as (_ & c1 & _). rewrite c1 in H.
    split; [intros _|congruence].
    unfold get_state. cbv zeta. unfold fb_state. cbv zeta.
    repeat match goal with |- context [if ?b then _ else _] => destruct b; cbn [fst snd] end; reflexivity.
  - rewrite eval1_bist_idle by exact SW. unfold bist_eval. cbv zeta.
    intros H. repeat match goal with |- context [if ?b then _ else _] => destruct b eqn:? end; cbn in *; try congruence; split; congruence.
Qed.
Lemma bist_eval_close w d a E :
  swoff (fst a) = false ->
  o1 (fst (step1 w Bist d a (Eval, E))) = true -> t_sw (fst a) <= now E ->
  di1 (ins E d) = false /\ now E - t_sw (fst a) <= p_time (ins E d).
Proof.
  intros SW H T. unfold step1 in H. cbn [fst snd] in H. rewrite eval1_bist_idle in H by exact SW.
  unfold bist_eval in H. cbv zeta in H. rewrite !delta_le in H by exact T.
  destruct (o0 (fst a) && (di0 (ins E d) || (p_time (ins E d) <? now E - t_sw (fst a)))); cbn [w0 w1 o0 o1 t_sw] in H;
  rewrite ?delta_le in H by exact T;
  destruct (o1 (fst a)) eqn:A, (di1 (ins E d)) eqn:D, (p_time (ins E d) <? now E - t_sw (fst a)) eqn:L;
    cbn in H; try congruence; split; try reflexivity; lia.
Qed.

(** A jam after an order to open. *)
Definition jam (a : vst * nat) : Prop :=
  stopped (fst a) = false /\ opening (fst a) = true /\ closing (fst a) = false /\ swoff (fst a) = false.
Definition flags (s : vst) := (stopped s, opening s, closing s, swoff s, t_sw s).
Lemma poll_flags w n i s : flags (snd (get_state w Bist n i s)) = flags s.
Proof.
  unfold get_state, fb_state. cbv zeta.
  repeat match goal with |- context [if ?b then _ else _] => destruct b; cbn [fst snd] end; reflexivity.
Qed.
Lemma quiet_flags w d a x :
  target (fst x) <> Some d -> swoff (fst a) = false -> flags (fst (step1 w Bist d a x)) = flags (fst a).
Proof.
  intros T H. destruct x as (o, E). unfold step1. cbn [fst snd] in *.
  destruct o as [y|y|y|y m|y u|y m|y m|y|]; cbn [target] in T;
    try (destruct (y =? d) eqn:Ey; [apply Z.eqb_eq in Ey; subst y; exfalso; apply T; reflexivity|reflexivity]).
  - destruct (y =? d); [|reflexivity]. apply poll_flags.
  - rewrite eval1_bist_idle by exact H. unfold bist_eval. cbv zeta.
    repeat match goal with |- context [if ?b then _ else _] => destruct b end; reflexivity.
Qed.
Lemma quiets_flags w d l a :
  quiet d l -> swoff (fst a) = false -> flags (fst (fold_left (step1 w Bist d) l a)) = flags (fst a).
Proof.
  intros Q. revert a. induction Q as [|x l Hx Q IH]; intros a H; cbn [fold_left]; [reflexivity|].
  pose proof (quiet_flags w d a x Hx H) as F. rewrite IH; [exact F|].
  unfold flags in F. injection F as _ _ _ F _. congruence.
Qed.
Lemma jam_report w n i s :
  stopped s = false -> opening s = true -> t_sw s <= n -> p_time i < n - t_sw s < 2 ^ 32 ->
  p_fb i = true -> di0 i = false -> di1 i = true ->
  fst (get_state w Bist n i s) = if manual s then -13 else -3.
Proof.
  intros H1 H2 H3 H4 H5 H6 H7. unfold get_state, fb_state. cbv zeta. cbn [has_fb valve_state].
  rewrite delta_le by lia. rewrite H1, H2, H5, H6, H7. rewrite u32_small by lia.
  destruct (p_time i <? n - t_sw s) eqn:L; [|lia]. cbn [andb fst snd]. rewrite ?delta_le by lia. rewrite L.
  destruct (manual s); reflexivity.
Qed.
(** Without state commands a bistable valve is never stopped. *)
Lemma never_stopped w d a x :
  (forall n, fst x <> Cmd d n /\ fst x <> Set_ d n) -> stopped (fst a) = false -> stopped (fst (step1 w Bist d a x)) = false.
Proof.
  intros C H. destruct x as (o, E). cbn [fst] in C. unfold step1. cbn [fst snd].
  destruct o as [y|y|y|y m|y u|y m|y m|y|]; try (destruct (y =? d) eqn:Ey; [apply Z.eqb_eq in Ey; subst y; cbn [fst snd]|exact H]).
  - unfold on. cbv zeta. cbn [wq manual]. destruct (manual (fst a)); [exact H|]. unfold direct_on.
    destruct (_ && _); exact H.
  - unfold off. cbv zeta. destruct (_ || _); cbn [fst].
    + destruct (manual (fst a)); [exact H|]. unfold direct_off. destruct (_ && _); exact H.
    + destruct (swoff (fst a)); exact H.
  - unfold instant_off. destruct (manual (fst a)); [exact H|]. unfold direct_off. destruct (_ && _); exact H.
  - exfalso. apply (proj2 (C m)). reflexivity.
  - destruct u; exact H.
  - exfalso. apply (proj1 (C m)). reflexivity.
  - destruct (m =? 0); [exact H|]. destruct (m =? 1); exact H.
  - destruct (poll_core_fields w Bist (now E) (ins E d) (fst a)) as (_ & _ & _ & _ & _ & _ & _ & _ & _ & ->). exact H.
  - unfold eval1. cbv zeta. cbn [fst]. rewrite fins_plain by discriminate. cbn [snd].
    assert (G : stopped (bist_eval w (now E) (ins E d) (fst a)) = false).
    { unfold bist_eval. cbv zeta. repeat match goal with |- context [if ?b then _ else _] => destruct b end; exact H. }
    revert G. generalize (bist_eval w (now E) (ins E d) (fst a)). induction (snd a) as [|c IH]; intros s G; cbn [dues]; [exact G|].
    apply IH. unfold due. destruct (swoff s && _); [|exact G]. destruct (manual s); [exact G|].
    cbn [wq stopped]. unfold direct_off. destruct (_ && _); exact G.
Qed.
Lemma never_stopped_run w d l a :
  Forall (fun x => forall n, fst x <> Cmd d n /\ fst x <> Set_ d n) l ->
  stopped (fst a) = false -> stopped (fst (fold_left (step1 w Bist d) l a)) = false.
Proof.
  intros C. revert a. induction C as [|x l Hx C IH]; intros a H; cbn [fold_left]; [exact H|].
  apply IH, never_stopped; assumption.
Qed.

(** Commands. *)
Lemma bare_set k n i m s : bare k = true -> direct_set_state k n i m s = wreg m s.
Proof. destruct k; cbn; intros H; try discriminate H; reflexivity. Qed.
Lemma bare_report w k n i m s : bare k = true -> fst (get_state w k n i (wreg m s)) = fst (get_state w k n i s).
Proof.
  intros H.
  assert (F : fb_state w k n i (wreg m s) = (fst (fb_state w k n i s), wreg m (snd (fb_state w k n i s)))).
  { unfold fb_state. cbv zeta. destruct k; try discriminate H; cbn [wreg o0 o1 o2 t_sw]; try reflexivity;
      match goal with |- (if ?b then _ else _) = _ => destruct b end; reflexivity. }
  unfold get_state. cbv zeta. rewrite F. cbn [fst snd wreg t_sw].
  destruct k; try discriminate H; cbn [has_fb valve_state wreg o0 o1 o2 manual t_sw];
  repeat match goal with |- context [if ?b then _ else _] => destruct b; cbn [fst snd] end; reflexivity.
Qed.
Lemma set_outputs k n i m s :
  (k = Mix \/ k = Mini) -> excl k s ->
  (o0 (direct_set_state k n i m s), o1 (direct_set_state k n i m s)) = fst (commanded k m) /\
  (k = Mix -> outputs (direct_set_state k n i m s) = commanded k m).
Proof.
  intros H X. unfold excl in X.
  assert (C : forall c, m = c \/ m <> c) by (intros c; destruct (Z.eq_dec m c); tauto).
  assert (Heq : forall c, m <> c -> (m =? c) = false) by (intros c N; apply Z.eqb_neq; exact N).
  destruct s as [a b c rg ts mn au sw tf mi tm st op cl].
  destruct H as [-> | ->]; unfold direct_set_state, commanded, outputs;
  (destruct (C 0) as [->|N0]; [|destruct (C 1) as [->|N1]; [|destruct (C 2) as [->|N2]; [|destruct (C 3) as [->|N3]]]]);
  unfold V_OFF, V_ON, V_UPPER, V_LOWER;
  rewrite ?(Heq 0) by assumption; rewrite ?(Heq 1) by assumption; rewrite ?(Heq 2) by assumption; rewrite ?(Heq 3) by assumption;
  destruct a, b, c; cbn in X |- *; split; try (intros F; discriminate F); try reflexivity; intros; try reflexivity; intuition discriminate.
Qed.
