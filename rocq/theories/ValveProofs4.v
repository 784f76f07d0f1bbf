(** Lemmas about valves: the time of switching, reported states, bistable valves. *)
From Coq Require Import ZArith List Bool Lia.
From Verif Require Import Base TimeModel ValveModel ValveSpec ValveProofs ValveProofs2 ValveProofs3.
Import ListNotations.
Open Scope Z_scope.

Definition same_sw (s s' : vst) : Prop := outputs s' = outputs s /\ t_sw s' = t_sw s.
Definition wgt (s : vst) : Z := b2z (o0 s) + b2z (o1 s) + b2z (o2 s).
(** Switched off at [n] and lost an output, or as it was. *)
Definition less_at (n : Z) (s s' : vst) : Prop := same_sw s s' \/ (t_sw s' = n /\ wgt s' < wgt s).

Lemma same_wgt s s' : same_sw s s' -> wgt s' = wgt s.
Proof. intros (H & _). unfold outputs in H. unfold wgt. injection H as -> -> ->. reflexivity. Qed.
Lemma less_trans n a b c : less_at n a b -> less_at n b c -> less_at n a c.
Proof.
  intros [H|(H1 & H2)] [G|(G1 & G2)].
  - left. destruct H as (H1 & H2), G as (G1 & G2). split; congruence.
  - right. pose proof (same_wgt _ _ H). split; [assumption|lia].
  - right. pose proof (same_wgt _ _ G). destruct G as (G1 & G2). split; [congruence|lia].
  - right. split; [assumption|lia].
Qed.
Lemma less_out n a b : less_at n a b -> (outputs a <> outputs b -> t_sw b = n) /\ (outputs a = outputs b -> t_sw b = t_sw a).
Proof.
  intros [(H1 & H2)|(H1 & H2)].
  - split; [intros N; exfalso; apply N; symmetry; exact H1|intros _; exact H2].
  - split; [intros _; exact H1|]. intros E. exfalso. unfold outputs in E. unfold wgt in H2. injection E as E1 E2 E3. rewrite E1, E2, E3 in H2. lia.
Qed.

Definition falling (k : kind) : bool := match k with DI1off | DI1on | DI2 | Mix | Bottom | Mini => true | _ => false end.
Lemma off_less k n i s : falling k = true -> less_at n s (direct_off k n i s).
Proof.
  intros F. unfold less_at, same_sw, outputs, wgt, direct_off, valve_state.
  destruct s as [a b c rg ts mn au sw tf mi tm st op cl]. cbv zeta.
  destruct k; try discriminate F; destruct a, b, c; try destruct mi; cbn;
    solve [left; split; reflexivity | right; split; [reflexivity|lia]].
Qed.

(** What an order does to the time of switching. *)
Definition seated (k : kind) (s : vst) : Prop :=
  match position_of k (o0 s) (o1 s) (o2 s) with Upper | Lower => True | _ => False end.
Definition timed (k : kind) (n : Z) (s s' : vst) : Prop :=
  (outputs s <> outputs s' -> t_sw s' = n) /\ (outputs s = outputs s' -> t_sw s' = t_sw s \/ seated k s').

Lemma timed_refl k n s : timed k n s s.
Proof. split; [intros H; exfalso; apply H; reflexivity|intros _; left; reflexivity]. Qed.
Lemma less_timed k n s s' : less_at n s s' -> timed k n s s'.
Proof. intros H. apply less_out in H. destruct H as (H1 & H2). split; [exact H1|]. intros E. left. apply H2, E. Qed.

Lemma on_timed k n i s : steady k = true -> excl k s -> timed k n s (direct_on k n i s).
Proof.
  intros F X. unfold timed, outputs, seated, direct_on, excl in *.
  destruct s as [a b c rg ts mn au sw tf mi tm st op cl]. cbv zeta.
  destruct k; try discriminate F; destruct a, b, c; cbn in *;
    split; intros H; try (left; reflexivity); try reflexivity; try congruence; intuition discriminate.
Qed.
Lemma off_timed k n i s : steady k = true -> excl k s -> timed k n s (direct_off k n i s).
Proof.
  intros F X. unfold timed, outputs, seated, direct_off, valve_state, excl in *.
  destruct s as [a b c rg ts mn au sw tf mi tm st op cl]. cbv zeta.
  destruct k; try discriminate F; destruct a, b, c; try destruct mi; cbn in *;
    split; intros H; try (left; reflexivity); try reflexivity; try congruence; intuition discriminate.
Qed.
Lemma set_timed k n i m s : steady k = true -> excl k s -> timed k n s (direct_set_state k n i m s).
Proof.
  intros F X. pose proof (on_timed k n i s F X) as H1. pose proof (off_timed k n i s F X) as H2.
  unfold direct_set_state. destruct k; try discriminate F; try apply timed_refl; cbv zeta;
  repeat match goal with |- context [if m =? ?b then _ else _] => destruct (m =? b) end; try assumption;
    clear H1 H2; unfold timed, outputs, seated, direct_off, valve_state, excl in *;
    destruct s as [a b c rg ts mn au sw tf mi tm st op cl];
    destruct a, b, c; try destruct mi; cbn in *;
    split; intros H; try (left; reflexivity); try (right; exact I); try reflexivity; try congruence; intuition discriminate.
Qed.
Lemma seat_timed k u n i s : steady k = true -> excl k s -> timed k n s (open_seat k u n i s).
Proof. intros F X. destruct k, u; cbn [open_seat]; try apply timed_refl; apply set_timed; assumption. Qed.

Lemma due_less w k n i dl s : falling k = true -> less_at n s (due w k n i dl s).
Proof.
  intros F. unfold due. destruct (swoff s && _); [|left; split; reflexivity].
  destruct (manual s); [left; split; reflexivity|]. exact (off_less k n i s F).
Qed.
Lemma finished_less w k n i md s : falling k = true -> less_at n s (snd (finished w k n i md s)).
Proof.
  intros F. unfold finished. destruct k; try (left; split; reflexivity).
  destruct (negb (mini s)); [left; split; reflexivity|]. destruct (md <? _); [|left; split; reflexivity].
  cbn [snd]. exact (off_less Bottom n i (wmini false (t_mini s) s) F).
Qed.
Lemma eval1_timed w k E i s c : steady k = true -> excl k s -> timed k (now E) s (fst (eval1 w k E i s c)).
Proof.
  intros F X. destruct (falling k) eqn:L.
  - apply less_timed. unfold eval1. cbv zeta. cbn [fst].
    replace (match k with Bist => bist_eval w (now E) i s | _ => s end) with s by (destruct k; try reflexivity; discriminate L).
    apply (less_trans _ _ (dues w k (now E) i (delay E) c s)).
    + clear X. generalize c. intros m. revert s. induction m as [|m IH]; intros s; cbn [dues]; [left; split; reflexivity|].
      apply (less_trans _ _ _ _ (due_less w k (now E) i (delay E) s L)), IH.
    + generalize (dues w k (now E) i (delay E) c s). clear. induction c as [|c IH]; intros s; cbn [fins]; [left; split; reflexivity|].
      cbv zeta. cbn [snd]. destruct (falling k) eqn:L.
      * apply (less_trans _ _ _ _ (finished_less w k (now E) i (mdelay E) s L)), IH.
      * assert (snd (finished w k (now E) i (mdelay E) s) = s) as -> by (destruct k; try reflexivity; discriminate L). apply IH.
  - assert (k = DO2DI2) as -> by (destruct k; try discriminate F; try discriminate L; reflexivity).
    destruct c as [|c]; [rewrite eval1_out by discriminate; apply timed_refl|].
    rewrite eval1_plain by (try reflexivity; discriminate). cbn [fst]. unfold due.
    destruct (swoff s && _); [|exact (timed_refl _ (now E) s)]. destruct (manual s); [exact (timed_refl _ (now E) s)|].
    exact (off_timed DO2DI2 (now E) i s eq_refl X).
Qed.

Lemma poll_timed w k d s E :
  steady k = true ->
  (one_sensor k = true -> p_fb (ins E d) = true ->
    agrees k (o0 s) (o1 s) (o2 s) (di0 (ins E d)) (di1 (ins E d)) = false) ->
  t_sw (snd (get_state w k (now E) (ins E d) s)) = t_sw s.
Proof.
  intros F H. unfold get_state. cbv zeta.
  assert (G : has_fb k = true -> p_fb (ins E d) = true -> t_sw (snd (fb_state w k (now E) (ins E d) s)) = t_sw s).
  { intros _ P. unfold fb_state. cbv zeta. destruct k; try discriminate F;
    try (repeat match goal with |- context [if ?b then _ else _] => destruct b end; reflexivity).
    - specialize (H eq_refl P). cbn [agrees] in H. destruct (o0 s), (di0 (ins E d)); try discriminate H; reflexivity.
    - specialize (H eq_refl P). cbn [agrees] in H. destruct (o0 s), (di0 (ins E d)); try discriminate H; reflexivity. }
  destruct k; try discriminate F; cbn [has_fb] in *;
    repeat match goal with |- context [if ?b then _ else _] => destruct b eqn:?; cbn [snd] end; try reflexivity;
    apply G; try reflexivity; assumption.
Qed.
Lemma poll_restart w k d s E :
  one_sensor k = true -> p_fb (ins E d) = true ->
  agrees k (o0 s) (o1 s) (o2 s) (di0 (ins E d)) (di1 (ins E d)) = true ->
  t_sw (snd (get_state w k (now E) (ins E d) s)) = now E.
Proof.
  intros F P A. unfold get_state. cbv zeta. destruct k; try discriminate F; cbn [has_fb valve_state agrees] in *; rewrite P;
  unfold fb_state; cbv zeta; destruct (o0 s), (di0 (ins E d)); try discriminate A; cbn; destruct (manual s); reflexivity.
Qed.

(** One event, any valve with feedback. *)
Lemma step_timed w k d a x :
  steady k = true -> excl k (fst a) ->
  let s := fst a in let s' := fst (step1 w k d a x) in
  (restarts k d s s' x -> t_sw s' = now (snd x)) /\
  (~ restarts k d s s' x -> t_sw s' = t_sw s \/ seated k s').
Proof.
  intros F X. cbv zeta. destruct x as (o, E). cbn [snd].
  assert (Base : forall s', (forall y, o <> Poll y) -> timed k (now E) (fst a) s' ->
    (restarts k d (fst a) s' (o, E) -> t_sw s' = now E) /\
    (~ restarts k d (fst a) s' (o, E) -> t_sw s' = t_sw (fst a) \/ seated k s')).
  { intros s' N (T1 & T2). split.
    - intros [R|(_ & R & _)]; [apply T1, R|]. exfalso. cbn in R. exact (N _ R).
    - intros R. apply T2. unfold restarts in R.
      destruct (outputs (fst a)) as ((p1, p2), p3) eqn:E1, (outputs s') as ((q1, q2), q3) eqn:E2.
      destruct p1, p2, p3, q1, q2, q3; try reflexivity; exfalso; apply R; left; intros C; discriminate C. }
  unfold step1. cbn [fst snd].
  destruct o as [y|y|y|y m|y u|y m|y m|y|].
  - apply Base; [discriminate|]. destruct (y =? d); [|exact (timed_refl k (now E) (fst a))]. cbn [fst]. unfold on. cbv zeta. cbn [wq manual].
    destruct (manual (fst a)); [exact (timed_refl k (now E) (fst a))|].
    exact (on_timed k (now E) (ins E d) (wq true false (t_off (fst a)) (fst a)) F X).
  - apply Base; [discriminate|]. destruct (y =? d); [|exact (timed_refl k (now E) (fst a))]. cbn [fst]. unfold off. cbv zeta.
    destruct (_ || _); cbn [fst].
    + destruct (manual (fst a)); [exact (timed_refl k (now E) (fst a))|]. apply off_timed; assumption.
    + destruct (swoff (fst a)); exact (timed_refl k (now E) (fst a)).
  - apply Base; [discriminate|]. destruct (y =? d); [|exact (timed_refl k (now E) (fst a))]. cbn [fst]. unfold instant_off.
    destruct (manual (fst a)); [exact (timed_refl k (now E) (fst a))|]. apply off_timed; assumption.
  - apply Base; [discriminate|]. destruct (y =? d); [|exact (timed_refl k (now E) (fst a))]. cbn [fst]. unfold set_state.
    destruct (manual (fst a)); [exact (timed_refl k (now E) (fst a))|]. apply set_timed; assumption.
  - apply Base; [discriminate|]. destruct (y =? d); [|exact (timed_refl k (now E) (fst a))]. cbn [fst]. apply seat_timed; assumption.
  - apply Base; [discriminate|]. destruct (y =? d); [|exact (timed_refl k (now E) (fst a))]. cbn [fst]. apply set_timed; assumption.
  - apply Base; [discriminate|]. destruct (y =? d); [|exact (timed_refl k (now E) (fst a))].
    destruct (m =? 0); [exact (timed_refl k (now E) (fst a))|]. destruct (m =? 1); exact (timed_refl k (now E) (fst a)).
  - destruct (y =? d) eqn:Ey.
    2: { split.
         - intros [R|(_ & R & _)]; [exfalso; apply R; reflexivity|]. cbn in R. injection R as ->. rewrite Z.eqb_refl in Ey. discriminate.
         - intros _. left. reflexivity. }
    apply Z.eqb_eq in Ey. subst y. cbn [fst].
    destruct (core_outs _ _ (poll_core w k (now E) (ins E d) (fst a))) as (c1 & c2 & c3).
    split.
    + intros [R|(R1 & _ & R2 & R3)].
      * exfalso. apply R. unfold outputs. rewrite c1, c2, c3. reflexivity.
      * cbn [snd] in R2, R3. apply poll_restart; assumption.
    + intros R. left. apply poll_timed; [exact F|]. intros O P.
      destruct (agrees k (o0 (fst a)) (o1 (fst a)) (o2 (fst a)) (di0 (ins E d)) (di1 (ins E d))) eqn:Ag; [|reflexivity].
      exfalso. apply R. right. repeat split; assumption.
  - apply Base; [discriminate|]. apply eval1_timed; assumption.
Qed.

(** What is reported. *)
Lemma report k w n i s :
  steady k = true -> t_sw s <= n ->
  fst (get_state w k n i s) =
  let p := position_of k (o0 s) (o1 s) (o2 s) in
  code (match k with DO2DI2 => if eqb (o0 s) (o1 s) then if o1 s then Opened else Closed else opposite p | _ => p end) (manual s)
    (judge (agrees k (o0 s) (o1 s) (o2 s) (di0 i) (di1 i)) (p_fb i) (n - t_sw s) (p_time i)).
Proof.
  intros F T. cbv zeta. unfold get_state, fb_state, judge. cbv zeta. cbn [t_sw wt].
  rewrite ?delta_le by lia.
  destruct s as [a b c rg ts mn au sw tf mi tm st op cl]. cbn [o0 o1 o2 t_sw manual wt] in *.
  destruct k; try discriminate F; cbn [has_fb valve_state position_of agrees]; cbn [o0 o1 o2 wt t_sw];
  destruct a, b, c, (di0 i), (di1 i), (p_fb i), mn; cbn [negb andb orb xorb eqb b2z fst snd code opposite];
  change (1 =? V_LOWER) with false; change (1 =? V_UPPER) with false; change (1 =? V_ON) with true;
  change (0 =? V_LOWER) with false; change (0 =? V_UPPER) with false; change (0 =? V_ON) with false; change (0 =? V_OFF) with true;
  change (V_UPPER =? V_LOWER) with false; change (V_UPPER =? V_UPPER) with true; change (V_LOWER =? V_LOWER) with true;
  cbv iota; cbn [fst snd t_sw wt]; rewrite ?delta_le by lia; try reflexivity;
  destruct (n - ts <? p_time i) eqn:L1; cbn [fst snd]; rewrite ?delta_le by lia; try reflexivity;
  destruct (p_time i <? n - ts) eqn:L2; destruct (n - ts =? p_time i) eqn:L3; try reflexivity; exfalso; lia.
Qed.

(** * Bistable valves *)

Lemma bist_step_open w d a x :
  let s := fst a in let s' := fst (step1 w Bist d a x) in
  o0 s' = true -> (o0 s = true -> t_sw s' = t_sw s) /\ (o0 s = false -> t_sw s' = now (snd x)).
Proof.
  cbv zeta. destruct x as (o, E). cbn [snd].
  assert (Refl : forall s, o0 s = true -> (o0 s = true -> t_sw s = t_sw s) /\ (o0 s = false -> t_sw s = now E))
    by (intros s H; split; [reflexivity|congruence]).
  assert (On_ : forall s, o0 (direct_on Bist (now E) (ins E d) s) = true ->
    (o0 s = true -> t_sw (direct_on Bist (now E) (ins E d) s) = t_sw s) /\ (o0 s = false -> t_sw (direct_on Bist (now E) (ins E d) s) = now E)).
  { intros s. unfold direct_on. destruct (o0 s) eqn:A, (di0 (ins E d)); cbn; rewrite ?A; intros H; split; congruence. }
  assert (Off_ : forall s, o0 (direct_off Bist (now E) (ins E d) s) = true ->
    (o0 s = true -> t_sw (direct_off Bist (now E) (ins E d) s) = t_sw s) /\ (o0 s = false -> t_sw (direct_off Bist (now E) (ins E d) s) = now E)).
  { intros s. unfold direct_off. destruct (o1 s) eqn:A, (di1 (ins E d)), (o0 s) eqn:C; cbn; rewrite ?C; intros H; split; congruence. }
  assert (Set__ : forall m s, o0 (direct_set_state Bist (now E) (ins E d) m s) = true ->
    (o0 s = true -> t_sw (direct_set_state Bist (now E) (ins E d) m s) = t_sw s) /\ (o0 s = false -> t_sw (direct_set_state Bist (now E) (ins E d) m s) = now E)).
  { intros m s. unfold direct_set_state. destruct (m =? V_STOP), (di0 (ins E d)), (di1 (ins E d)); cbn; intros H; split; congruence. }
  unfold step1. cbn [fst snd].
  destruct o as [y|y|y|y m|y u|y m|y m|y|]; try (destruct (y =? d); cbn [fst snd]; [|exact (Refl (fst a))]).
  - unfold on. cbv zeta. cbn [wq manual]. destruct (manual (fst a)); [exact (Refl (fst a))|]. exact (On_ (wq true false (t_off (fst a)) (fst a))).
  - unfold off. cbv zeta. destruct (_ || _); cbn [fst].
    + destruct (manual (fst a)); [exact (Refl (fst a))|]. apply Off_.
    + destruct (swoff (fst a)); exact (Refl (fst a)).
  - unfold instant_off. destruct (manual (fst a)); [exact (Refl (fst a))|]. apply Off_.
  - unfold set_state. destruct (manual (fst a)); [exact (Refl (fst a))|]. apply Set__.
  - destruct u; exact (Refl (fst a)).
  - apply Set__.
  - destruct (m =? 0); [exact (Refl (fst a))|]. destruct (m =? 1); exact (Refl (fst a)).
  - intros H. destruct (poll_core_fields w Bist (now E) (ins E d) (fst a)) as (c1 & _). rewrite c1 in H.
    split; [intros _|congruence].
    unfold get_state. cbv zeta. unfold fb_state. cbv zeta.
    repeat match goal with |- context [if ?b then _ else _] => destruct b; cbn [fst snd] end; reflexivity.
  - intros H. unfold eval1 in *. cbv zeta in *. cbn [fst] in *. rewrite fins_plain in * by discriminate. cbn [snd] in *.
    set (s1 := bist_eval w (now E) (ins E d) (fst a)) in *.
    assert (S1 : o0 s1 = true -> o0 (fst a) = true /\ t_sw s1 = t_sw (fst a)).
    { unfold s1, bist_eval. cbv zeta. intros G.
      repeat match goal with |- context [if ?b then _ else _] => destruct b eqn:? end; cbn in *; try congruence; split; congruence. }
    assert (S2 : o0 s1 = true /\ t_sw (dues w Bist (now E) (ins E d) (delay E) (snd a) s1) = t_sw s1).
    { clearbody s1. revert s1 S1 H. induction (snd a) as [|c IH]; intros s1 S1 H; cbn [dues] in *; [split; [exact H|reflexivity]|].
      assert (G : forall z, o0 (due w Bist (now E) (ins E d) (delay E) z) = true -> o0 z = true /\ t_sw (due w Bist (now E) (ins E d) (delay E) z) = t_sw z).
      { intros z. unfold due. destruct (swoff z && _); [|intros; split; [assumption|reflexivity]].
        destruct (manual z); [intros Q; cbn in Q; split; [exact Q|reflexivity]|].
        cbn [wq o0 t_sw]. unfold direct_off. destruct (negb (di1 (ins E d)) && negb (o1 z)); cbn; intros Q; [discriminate Q|split; [exact Q|reflexivity]]. }
      destruct (IH (due w Bist (now E) (ins E d) (delay E) s1)) as (I1 & I2).
      - intros Q. apply G in Q. destruct Q as (Q1 & Q2). destruct (S1 Q1) as (R1 & R2). split; congruence.
      - exact H.
      - apply G in I1. destruct I1 as (J1 & J2). split; [exact J1|congruence]. }
    destruct S2 as (S2 & S3). destruct (S1 S2) as (S4 & S5). rewrite S3. split; congruence.
Qed.

Lemma bist_eval_open w d a E :
  o0 (fst (step1 w Bist d a (Eval, E))) = true -> t_sw (fst a) <= now E ->
  di0 (ins E d) = false /\ now E - t_sw (fst a) <= p_time (ins E d).
Proof.
  intros H T. unfold step1 in H. cbn [fst snd] in H. unfold eval1 in H. cbv zeta in H. cbn [fst] in H.
  rewrite fins_plain in H by discriminate. cbn [snd] in H.
  set (s1 := bist_eval w (now E) (ins E d) (fst a)) in *.
  assert (O : o0 s1 = true).
  { clearbody s1. revert s1 H. induction (snd a) as [|c IH]; intros s1 H; cbn [dues] in *; [exact H|].
    apply IH in H. revert H. unfold due. destruct (swoff s1 && _); [|exact (fun x => x)].
    destruct (manual s1); [exact (fun x => x)|]. cbn [wq o0].
    unfold direct_off. destruct (negb (di1 (ins E d)) && negb (o1 s1)); cbn; [discriminate|exact (fun x => x)]. }
  unfold s1, bist_eval in O. cbv zeta in O. rewrite delta_le in O by exact T.
  destruct (o0 (fst a)) eqn:A, (di0 (ins E d)) eqn:D, (p_time (ins E d) <? now E - t_sw (fst a)) eqn:L;
    cbn [andb orb w0 w1 o0 o1] in O; rewrite ?L in O;
    repeat match type of O with context [if ?b then _ else _] => destruct b end; cbn in O; try congruence.
  all: split; [reflexivity|lia].
Qed.

Lemma stopped_report w n i s : stopped s = true -> ~ error_code (fst (get_state w Bist n i s)).
Proof.
  intros H. unfold get_state, fb_state. cbv zeta. rewrite H. cbn [fst snd has_fb valve_state]. rewrite H.
  unfold error_code.
  destruct (di0 i), (di1 i), (o0 s), (o1 s), (manual s), (p_fb i); cbn; lia.
Qed.
Lemma stopped_stays w d a x :
  (forall n, fst x = Cmd d n \/ fst x = Set_ d n -> n = 5) ->
  stopped (fst a) = true -> stopped (fst (step1 w Bist d a x)) = true.
Proof.
  intros C H. destruct x as (o, E). cbn [fst] in C. unfold step1. cbn [fst snd].
  destruct o as [y|y|y|y m|y u|y m|y m|y|]; try (destruct (y =? d) eqn:Ey; [apply Z.eqb_eq in Ey; subst y; cbn [fst snd]|exact H]).
  - unfold on. cbv zeta. cbn [wq manual]. destruct (manual (fst a)); [exact H|]. unfold direct_on.
    destruct (_ && _); exact H.
  - unfold off. cbv zeta. destruct (_ || _); cbn [fst].
    + destruct (manual (fst a)); [exact H|]. unfold direct_off. destruct (_ && _); exact H.
    + destruct (swoff (fst a)); exact H.
  - unfold instant_off. destruct (manual (fst a)); [exact H|]. unfold direct_off. destruct (_ && _); exact H.
  - rewrite (C m (or_intror eq_refl)). unfold set_state. destruct (manual (fst a)); [exact H|].
    cbn [direct_set_state]. change (5 =? V_STOP) with true. cbv iota zeta. destruct (_ || _); [exact H|reflexivity].
  - destruct u; exact H.
  - rewrite (C m (or_introl eq_refl)). cbn [direct_set_state]. change (5 =? V_STOP) with true. cbv iota zeta.
    destruct (_ || _); [exact H|reflexivity].
  - destruct (m =? 0); [exact H|]. destruct (m =? 1); exact H.
  - destruct (poll_core_fields w Bist (now E) (ins E d) (fst a)) as (_ & _ & _ & _ & _ & _ & _ & _ & _ & ->). exact H.
  - unfold eval1. cbv zeta. cbn [fst]. rewrite fins_plain by discriminate. cbn [snd].
    assert (G : stopped (bist_eval w (now E) (ins E d) (fst a)) = true).
    { unfold bist_eval. cbv zeta. repeat match goal with |- context [if ?b then _ else _] => destruct b end; exact H. }
    revert G. generalize (bist_eval w (now E) (ins E d) (fst a)). induction (snd a) as [|c IH]; intros s G; cbn [dues]; [exact G|].
    apply IH. unfold due. destruct (swoff s && _); [|exact G]. destruct (manual s); [exact G|].
    cbn [wq stopped]. unfold direct_off. destruct (_ && _); exact G.
Qed.
Lemma stopped_run w d l a :
  Forall (fun x => forall n, fst x = Cmd d n \/ fst x = Set_ d n -> n = 5) l ->
  stopped (fst a) = true -> stopped (fst (fold_left (step1 w Bist d) l a)) = true.
Proof.
  intros C. revert a. induction C as [|x l Hx C IH]; intros a H; cbn [fold_left]; [exact H|].
  apply IH, stopped_stays; assumption.
Qed.
