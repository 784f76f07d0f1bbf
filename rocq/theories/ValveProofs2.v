(** Lemmas about valves: outputs, manual mode, closing with a delay. *)
From Coq Require Import ZArith List Bool Lia.
From Verif Require Import Base TimeModel ValveModel ValveSpec ValveProofs.
Import ListNotations.
Open Scope Z_scope.

Definition core (s : vst) := (o0 s, o1 s, o2 s, (auto s, swoff s, t_off s, manual s), (mini s, t_mini s, stopped s)).

Lemma delta_le w n t : t <= n -> get_delta_millisec w n t = n - t.
Proof.
  intros H. unfold get_delta_millisec. destruct (n <? t) eqn:E; [lia|].
  destruct (t <=? n) eqn:F; [reflexivity|lia].
Qed.

Lemma poll_core w k n i s : core (snd (get_state w k n i s)) = core s.
Proof.
  assert (F : core (snd (fb_state w k n i s)) = core s).
  { unfold fb_state. destruct k; try reflexivity;
      repeat match goal with |- context [if ?b then _ else _] => destruct b end; reflexivity. }
  unfold get_state. cbv zeta. destruct k;
  repeat match goal with
    | |- context [if ?b then _ else _] => destruct b; cbn [snd]
    end; solve [reflexivity | exact F].
Qed.

Lemma on_manual k n i s : manual (on k n i s) = manual s.
Proof.
  unfold on. cbv zeta. cbn [wq manual]. destruct (manual s) eqn:M; [exact M|].
  unfold direct_on. destruct k; cbv zeta;
    repeat match goal with |- context [if ?b then _ else _] => destruct b end; exact M.
Qed.
Lemma direct_on_keeps k n i s :
  manual (direct_on k n i s) = manual s /\ auto (direct_on k n i s) = auto s /\
  swoff (direct_on k n i s) = swoff s /\ t_off (direct_on k n i s) = t_off s.
Proof.
  unfold direct_on. destruct k; cbv zeta;
    repeat match goal with |- context [if ?b then _ else _] => destruct b end; repeat split.
Qed.
Lemma direct_off_keeps k n i s :
  manual (direct_off k n i s) = manual s /\ auto (direct_off k n i s) = auto s /\
  swoff (direct_off k n i s) = swoff s /\ t_off (direct_off k n i s) = t_off s.
Proof.
  unfold direct_off. destruct k; cbv zeta;
    repeat match goal with |- context [if ?b then _ else _] => destruct b end; repeat split.
Qed.
Lemma direct_set_keeps k n i m s :
  manual (direct_set_state k n i m s) = manual s /\ auto (direct_set_state k n i m s) = auto s /\
  swoff (direct_set_state k n i m s) = swoff s /\ t_off (direct_set_state k n i m s) = t_off s.
Proof.
  unfold direct_set_state. destruct k; cbv zeta; try (repeat split; fail);
    repeat match goal with
    | |- context [if ?b then _ else _] => destruct b; cbn [wmini wt w0 w1 w2 wreg wbist manual auto swoff t_off]
    end; try apply direct_on_keeps; try apply direct_off_keeps; repeat split.
Qed.
Lemma seat_keeps k u n i s :
  manual (open_seat k u n i s) = manual s /\ auto (open_seat k u n i s) = auto s /\
  swoff (open_seat k u n i s) = swoff s /\ t_off (open_seat k u n i s) = t_off s.
Proof. destruct k, u; cbn [open_seat]; try apply direct_set_keeps; repeat split. Qed.
Lemma finished_keeps w k n i md s :
  let s' := snd (finished w k n i md s) in
  manual s' = manual s /\ auto s' = auto s /\ swoff s' = swoff s /\ t_off s' = t_off s.
Proof.
  cbv zeta. unfold finished. destruct k; try (repeat split; fail).
  destruct (negb (mini s)); [repeat split|].
  destruct (md <? _); [|repeat split]. cbn [snd].
  destruct (direct_off_keeps Bottom n i (wmini false (t_mini s) s)) as (? & ? & ? & ?).
  repeat split; assumption.
Qed.
Lemma fins_keeps w k n i md c s :
  let s' := snd (fins w k n i md c s) in
  manual s' = manual s /\ auto s' = auto s /\ swoff s' = swoff s /\ t_off s' = t_off s.
Proof.
  cbv zeta. revert s. induction c as [|c IH]; intros s; cbn [fins]; [repeat split|]. cbv zeta. cbn [snd].
  destruct (IH (snd (finished w k n i md s))) as (a1 & a2 & a3 & a4).
  destruct (finished_keeps w k n i md s) as (b1 & b2 & b3 & b4).
  rewrite a1, a2, a3, a4, b1, b2, b3, b4. repeat split.
Qed.
Lemma due_manual w k n i dl s : manual (due w k n i dl s) = manual s.
Proof.
  unfold due. destruct (swoff s && _); [|reflexivity]. cbn [wq manual].
  destruct (manual s) eqn:M; [exact M|]. rewrite <- M. apply direct_off_keeps.
Qed.
Lemma dues_manual w k n i dl c s : manual (dues w k n i dl c s) = manual s.
Proof. revert s. induction c as [|c IH]; intros s; cbn [dues]; [reflexivity|]. rewrite IH. apply due_manual. Qed.
Lemma bist_keeps w n i s :
  let s' := bist_eval w n i s in
  manual s' = manual s /\ auto s' = auto s /\ swoff s' = swoff s /\ t_off s' = t_off s.
Proof.
  cbv zeta. unfold bist_eval. cbv zeta.
  repeat match goal with |- context [if ?b then _ else _] => destruct b end; repeat split.
Qed.
Lemma eval1_manual w k E i s c : manual (fst (eval1 w k E i s c)) = manual s.
Proof.
  unfold eval1. cbv zeta. cbn [fst].
  rewrite (proj1 (fins_keeps _ _ _ _ _ _ _)), dues_manual.
  destruct k; try reflexivity. apply bist_keeps.
Qed.
Lemma off_manual k n i s : manual (fst (off k n i s)) = manual s.
Proof.
  unfold off. cbv zeta. destruct (_ || _); cbn [fst].
  - destruct (manual s) eqn:M; [exact M|]. rewrite <- M. apply direct_off_keeps.
  - destruct (swoff s); reflexivity.
Qed.

Lemma held_manual w k d l a :
  manual (fst (fold_left (step1 w k d) l a)) = held d l (manual (fst a)).
Proof.
  revert a. induction l as [|(o, E) l IH]; intros a; cbn [fold_left held]; [reflexivity|].
  rewrite IH. clear IH. unfold step1. cbn [fst snd].
  destruct o as [y|y|y|y m|y u|y m|y m|y|]; cbn [held];
    try (destruct (y =? d) eqn:Ey; cbn [fst snd]; [|reflexivity]).
  - rewrite on_manual. reflexivity.
  - rewrite off_manual. reflexivity.
  - unfold instant_off. destruct (manual (fst a)) eqn:M; [rewrite M; reflexivity|].
    rewrite (proj1 (direct_off_keeps _ _ _ _)), M. reflexivity.
  - unfold set_state. destruct (manual (fst a)) eqn:M; [rewrite M; reflexivity|].
    rewrite (proj1 (direct_set_keeps _ _ _ _ _)), M. reflexivity.
  - rewrite (proj1 (seat_keeps _ _ _ _ _)). reflexivity.
  - rewrite (proj1 (direct_set_keeps _ _ _ _ _)). reflexivity.
  - destruct (m =? 0); [reflexivity|]. destruct (m =? 1); reflexivity.
  - pose proof (poll_core w k (now E) (ins E d) (fst a)) as H. unfold core in H.
    injection H as _ _ _ _ _ _ H _ _ _. rewrite H. reflexivity.
  - rewrite eval1_manual. reflexivity.
Qed.

(** * Outputs exclude each other *)

Definition excl (k : kind) (s : vst) : Prop := exclusive k (o0 s) (o1 s) (o2 s).

Ltac boom :=
  repeat match goal with
  | |- context [if ?b then _ else _] => destruct b eqn:?
  end.

Lemma core_outs s s' : core s = core s' -> o0 s = o0 s' /\ o1 s = o1 s' /\ o2 s = o2 s'.
Proof. unfold core. intros H. injection H. intros. repeat split; assumption. Qed.

Lemma direct_on_excl k n i s : excl k s -> excl k (direct_on k n i s).
Proof.
  unfold excl, direct_on. destruct s as [a b c rg ts mn au sw tf mi tm st op cl].
  destruct k; cbv zeta; cbn [w0 w1 w2 wt wreg wbist o0 o1 o2]; intros H; try exact I;
    destruct a, b, c, (di0 i); cbn in H |- *; intuition discriminate.
Qed.
Lemma direct_off_excl k n i s : excl k s -> excl k (direct_off k n i s).
Proof.
  unfold excl, direct_off, valve_state. destruct s as [a b c rg ts mn au sw tf mi tm st op cl].
  destruct k; cbv zeta; cbn [w0 w1 w2 wt wreg wbist o0 o1 o2]; intros H; try exact I;
    destruct a, b, c, (di1 i), mi; cbn in H |- *; intuition discriminate.
Qed.
Lemma direct_set_excl k n i m s : excl k s -> excl k (direct_set_state k n i m s).
Proof.
  intros H. pose proof (direct_on_excl k n i s H) as H1. pose proof (direct_off_excl k n i s H) as H2.
  unfold direct_set_state. destruct k; try exact I; try exact H; cbv zeta.
  - unfold excl. destruct (m =? V_STOP); [|exact H]. destruct (di0 i || di1 i); [exact H|].
    cbn. intuition discriminate.
  - repeat match goal with |- context [if m =? ?b then _ else _] => destruct (m =? b) end; try assumption.
    + unfold excl, direct_off, valve_state in *. destruct s as [a b c rg ts mn au sw tf mi tm st op cl].
      destruct a, b, c; cbn in H, H2 |- *; intuition discriminate.
    + unfold excl, direct_off, valve_state in *. destruct s as [a b c rg ts mn au sw tf mi tm st op cl].
      destruct a, b, c; cbn in H, H2 |- *; intuition discriminate.
  - repeat match goal with |- context [if m =? ?b then _ else _] => destruct (m =? b) end; try assumption.
    + unfold excl, direct_off, valve_state in *. destruct s as [a b c rg ts mn au sw tf mi tm st op cl].
      destruct a, b, c, mi; cbn in H, H2 |- *; intuition discriminate.
    + unfold excl, direct_off, valve_state in *. destruct s as [a b c rg ts mn au sw tf mi tm st op cl].
      destruct a, b, c, mi; cbn in H, H2 |- *; intuition discriminate.
  - repeat match goal with |- context [if m =? ?b then _ else _] => destruct (m =? b) end; try assumption.
    unfold excl, direct_off, valve_state in *. destruct s as [a b c rg ts mn au sw tf mi tm st op cl].
    destruct a, b, c; cbn in H, H2 |- *; intuition discriminate.
Qed.
Lemma seat_excl k u n i s : excl k s -> excl k (open_seat k u n i s).
Proof. intros H. destruct k, u; cbn [open_seat]; try exact H; apply direct_set_excl; exact H. Qed.
Lemma finished_excl w k n i md s : excl k s -> excl k (snd (finished w k n i md s)).
Proof.
  intros H. unfold finished. destruct k; try exact H.
  destruct (negb (mini s)); [exact H|]. destruct (md <? _); [|exact H].
  cbn [snd]. apply direct_off_excl. exact H.
Qed.
Lemma eval1_excl w k E i s c : excl k s -> excl k (fst (eval1 w k E i s c)).
Proof.
  intros H. unfold eval1. cbv zeta. cbn [fst].
  assert (H1 : excl k match k with Bist => bist_eval w (now E) i s | _ => s end).
  { destruct k; try exact H. unfold excl, bist_eval in *. cbv zeta.
    destruct s as [a b e rg ts mn au sw tf mi tm st op cl]. cbn [o0 o1 t_sw].
    destruct a, b, (di0 i), (di1 i), (p_time i <? get_delta_millisec w (now E) ts) eqn:L;
      cbn in *; rewrite ?L; cbn; intuition discriminate. }
  revert H1. generalize (match k with Bist => bist_eval w (now E) i s | _ => s end). intros z Hz.
  assert (H2 : excl k (dues w k (now E) i (delay E) c z)).
  { clear H. revert z Hz. generalize c at 1. intros m. induction m as [|m IH]; intros z Hz; cbn [dues]; [exact Hz|].
    apply IH. unfold due. destruct (swoff z && _); [|exact Hz].
    destruct (manual z); [exact Hz|]. pose proof (direct_off_excl k (now E) i z Hz). exact H. }
  revert H2. generalize (dues w k (now E) i (delay E) c z). intros y Hy. clear - Hy.
  revert y Hy. induction c as [|c IH]; intros y Hy; cbn [fins]; [exact Hy|]. cbv zeta. cbn [snd].
  apply IH, finished_excl, Hy.
Qed.
Lemma step1_excl w k d a x : excl k (fst a) -> excl k (fst (step1 w k d a x)).
Proof.
  intros H. destruct x as (o, E). unfold step1. cbn [fst snd].
  destruct o as [y|y|y|y m|y u|y m|y m|y|]; try (destruct (y =? d); cbn [fst snd]; [|exact H]).
  - unfold on. cbv zeta. cbn [wq manual]. destruct (manual (fst a)); [exact H|].
    apply direct_on_excl. exact H.
  - unfold off. cbv zeta. destruct (_ || _); cbn [fst].
    + destruct (manual (fst a)); [exact H|]. apply direct_off_excl, H.
    + destruct (swoff (fst a)); exact H.
  - unfold instant_off. destruct (manual (fst a)); [exact H|]. apply direct_off_excl, H.
  - unfold set_state. destruct (manual (fst a)); [exact H|]. apply direct_set_excl, H.
  - apply seat_excl, H.
  - apply direct_set_excl, H.
  - destruct (m =? 0); [exact H|]. destruct (m =? 1); exact H.
  - unfold excl. destruct (core_outs _ _ (poll_core w k (now E) (ins E d) (fst a))) as (-> & -> & ->). exact H.
  - apply eval1_excl, H.
Qed.
Lemma run_excl w k d l a : excl k (fst a) -> excl k (fst (fold_left (step1 w k d) l a)).
Proof.
  revert a. induction l as [|x l IH]; intros a H; cbn [fold_left]; [exact H|]. apply IH, step1_excl, H.
Qed.

(** * Closing with a delay *)

Lemma is_open_core k s s' : core s = core s' -> is_open k s -> is_open k s'.
Proof. intros H. unfold is_open. destruct (core_outs _ _ H) as (-> & -> & ->). exact (fun x => x). Qed.

Lemma dues_idle w k n i dl c s : swoff s = false -> dues w k n i dl c s = s.
Proof.
  intros H. revert c. induction c as [|c IH]; cbn [dues]; [reflexivity|].
  unfold due at 1. rewrite H. cbn [andb]. exact IH.
Qed.
Lemma plain_cases k : plain k = true -> k <> Bist /\ k <> Bottom /\ k <> Virt.
Proof. destruct k; cbn; intros H; repeat split; congruence. Qed.
Lemma fins_plain w k n i md c s :
  k <> Bottom -> fins w k n i md c s = ((if swoff s then c else O), s).
Proof.
  intros H. induction c as [|c IH]; cbn [fins]; [destruct (swoff s); reflexivity|].
  assert (F : finished w k n i md s = (negb (swoff s), s)) by (destruct k; try reflexivity; contradiction).
  rewrite F. cbn [fst snd]. rewrite IH. destruct (swoff s); reflexivity.
Qed.
Lemma eval1_idle w k E i s c : plain k = true -> swoff s = false -> eval1 w k E i s c = (s, O).
Proof.
  intros P H. destruct (plain_cases k P) as (P1 & P2 & _). unfold eval1.
  replace (match k with Bist => bist_eval w (now E) i s | _ => s end) with s by (destruct k; try reflexivity; contradiction).
  cbv zeta. rewrite (dues_idle w k (now E) i (delay E) c s H), fins_plain by exact P2. rewrite H. reflexivity.
Qed.

Definition Q1 (k : kind) (a : vst * nat) : Prop :=
  is_open k (fst a) /\ auto (fst a) = true /\ swoff (fst a) = false /\ manual (fst a) = false.
Definition Q2 (k : kind) (t : Z) (a : vst * nat) : Prop :=
  is_open k (fst a) /\ auto (fst a) = true /\ swoff (fst a) = true /\ t_off (fst a) = t /\
  manual (fst a) = false /\ snd a <> O.

Lemma on_Q1 w k d a E :
  plain k = true -> excl k (fst a) -> manual (fst a) = false -> Q1 k (step1 w k d a (On d, E)).
Proof.
  intros P X M. unfold step1. cbn [fst snd]. rewrite Z.eqb_refl. unfold Q1, on. cbv zeta. cbn [fst wq manual].
  rewrite M. destruct (direct_on_keeps k (now E) (ins E d) (wq true false (t_off (fst a)) (fst a))) as (-> & -> & -> & _).
  cbn [wq manual auto swoff]. repeat split; [|exact M].
  destruct a as (s, n). cbn [fst] in *. destruct s as [a b c rg ts mn au sw tf mi tm st op cl].
  unfold excl, is_open, direct_on in *. cbv zeta. cbn [wq] in *.
  destruct k; try discriminate P; destruct a, b, c; cbn in X |- *; intuition congruence.
Qed.

Lemma quiet_Q1 w k d a x :
  plain k = true -> target (fst x) <> Some d -> Q1 k a -> Q1 k (step1 w k d a x).
Proof.
  intros P T (H1 & H2 & H3 & H4). destruct x as (o, E). unfold step1. cbn [fst snd] in *.
  destruct o as [y|y|y|y m|y u|y m|y m|y|]; cbn [target] in T;
    try (destruct (y =? d) eqn:Ey; [apply Z.eqb_eq in Ey; subst y; exfalso; apply T; reflexivity|
         repeat split; assumption]).
  - destruct (y =? d); [|repeat split; assumption].
    pose proof (poll_core w k (now E) (ins E d) (fst a)) as C.
    unfold Q1. cbn [fst]. split; [exact (is_open_core _ _ _ (eq_sym C) H1)|].
    unfold core in C. injection C as _ _ _ -> -> _ -> _ _ _. repeat split; assumption.
  - rewrite eval1_idle by assumption. repeat split; assumption.
Qed.
Lemma quiets_Q1 w k d l a :
  plain k = true -> quiet d l -> Q1 k a -> Q1 k (fold_left (step1 w k d) l a).
Proof.
  intros P T. revert a. induction T as [|x l Hx T IH]; intros a H; cbn [fold_left]; [exact H|].
  apply IH, quiet_Q1; assumption.
Qed.

Lemma open_state k i s : plain k = true -> is_open k s -> (valve_state k i s =? V_UPPER) = false /\ (valve_state k i s =? V_LOWER) = false.
Proof.
  intros P H. unfold is_open in H. destruct s as [a b c rg ts mn au sw tf mi tm st op cl].
  unfold valve_state. cbn [o0 o1 o2] in *.
  destruct k; try discriminate P; destruct a, b; cbn in H |- *; split; try reflexivity; intuition discriminate.
Qed.

Lemma off_Q2 w k d a E : plain k = true -> Q1 k a -> Q2 k (now E) (step1 w k d a (Off d, E)).
Proof.
  intros P (H1 & H2 & H3 & H4). unfold step1. cbn [fst snd]. rewrite Z.eqb_refl. unfold off. cbv zeta.
  destruct (open_state k (ins E d) (fst a) P H1) as (-> & ->). rewrite H2, H3. cbn [negb orb fst snd].
  unfold Q2. cbn [fst snd wq auto swoff t_off manual]. repeat split; try assumption; discriminate.
Qed.
Lemma off_again_Q2 w k d t a E : plain k = true -> Q2 k t a -> Q2 k t (step1 w k d a (Off d, E)).
Proof.
  intros P (H1 & H2 & H3 & H4 & H5 & H6). unfold step1. cbn [fst snd]. rewrite Z.eqb_refl. unfold off. cbv zeta.
  destruct (open_state k (ins E d) (fst a) P H1) as (-> & ->). rewrite H2, H3. cbn [negb orb fst snd].
  unfold Q2. cbn [fst snd]. repeat split; assumption.
Qed.

Lemma dues_plain w k n i dl c s :
  c <> O -> dues w k n i dl c s = due w k n i dl s.
Proof.
  intros C. destruct c as [|c]; [contradiction|]. cbn [dues]. clear C. induction c as [|c IH]; cbn [dues]; [reflexivity|].
  replace (due w k n i dl (due w k n i dl s)) with (due w k n i dl s); [exact IH|].
  assert (D : due w k n i dl s = s \/ swoff (due w k n i dl s) = false).
  { unfold due. destruct (swoff s && _); [right|left]; reflexivity. }
  destruct D as [D|D]; [rewrite D at 2; reflexivity|].
  unfold due at 2. rewrite D. reflexivity.
Qed.

Lemma eval1_plain w k E i s c :
  plain k = true -> c <> O ->
  eval1 w k E i s c = (due w k (now E) i (delay E) s,
    if swoff (due w k (now E) i (delay E) s) then c else O).
Proof.
  intros P C. destruct (plain_cases k P) as (P1 & P2 & _). unfold eval1.
  replace (match k with Bist => bist_eval w (now E) i s | _ => s end) with s by (destruct k; try reflexivity; contradiction).
  cbv zeta. rewrite dues_plain by exact C. rewrite fins_plain by exact P2. reflexivity.
Qed.

Lemma wait_Q2 w k d t a x :
  plain k = true -> t <= now (snd x) ->
  (target (fst x) <> Some d \/ fst x = Off d) ->
  (fst x = Eval -> now (snd x) - t <= delay (snd x)) ->
  Q2 k t a -> Q2 k t (step1 w k d a x).
Proof.
  intros P Ht T W H. destruct T as [T|T].
  2: { destruct x as (o, E). cbn in T. subst o. apply off_again_Q2; assumption. }
  destruct H as (H1 & H2 & H3 & H4 & H5 & H6).
  destruct x as (o, E). unfold step1. cbn [fst snd] in *.
  destruct o as [y|y|y|y m|y u|y m|y m|y|]; cbn [target] in T;
    try (destruct (y =? d) eqn:Ey; [apply Z.eqb_eq in Ey; subst y; exfalso; apply T; reflexivity|
         repeat split; assumption]).
  - destruct (y =? d); [|repeat split; assumption].
    pose proof (poll_core w k (now E) (ins E d) (fst a)) as C.
    unfold Q2. cbn [fst snd]. split; [exact (is_open_core _ _ _ (eq_sym C) H1)|].
    unfold core in C. injection C as _ _ _ -> -> -> -> _ _ _. repeat split; assumption.
  - specialize (W eq_refl). rewrite eval1_plain by assumption.
    assert (D : due w k (now E) (ins E d) (delay E) (fst a) = fst a).
    { unfold due. rewrite H3, H4, delta_le by lia. destruct (delay E <? now E - t) eqn:L; [lia|]. reflexivity. }
    rewrite D, H3. unfold Q2. cbn [fst snd]. repeat split; assumption.
Qed.
Lemma timely_le w t l x : timely w t l -> In x l -> t <= now (snd x) < 2 ^ w.
Proof.
  revert t. induction l as [|y l IH]; intros t H I; [destruct I|].
  destruct H as (H1 & H2). destruct I as [->|I]; [exact H1|].
  specialize (IH _ H2 I). lia.
Qed.
Lemma waits_Q2 w k d t l a :
  plain k = true -> timely w t l -> only_off d l -> within t l ->
  Q2 k t a -> Q2 k t (fold_left (step1 w k d) l a).
Proof.
  intros P T O W. assert (T' : forall x, In x l -> t <= now (snd x)) by (intros x I; apply (timely_le w t l x T I)).
  clear T. revert a. induction l as [|x l IH]; intros a H; cbn [fold_left]; [exact H|].
  inversion O; inversion W; subst. apply IH; [assumption..| |].
  - intros y I. apply T'. right. exact I.
  - apply wait_Q2; try assumption. apply T'. left. reflexivity.
Qed.

Lemma open_off k n i s : plain k = true -> is_open k s -> is_shut k (direct_off k n i s).
Proof.
  intros P H. unfold is_open, is_shut in *. destruct s as [a b c rg ts mn au sw tf mi tm st op cl].
  unfold direct_off, valve_state. cbv zeta. cbn [o0 o1 o2] in *.
  destruct k; try discriminate P; destruct a, b, c; cbn in H |- *; intuition discriminate.
Qed.

Lemma eval_shuts w k d t a E :
  plain k = true -> t <= now E -> delay E < now E - t -> Q2 k t a ->
  let a' := step1 w k d a (Eval, E) in
  is_shut k (fst a') /\ auto (fst a') = false /\ swoff (fst a') = false.
Proof.
  intros P Ht L (H1 & H2 & H3 & H4 & H5 & H6). unfold step1. cbn [fst snd]. cbv zeta.
  rewrite eval1_plain by assumption. cbn [fst]. unfold due. rewrite H3, H4, delta_le by lia.
  destruct (delay E <? now E - t) eqn:F; [|lia]. cbn [andb]. rewrite H5. cbn [wq auto swoff].
  split; [|split; reflexivity]. exact (open_off k (now E) (ins E d) (fst a) P H1).
Qed.
