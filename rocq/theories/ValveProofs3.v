(** Lemmas about valves: bottom valves, reported states, bistable valves. *)
From Coq Require Import ZArith List Bool Lia.
From Verif Require Import Base TimeModel ValveModel ValveSpec ValveProofs ValveProofs2.
Import ListNotations.
Open Scope Z_scope.

(** * Bottom valves *)

Lemma eval1_out w E i s k : k <> Bist -> eval1 w k E i s 0 = (s, O).
Proof. intros H. unfold eval1. destruct k; try contradiction; reflexivity. Qed.

(** A poll changes nothing but the time of switching, and not even that here. *)
Lemma poll_core_fields w k n i s :
  let s' := snd (get_state w k n i s) in
  o0 s' = o0 s /\ o1 s' = o1 s /\ o2 s' = o2 s /\ auto s' = auto s /\ swoff s' = swoff s /\ t_off s' = t_off s /\
  manual s' = manual s /\ mini s' = mini s /\ t_mini s' = t_mini s /\ stopped s' = stopped s.
Proof.
  cbv zeta. pose proof (poll_core w k n i s) as C. unfold core in C. injection C. intros. repeat split; assumption.
Qed.

Definition fresh (a : vst * nat) : Prop :=
  o0 (fst a) = false /\ o1 (fst a) = false /\ o2 (fst a) = false /\ auto (fst a) = false /\
  swoff (fst a) = false /\ mini (fst a) = false /\ snd a = O.
Definition b_open (a : vst * nat) : Prop :=
  o0 (fst a) = true /\ auto (fst a) = true /\ mini (fst a) = false /\ swoff (fst a) = false /\
  o1 (fst a) = true /\ o2 (fst a) = false /\ snd a = O.
Definition b_wait (t : Z) (a : vst * nat) : Prop :=
  o0 (fst a) = true /\ auto (fst a) = true /\ mini (fst a) = false /\ swoff (fst a) = true /\
  t_off (fst a) = t /\ o1 (fst a) = true /\ o2 (fst a) = false /\ snd a = 1%nat.
Definition b_stuck (a : vst * nat) : Prop :=
  o0 (fst a) = true /\ auto (fst a) = true /\ swoff (fst a) = true /\ snd a = O.
Definition b_mini (t : Z) (a : vst * nat) : Prop :=
  o0 (fst a) = false /\ o1 (fst a) = true /\ o2 (fst a) = false /\ mini (fst a) = true /\
  t_mini (fst a) = t /\ swoff (fst a) = false /\ auto (fst a) = false /\ snd a = 1%nat.

Ltac mine d T :=
  match goal with
  | |- context [?y =? d] => destruct (y =? d) eqn:?Ey;
      [apply Z.eqb_eq in Ey; subst y; try (exfalso; apply T; reflexivity)|try (repeat split; assumption)]
  end.

(** An event that is no order for [d] and no service cycle changes at most the time of
    switching. *)
Lemma foreign w k d a o E :
  target o <> Some d -> o <> Eval ->
  let a' := step1 w k d a (o, E) in
  snd a' = snd a /\ core (fst a') = core (fst a).
Proof.
  intros T N. cbv zeta. unfold step1. cbn [fst snd].
  destruct o as [y|y|y|y m|y u|y m|y m|y|]; cbn [target] in T; try contradiction;
    (destruct (y =? d) eqn:Ey; [apply Z.eqb_eq in Ey; subst y; try (exfalso; apply T; reflexivity)|split; reflexivity]).
  cbn [fst snd]. split; [reflexivity|]. apply poll_core.
Qed.
Lemma core_fields s s' : core s = core s' ->
  o0 s = o0 s' /\ o1 s = o1 s' /\ o2 s = o2 s' /\ auto s = auto s' /\ swoff s = swoff s' /\ t_off s = t_off s' /\
  manual s = manual s' /\ mini s = mini s' /\ t_mini s = t_mini s'.
Proof. unfold core. intros H. injection H. intros. repeat split; assumption. Qed.

Lemma eval_dec (o : order) : o = Eval \/ o <> Eval.
Proof. destruct o; try (right; discriminate). left. reflexivity. Qed.

Lemma man_step w k d a E m :
  let a' := step1 w k d a (Man d m, E) in
  snd a' = snd a /\ o0 (fst a') = o0 (fst a) /\ o1 (fst a') = o1 (fst a) /\ o2 (fst a') = o2 (fst a) /\
  auto (fst a') = auto (fst a) /\ swoff (fst a') = swoff (fst a) /\ t_off (fst a') = t_off (fst a) /\
  mini (fst a') = mini (fst a) /\ t_mini (fst a') = t_mini (fst a).
Proof.
  cbv zeta. unfold step1. cbn [fst snd]. rewrite Z.eqb_refl.
  destruct (m =? 0); [repeat split|]. destruct (m =? 1); repeat split.
Qed.

Lemma fresh_start d t0 : fresh (view (start t0) d).
Proof. repeat split. Qed.
Lemma fresh_quiet w k d a x :
  k <> Bist -> (target (fst x) <> Some d \/ exists n, fst x = Man d n) -> fresh a -> fresh (step1 w k d a x).
Proof.
  intros K T H. destruct x as (o, E). cbn [fst] in T.
  destruct T as [T|(m & ->)].
  2: { destruct (man_step w k d a E m) as (A & B & C & D & F & G & _ & I & J).
       destruct H as (H1 & H2 & H3 & H4 & H5 & H6 & H7). unfold fresh. rewrite A, B, C, D, F, G, I. repeat split; assumption. }
  destruct (eval_dec o) as [->|N].
  - unfold step1. cbn [fst snd]. destruct H as (H1 & H2 & H3 & H4 & H5 & H6 & H7). rewrite H7, eval1_out by exact K.
    repeat split; assumption.
  - destruct (foreign w k d a o E T N) as (A & C). apply core_fields in C. destruct C as (c1 & c2 & c3 & c4 & c5 & c6 & c7 & c8 & c9).
    unfold fresh. rewrite A, c1, c2, c3, c4, c5, c8. exact H.
Qed.
Lemma fresh_quiets w k d l a :
  k <> Bist -> Forall (fun x => target (fst x) <> Some d \/ exists n, fst x = Man d n) l ->
  fresh a -> fresh (fold_left (step1 w k d) l a).
Proof.
  intros K H. revert a. induction H as [|x l Hx H IH]; intros a F; cbn [fold_left]; [exact F|].
  apply IH, fresh_quiet; assumption.
Qed.

Lemma fresh_on w d a E : manual (fst a) = false -> fresh a -> b_open (step1 w Bottom d a (On d, E)).
Proof.
  intros M (H1 & H2 & H3 & H4 & H5 & H6 & H7). unfold step1. cbn [fst snd]. rewrite Z.eqb_refl.
  unfold on. cbv zeta. cbn [wq manual]. rewrite M. unfold direct_on. cbv zeta. cbn [w2 wq o0]. rewrite H1.
  unfold b_open. cbn. repeat split; assumption.
Qed.
Lemma b_open_quiet w d a x : target (fst x) <> Some d -> b_open a -> b_open (step1 w Bottom d a x).
Proof.
  intros T H. destruct x as (o, E). cbn [fst] in T. destruct (eval_dec o) as [->|N].
  - unfold step1. cbn [fst snd]. destruct H as (H1 & H2 & H3 & H4 & H5 & H6 & H7). rewrite H7, eval1_out by discriminate.
    repeat split; assumption.
  - destruct (foreign w Bottom d a o E T N) as (A & C). apply core_fields in C. destruct C as (c1 & c2 & c3 & c4 & c5 & c6 & c7 & c8 & c9).
    unfold b_open. rewrite A, c1, c2, c3, c4, c5, c8. exact H.
Qed.
Lemma b_open_quiets w d l a : quiet d l -> b_open a -> b_open (fold_left (step1 w Bottom d) l a).
Proof.
  intros H. revert a. induction H as [|x l Hx H IH]; intros a F; cbn [fold_left]; [exact F|].
  apply IH, b_open_quiet; assumption.
Qed.
Lemma b_open_off w d a E : b_open a -> b_wait (now E) (step1 w Bottom d a (Off d, E)).
Proof.
  intros (H1 & H2 & H3 & H4 & H5 & H6 & H7). unfold step1. cbn [fst snd]. rewrite Z.eqb_refl.
  unfold off. cbv zeta. cbn [valve_state]. rewrite H1, H2, H4, H7. cbn [negb andb orb b2z].
  change (1 =? V_UPPER) with false. change (1 =? V_LOWER) with false. cbn [orb fst snd].
  unfold b_wait. cbn [fst snd wq o0 auto mini swoff t_off o1 o2]. repeat split; assumption.
Qed.
Lemma off_noop w d a E :
  o0 (fst a) = true -> auto (fst a) = true -> swoff (fst a) = true -> step1 w Bottom d a (Off d, E) = a.
Proof.
  intros H1 H2 H4. unfold step1. cbn [fst snd]. rewrite Z.eqb_refl.
  unfold off. cbv zeta. cbn [valve_state]. rewrite H1, H2, H4. cbn [negb andb orb b2z].
  change (1 =? V_UPPER) with false. change (1 =? V_LOWER) with false. cbn [orb fst snd]. destruct a; reflexivity.
Qed.
Lemma b_wait_step w d t a x :
  (target (fst x) <> Some d \/ fst x = Off d \/ exists n, fst x = Man d n) -> fst x <> Eval ->
  b_wait t a -> b_wait t (step1 w Bottom d a x).
Proof.
  intros T N H. pose proof H as (H1 & H2 & H3 & H4 & H5 & H6 & H7 & H8). destruct x as (o, E). cbn [fst] in *.
  destruct T as [T|[->|(m & ->)]].
  - destruct (foreign w Bottom d a o E T N) as (A & C). apply core_fields in C. destruct C as (c1 & c2 & c3 & c4 & c5 & c6 & c7 & c8 & c9).
    unfold b_wait. rewrite A, c1, c2, c3, c4, c5, c6, c8. exact H.
  - rewrite off_noop by assumption. exact H.
  - destruct (man_step w Bottom d a E m) as (A & B & C & D & F & G & G' & I & J).
    unfold b_wait. rewrite A, B, C, D, F, G, G', I. exact H.
Qed.
Lemma b_wait_steps w d t l a :
  only_off_man d l -> no_cycle l -> b_wait t a -> b_wait t (fold_left (step1 w Bottom d) l a).
Proof.
  intros H. revert a. induction H as [|x l Hx H IH]; intros a C F; cbn [fold_left]; [exact F|].
  inversion C; subst. apply IH; [assumption|]. apply b_wait_step; assumption.
Qed.
Lemma b_wait_early w d t a E :
  t <= now E -> now E - t <= delay E -> b_wait t a -> b_stuck (step1 w Bottom d a (Eval, E)).
Proof.
  intros L1 L2 (H1 & H2 & H3 & H4 & H5 & H6 & H7 & H8). unfold step1. cbn [fst snd]. rewrite H8.
  unfold eval1. cbv zeta. cbn [dues]. unfold due. rewrite H4, H5, delta_le by lia.
  destruct (delay E <? now E - t) eqn:F; [lia|]. cbn [andb fins finished]. rewrite H3. cbn [negb fst snd].
  unfold b_stuck. cbn [fst snd]. repeat split; assumption.
Qed.
Lemma b_stuck_step w d a x :
  (target (fst x) <> Some d \/ fst x = Off d \/ exists n, fst x = Man d n) ->
  b_stuck a -> b_stuck (step1 w Bottom d a x).
Proof.
  intros T H. pose proof H as (H1 & H2 & H3 & H4). destruct x as (o, E). cbn [fst] in *.
  destruct T as [T|[->|(m & ->)]].
  - destruct (eval_dec o) as [->|N].
    + unfold step1. cbn [fst snd]. rewrite H4, eval1_out by discriminate. repeat split; assumption.
    + destruct (foreign w Bottom d a o E T N) as (A & C). apply core_fields in C. destruct C as (c1 & c2 & c3 & c4 & c5 & c6 & c7 & c8 & c9).
      unfold b_stuck. rewrite A, c1, c4, c5. exact H.
  - rewrite off_noop by assumption. exact H.
  - destruct (man_step w Bottom d a E m) as (A & B & C & D & F & G & G' & I & J).
    unfold b_stuck. rewrite A, B, F, G. exact H.
Qed.
Lemma b_stuck_steps w d l a : only_off_man d l -> b_stuck a -> b_stuck (fold_left (step1 w Bottom d) l a).
Proof.
  intros H. revert a. induction H as [|x l Hx H IH]; intros a F; cbn [fold_left]; [exact F|].
  apply IH, b_stuck_step; assumption.
Qed.
Lemma b_wait_late w d t a E :
  t <= now E -> delay E < now E - t -> 0 <= mdelay E -> manual (fst a) = false -> b_wait t a ->
  b_mini (now E) (step1 w Bottom d a (Eval, E)).
Proof.
  intros L1 L2 L3 M (H1 & H2 & H3 & H4 & H5 & H6 & H7 & H8). unfold step1. cbn [fst snd]. rewrite H8.
  unfold eval1. cbv zeta. cbn [dues]. unfold due. rewrite H4, H5, delta_le by lia.
  destruct (delay E <? now E - t) eqn:F; [|lia]. cbn [andb]. rewrite M.
  destruct (fst a) as [p q c rg ts mn au sw tf mi tm st op cl]. cbn [o0 o1 o2 auto mini swoff t_off manual] in *. subst.
  cbn [fins finished direct_off valve_state o0 o1 o2 negb andb b2z]. change (1 =? V_LOWER) with false.
  cbv zeta. cbn [w0 w1 w2 wt wmini wq o0 o1 o2 mini t_mini t_off negb andb fst snd].
  rewrite delta_le by lia. destruct (mdelay E <? now E - now E) eqn:G; [lia|].
  cbn [fst snd]. unfold b_mini. cbn. repeat split.
Qed.
Lemma b_mini_step w d t a x :
  t <= now (snd x) -> (target (fst x) <> Some d \/ fst x = Off d) ->
  (fst x = Eval -> now (snd x) - t <= mdelay (snd x)) ->
  b_mini t a -> b_mini t (step1 w Bottom d a x).
Proof.
  intros Ht T W H. pose proof H as (H1 & H2 & H3 & H4 & H5 & H6 & H7 & H8). destruct x as (o, E). cbn [fst snd] in *.
  destruct T as [T| ->].
  - destruct (eval_dec o) as [->|N].
    + specialize (W eq_refl). unfold step1. cbn [fst snd]. rewrite H8. unfold eval1. cbv zeta. cbn [dues fins finished].
      unfold due. rewrite H6. cbn [andb]. rewrite H4, H5, delta_le by lia. cbn [negb].
      destruct (mdelay E <? now E - t) eqn:F; [lia|]. cbn [fst snd]. repeat split; assumption.
    + destruct (foreign w Bottom d a o E T N) as (A & C). apply core_fields in C. destruct C as (c1 & c2 & c3 & c4 & c5 & c6 & c7 & c8 & c9).
      unfold b_mini. rewrite A, c1, c2, c3, c4, c5, c8, c9. exact H.
  - unfold step1. cbn [fst snd]. rewrite Z.eqb_refl. unfold off. cbv zeta. rewrite H7. cbn [negb orb].
    cbn [fst snd]. destruct (manual (fst a)); [exact H|].
    unfold direct_off. cbn [valve_state]. rewrite H1, H2. cbn [negb andb]. change (V_UPPER =? V_LOWER) with false.
    cbv zeta. cbv iota. rewrite H1, H2, H4. cbn [negb andb]. exact H.
Qed.
Lemma b_mini_steps w d t l a :
  timely w t l -> only_off d l -> Forall (fun x => fst x = Eval -> now (snd x) - t <= mdelay (snd x)) l ->
  b_mini t a -> b_mini t (fold_left (step1 w Bottom d) l a).
Proof.
  intros T O W. assert (T' : forall x, In x l -> t <= now (snd x)) by (intros x I; apply (timely_le w t l x T I)).
  clear T. revert a. induction l as [|x l IH]; intros a H; cbn [fold_left]; [exact H|].
  inversion O; inversion W; subst. apply IH; [assumption..| |].
  - intros y I. apply T'. right. exact I.
  - apply b_mini_step; try assumption. apply T'. left. reflexivity.
Qed.
Lemma b_mini_end w d t a E :
  t <= now E -> mdelay E < now E - t -> b_mini t a ->
  outputs (fst (step1 w Bottom d a (Eval, E))) = (false, false, false).
Proof.
  intros L1 L2 (H1 & H2 & H3 & H4 & H5 & H6 & H7 & H8). unfold step1. cbn [fst snd]. rewrite H8.
  unfold eval1. cbv zeta. cbn [dues fins finished]. unfold due. rewrite H6. cbn [andb].
  rewrite H4, H5, delta_le by lia. cbn [negb]. destruct (mdelay E <? now E - t) eqn:F; [|lia].
  destruct (fst a) as [p q c rg ts mn au sw tf mi tm st op cl]. cbn [o0 o1 o2 auto mini t_mini swoff t_off manual] in *. subst.
  reflexivity.
Qed.
(** Opened again while the small valve closes. *)
Definition b_again (t : Z) (a : vst * nat) : Prop :=
  o0 (fst a) = true /\ o1 (fst a) = true /\ mini (fst a) = true /\ t_mini (fst a) = t /\
  swoff (fst a) = false /\ snd a = 1%nat.
Lemma b_mini_on w d t a E : manual (fst a) = false -> b_mini t a -> b_again t (step1 w Bottom d a (On d, E)).
Proof.
  intros M (H1 & H2 & H3 & H4 & H5 & H6 & H7 & H8). unfold step1. cbn [fst snd]. rewrite Z.eqb_refl.
  unfold on. cbv zeta. cbn [wq manual]. rewrite M. unfold direct_on. cbv zeta. cbn [w2 wq o0]. rewrite H1.
  unfold b_again. cbn. repeat split; assumption.
Qed.
Lemma b_again_step w d t a x :
  t <= now (snd x) -> target (fst x) <> Some d ->
  (fst x = Eval -> now (snd x) - t <= mdelay (snd x)) ->
  b_again t a -> b_again t (step1 w Bottom d a x).
Proof.
  intros Ht T W H. pose proof H as (H1 & H2 & H3 & H4 & H5 & H6). destruct x as (o, E). cbn [fst snd] in *.
  destruct (eval_dec o) as [->|N].
  - specialize (W eq_refl). unfold step1. cbn [fst snd]. rewrite H6. unfold eval1. cbv zeta. cbn [dues fins finished].
    unfold due. rewrite H5. cbn [andb]. rewrite H3, H4, delta_le by lia. cbn [negb].
    destruct (mdelay E <? now E - t) eqn:F; [lia|]. cbn [fst snd]. repeat split; assumption.
  - destruct (foreign w Bottom d a o E T N) as (A & C). apply core_fields in C. destruct C as (c1 & c2 & c3 & c4 & c5 & c6 & c7 & c8 & c9).
    unfold b_again. rewrite A, c1, c2, c5, c8, c9. exact H.
Qed.
Lemma b_again_steps w d t l a :
  timely w t l -> quiet d l -> Forall (fun x => fst x = Eval -> now (snd x) - t <= mdelay (snd x)) l ->
  b_again t a -> b_again t (fold_left (step1 w Bottom d) l a).
Proof.
  intros T O W. assert (T' : forall x, In x l -> t <= now (snd x)) by (intros x I; apply (timely_le w t l x T I)).
  clear T. revert a. induction l as [|x l IH]; intros a H; cbn [fold_left]; [exact H|].
  inversion O; inversion W; subst. apply IH; [assumption..| |].
  - intros y I. apply T'. right. exact I.
  - apply b_again_step; try assumption. apply T'. left. reflexivity.
Qed.
(** The small valve left open with nobody to close it. *)
Definition b_left (a : vst * nat) : Prop :=
  o0 (fst a) = false /\ o1 (fst a) = true /\ mini (fst a) = true /\ snd a = O.
Lemma b_again_end w d t a E :
  t <= now E -> mdelay E < now E - t -> b_again t a -> b_left (step1 w Bottom d a (Eval, E)).
Proof.
  intros L1 L2 (H1 & H2 & H3 & H4 & H5 & H6). unfold step1. cbn [fst snd]. rewrite H6.
  unfold eval1. cbv zeta. cbn [dues fins finished]. unfold due. rewrite H5. cbn [andb].
  rewrite H3, H4, delta_le by lia. cbn [negb]. destruct (mdelay E <? now E - t) eqn:F; [|lia].
  destruct (fst a) as [p q c rg ts mn au sw tf mi tm st op cl]. cbn [o0 o1 o2 auto mini t_mini swoff t_off manual] in *. subst.
  unfold b_left. cbn. repeat split.
Qed.
Lemma b_left_step w d a x :
  (target (fst x) <> Some d \/ fst x = Off d \/ exists n, fst x = Man d n) ->
  b_left a -> b_left (step1 w Bottom d a x).
Proof.
  intros T H. pose proof H as (H1 & H2 & H3 & H4). destruct x as (o, E). cbn [fst] in *.
  destruct T as [T|[->|(m & ->)]].
  - destruct (eval_dec o) as [->|N].
    + unfold step1. cbn [fst snd]. rewrite H4, eval1_out by discriminate. repeat split; assumption.
    + destruct (foreign w Bottom d a o E T N) as (A & C). apply core_fields in C. destruct C as (c1 & c2 & c3 & c4 & c5 & c6 & c7 & c8 & c9).
      unfold b_left. rewrite A, c1, c2, c8. exact H.
  - unfold step1. cbn [fst snd]. rewrite Z.eqb_refl. unfold off. cbv zeta. cbn [valve_state]. rewrite H1, H2. cbn [negb andb].
    change (V_UPPER =? V_UPPER) with true. rewrite orb_true_r. cbn [orb fst snd]. destruct (manual (fst a)); [exact H|].
    unfold direct_off. cbn [valve_state]. rewrite H1, H2. cbn [negb andb]. change (V_UPPER =? V_LOWER) with false.
    cbv zeta. cbv iota. rewrite H1, H2, H3. cbn [negb andb]. exact H.
  - destruct (man_step w Bottom d a E m) as (A & B & C & D & F & G & G' & I & J).
    unfold b_left. rewrite A, B, C, I. exact H.
Qed.
Lemma b_left_steps w d l a : only_off_man d l -> b_left a -> b_left (fold_left (step1 w Bottom d) l a).
Proof.
  intros H. revert a. induction H as [|x l Hx H IH]; intros a F; cbn [fold_left]; [exact F|].
  apply IH, b_left_step; assumption.
Qed.
Lemma b_open_direct w d a x E :
  (x = Instant d /\ manual (fst a) = false) \/ x = Cmd d 0 -> b_open a -> b_left (step1 w Bottom d a (x, E)).
Proof.
  intros X (H1 & H2 & H3 & H4 & H5 & H6 & H7).
  assert (F : b_left (direct_off Bottom (now E) (ins E d) (fst a), snd a)).
  { destruct (fst a) as [p q c rg ts mn au sw tf mi tm st op cl]. cbn [o0 o1 o2 auto mini t_mini swoff t_off manual] in *. subst.
    unfold b_left. cbn. repeat split. assumption. }
  destruct X as [(-> & M)| ->]; unfold step1; cbn [fst snd]; rewrite Z.eqb_refl; [|exact F].
  unfold instant_off. rewrite M. exact F.
Qed.
