(** Proofs about the washing sequencer: whole histories of one line. *)
From Coq Require Import ZArith List Bool Lia.
From Verif Require Import CipModel CipSpec CipProofs.
Import ListNotations.
Open Scope Z_scope.

Lemma inits_app : forall a b, inits (a ++ b) = inits a ++ inits b.
Proof. intros. apply flat_map_app. Qed.
Lemma inits_init : forall l, inits (init_step false l) = if step l =? 0 then [] else [step l].
Proof. intros. unfold init_step, inits. cbn. destruct (step l =? 0), (step l =? 555); reflexivity. Qed.
Lemma inits_again : forall l, inits (init_step true l) = [].
Proof. intros. unfold init_step, inits. cbn. destruct (step l =? 555); reflexivity. Qed.

Lemma begun_ext : forall o p nr l m k, step m = step l -> stage m = stage l -> begun o p nr l k -> begun o p nr m k.
Proof. intros o p nr l m k S T. unfold begun, inside. rewrite S, T. exact (fun H => H). Qed.
Lemma loc_ext : forall o p nr l m k, step m = step l -> stage m = stage l -> prog m = prog l -> norinse m = norinse l ->
  (locked l = true \/ state l = 0 -> step l = 0 -> locked m = true \/ state m = 0) ->
  ((state l = 0 -> step l = 0) -> state m = 0 -> step m = 0) -> loc o p nr l k -> loc o p nr m k.
Proof.
  intros o p nr l m k S T P N Q Q2 [(A & B & C & D)|(A & B & C & D)].
  - left. rewrite P, N. split; [exact A|]. split; [exact B|]. split; [exact (begun_ext _ _ _ l m k S T C)|exact (Q2 D)].
  - right. rewrite S, P. repeat split; auto.
Qed.

Ltac lext l := match goal with L : loc ?o ?p ?nr l ?k |- loc ?o ?p ?nr ?m ?k => refine (loc_ext o p nr l m k _ _ _ _ _ _ L); [reflexivity|reflexivity|reflexivity|reflexivity| | ] end.

Lemma lock_same : forall l, step (eval_lock l) = step l /\ stage (eval_lock l) = stage l /\ prog (eval_lock l) = prog l
  /\ norinse (eval_lock l) = norinse l /\ selprg (eval_lock l) = selprg l /\ selrec (eval_lock l) = selrec l /\ recipe (eval_lock l) = recipe l
  /\ conflict (eval_lock l) = conflict l /\ (cmd (eval_lock l) = cmd l \/ cmd (eval_lock l) = 0)
  /\ aborted (eval_lock l) = aborted l /\ isreset (eval_lock l) = isreset l.
Proof.
  intros l. unfold eval_lock. destruct (cmd l =? LOCK); [cbn; repeat split; auto|].
  destruct (cmd l =? UNLOCK); cbn; repeat split; auto.
Qed.
Lemma lock_state : forall l, 0 <= step l ->
  (locked l = true \/ state l = 0 -> step l = 0 -> locked (eval_lock l) = true \/ state (eval_lock l) = 0)
  /\ ((state l = 0 -> step l = 0) -> state (eval_lock l) = 0 -> step (eval_lock l) = 0).
Proof.
  intros l N. unfold eval_lock. destruct (cmd l =? LOCK); [cbn; auto|].
  destruct (cmd l =? UNLOCK); [|cbn; auto]. cbn -[Z.ltb]. split.
  - intros _ E. rewrite E. right. reflexivity.
  - intros _. destruct (Z.ltb_spec 0 (step l)); lia.
Qed.
Lemma rec_same : forall l, selprg l <= 0 -> step (eval_recipes l) = step l /\ stage (eval_recipes l) = stage l
  /\ prog (eval_recipes l) = prog l /\ norinse (eval_recipes l) = norinse l /\ selprg (eval_recipes l) = selprg l
  /\ locked (eval_recipes l) = locked l /\ state (eval_recipes l) = state l /\ cmd (eval_recipes l) = cmd l.
Proof.
  intros l H. unfold eval_recipes. destruct (0 <? selrec l); cbn -[Z.ltb];
    replace (0 <? selprg l) with false by (symmetry; apply Z.ltb_ge; lia); cbn; repeat split; reflexivity.
Qed.

(** The steps of the blocks are positive. *)
Lemma block_pos : forall o p nr b cur, In cur (block o p nr b) -> 0 < cur < 555.
Proof.
  assert (F : forall o p nr b, Forall (fun x => 0 < x < 555) (block o p nr b)).
  { intros o p nr b. assert (U : forall xs, forallb (fun x => (0 <? x) && (x <? 555)) xs = true -> Forall (fun x => 0 < x < 555) xs).
    { intros xs. rewrite forallb_forall, Forall_forall. intros H x I. specialize (H x I). apply andb_prop in H.
      rewrite Z.ltb_lt, Z.ltb_lt in H. exact H. }
    apply U. destruct o as [cs ck vs vk vw].
    destruct b as [|b|b]; [|do 4 (try (destruct b as [b|b|]; try reflexivity))|reflexivity]; cbn -[Z.testbit];
      repeat match goal with |- context [if ?x then _ else _] => destruct x end; reflexivity. }
  intros o p nr b cur I. specialize (F o p nr b). rewrite Forall_forall in F. apply F. exact I.
Qed.
Lemma begun_pos : forall o p nr l k, begun o p nr l k -> 0 <= step l.
Proof.
  intros o p nr l k [(Z0 & _)|[(Z5 & _)|(b & cur & B & _ & I & _ & P)]]; [lia|lia|].
  apply block_pos in I. destruct P as [[-> _]|[(_ & [-> | ->] & _)|(_ & [-> | ->] & _)]]; lia.
Qed.
Lemma loc_pos : forall o p nr l k, loc o p nr l k -> 0 <= step l.
Proof. intros o p nr l k [(_ & _ & B & _)|(Z0 & _)]; [exact (begun_pos _ _ _ _ _ B)|lia]. Qed.
Lemma inside_pos : forall o p nr l k, inside o p nr l k -> 0 < step l.
Proof.
  intros o p nr l k (b & cur & B & _ & I & _ & P).
  apply block_pos in I. destruct P as [[-> _]|[(_ & [-> | ->] & _)|(_ & [-> | ->] & _)]]; lia.
Qed.

(** One cycle without a command to reset keeps the place in the program. *)
Lemma command_loc : forall o p nr i l k, loc o p nr l k -> cmd l <> 4 -> locked l = false ->
  loc o p nr (fst (eval_command o i l)) (fold_left visit (inits (snd (eval_command o i l))) k)
  /\ selprg (fst (eval_command o i l)) = selprg l.
Proof.
  intros o p nr i l k L C U. unfold eval_command.
  destruct (cmd l =? NEXT).
  { destruct (negb (state l =? 0) && negb (step l =? 555)) eqn:E; [|split; [exact L|reflexivity]].
    apply andb_prop in E. destruct E as [E1 E2]. apply negb_true_iff in E1, E2. apply Z.eqb_neq in E1, E2.
    cbn [fst snd]. rewrite inits_init. destruct (goto_prog o 0 l) as (gp & gn & _ & _ & gs & _).
    destruct L as [(A & B & D & _)|(A & B & [D|D] & F)]; [|congruence|congruence].
    destruct (goto_begun o p nr l k 0 A B D E2) as [G G0]. change (step (set_state 1 (goto_step o 0 l))) with (step (goto_step o 0 l)).
    replace (step (goto_step o 0 l) =? 0) with false by (symmetry; apply Z.eqb_neq; exact G0). cbn [fold_left].
    split; [|exact gs]. left. cbn [prog norinse set_state state]. rewrite gp, gn. split; [exact A|]. split; [exact B|].
    split; [exact (begun_ext _ _ _ (goto_step o 0 l) _ _ eq_refl eq_refl G)|lia]. }
  destruct (cmd l =? PAUSE).
  { destruct ((0 <? state l) && negb (step l =? 555)) eqn:E; [|split; [exact L|reflexivity]]. cbn [fst snd stop]. cbn.
    split; [|reflexivity]. apply andb_prop in E. destruct E as [E1 _]. apply Z.ltb_lt in E1.
    lext l; cbn; [intros [Q|Q]; [congruence|lia]|lia]. }
  destruct (cmd l =? RESET) eqn:R; [apply Z.eqb_eq in R; contradiction|].
  destruct (cmd l =? EVALUATE); [|split; [exact L|reflexivity]].
  destruct (state l <? 0) eqn:E.
  { apply Z.ltb_lt in E.
    assert (X : forall s, s <> 0 -> loc o p nr (set_state s l) k).
    { intros s N. lext l; cbn; [intros [Q|Q]; [congruence|lia]|lia]. }
    destruct (conflict l); [split; [exact L|reflexivity]|].
    destruct (negb (i_ready i)); [split; [apply X; lia|reflexivity]|].
    destruct (state l =? -32); [split; [exact L|reflexivity]|].
    cbn [fst snd]. rewrite inits_again. split; [apply X; lia|reflexivity]. }
  destruct ((state l =? 0) && ((0 <=? recipe l) || (256 <=? prog l)) && (0 <? prog l)) eqn:G; [|split; [exact L|reflexivity]].
  apply andb_prop in G. destruct G as [G0 G]. apply Z.ltb_lt in G. apply andb_prop in G0. destruct G0 as [G0 _]. apply Z.eqb_eq in G0.
  destruct L as [(A & B & D & S0)|(_ & B & _)]; [|lia]. specialize (S0 G0).
  assert (X : forall s, loc o p nr (set_state s (set_conflict (i_conf i) (set_abort false (isreset l) l))) k).
  { intros s. left. split; [exact A|]. split; [exact B|]. split; [exact D|]. intros _. exact S0. }
  destruct (i_conf i); [split; [apply X|reflexivity]|].
  destruct (negb (i_ready i)); [split; [apply X|reflexivity]|].
  destruct (i_acid i && _ && _); [split; [apply X|reflexivity]|].
  cbn [fst snd]. split; [|reflexivity].
  change (inits (RecOn (recipe l) :: ?r)) with (inits r). rewrite inits_init.
  change (step (set_state 1 (set_conflict false (set_abort false (isreset l) l)))) with (step l). rewrite S0. cbn [Z.eqb fold_left]. apply X.
Qed.

(** The next step is another one. *)
Lemma first_other : forall o p nr b cur l b', 0 <= b < 12 -> In cur (block o p nr b) -> after cur (block o p nr b) = [] ->
  b' < b -> first_step l b' <> cur.
Proof.
  intros o p nr b cur l b' H I A LT. apply twelve in H. destruct o as [cs ck vs vk vw].
  assert (F : In (first_step l b') [5; 10; 22; 42; 61; 71; 83; 81; 105; 115; 151; 555] \/ (b' = 0 /\ first_step l b' = 91) \/ (b' = 10 /\ first_step l b' = 300)).
  { unfold first_step. repeat match goal with |- context [if ?x then _ else _] => let E := fresh "E" in destruct x eqn:E; try rewrite Z.eqb_eq in E end;
      try (left; cbn; tauto); [right; left; split; [assumption|reflexivity]|right; right; split; [assumption|reflexivity]]. }
  assert (L : In cur [16; 9; 15; 40; 60; 67; 79; 111; 121; 188] \/ (b = 0 /\ cur = 91) \/ (b = 10 /\ cur = 300)).
  { destruct H as [->|[->|[->|[->|[->|[->|[->|[->|[->|[->|[->| ->]]]]]]]]]]]; cbn [block circ_s circ_k vol_s vol_k vol_w] in *;
    repeat match goal with
    | I : context [if ?x then _ else _] |- _ => destruct x; cbn [app] in *
    end; cbn [app] in I, A; cbn [In] in I; repeat (destruct I as [<-|I]); try contradiction;
    try discriminate A; try (left; cbn; tauto); try (right; left; split; reflexivity); try (right; right; split; reflexivity). }
  intros E. destruct F as [F|[(F1 & F2)|(F1 & F2)]]; destruct L as [L|[(L1 & L2)|(L1 & L2)]]; cbn [In] in *; lia.
Qed.
Lemma goto_moves : forall o p nr l k a, prog l = p -> norinse l = nr -> begun o p nr l k -> step l <> 555 ->
  step (goto_step o a l) <> step l.
Proof.
  intros o p nr l k a P N D NE. destruct (goto_begun o p nr l k a P N D NE) as [_ G0].
  destruct D as [(Z0 & _)|[(Z5 & _)|(b & cur & B & SB & I & _ & PL)]]; [congruence|congruence|].
  pose proof (succ_block o p nr (Z.of_nat b) cur a ltac:(lia) I) as S. revert S. unfold goto_step. rewrite P.
  destruct PL as [[-> _]|[(-> & [st|st] & _)|(-> & [st|st] & _)]]; try (rewrite st; cbn; intros _; lia).
  destruct (succ_step o p (step l) a) as [n|] eqn:SU.
  - cbn [step set_step]. intros [(C & -> & _)|[(C & -> & _)|(A & IN & _)]]; [lia|lia|]. intros ->.
    clear - A. revert A. generalize (after (step l) (block o p nr (Z.of_nat b))). intros xs A.
    apply (f_equal (@length Z)) in A. cbn in A. lia.
  - intros A. unfold load_program. cbn [step set_step]. rewrite SB.
    assert (LT : next_prg (Z.of_nat b) (prog l) < Z.of_nat b).
    { unfold next_prg. replace (Z.of_nat b <? 0) with false by (symmetry; apply Z.ltb_ge; lia).
      destruct ((0 <=? Z.of_nat b - 1) && (Z.of_nat b - 1 <? 16)); [|lia].
      destruct (scan_cases o (prog l) nr (Z.to_nat (Z.of_nat b - 1 + 1))) as [[-> _]|(j & J & -> & _)]; lia. }
    exact (first_other o p nr (Z.of_nat b) (step l) l _ ltac:(lia) I A LT).
Qed.

Lemma progress_loc : forall o p nr i l k, loc o p nr l k -> 0 < state l -> locked l = false -> selprg l <= 0 ->
  loc o p nr (fst (in_progress o i l)) (fold_left visit (inits (snd (in_progress o i l))) k)
  /\ selprg (fst (in_progress o i l)) <= 0.
Proof.
  intros o p nr i l k L ST U SP. destruct L as [(A & B & D & S0)|(_ & _ & [Q|Q] & _)]; [|congruence|lia].
  unfold in_progress. destruct (step l =? 555) eqn:E.
  { apply Z.eqb_eq in E. destruct (i_delay i && _).
    - cbn [fst snd finish]. split; [|cbn; lia].
      assert (K : k = (false, plan o p nr ++ [555])).
      { destruct D as [(Q & _)|[(_ & Q)|D]]; [lia|exact Q|]. destruct D as (b & cur & _ & _ & I & _ & P). apply block_pos in I.
        destruct P as [[P _]|[(_ & P & _)|(_ & P & _)]]; lia. }
      rewrite K. right. cbn. destruct (conflict l); cbn; repeat split; auto.
    - cbn. split; [|exact SP]. left. split; [exact A|]. split; [exact B|]. split; [exact D|exact S0]. }
  apply Z.eqb_neq in E. destruct (0 <? i_do i).
  { destruct (goto_begun o p nr l k (i_do i) A B D E) as [G G0].
    destruct (goto_prog o (i_do i) l) as (gp & gn & gst & _ & gs & _).
    assert (L' : loc o p nr (goto_step o (i_do i) l) (visit k (step (goto_step o (i_do i) l)))).
    { left. rewrite gp, gn, gst. split; [exact A|]. split; [exact B|]. split; [exact G|lia]. }
    destruct (negb (step (goto_step o (i_do i) l) =? step l)) eqn:NE.
    - cbn [fst snd]. change (inits (Do (step l) :: ?r)) with (inits r). rewrite inits_init.
      replace (step (goto_step o (i_do i) l) =? 0) with false by (symmetry; apply Z.eqb_neq; exact G0). cbn [fold_left].
      split; [exact L'|rewrite gs; exact SP].
    - exfalso. apply negb_false_iff in NE. apply Z.eqb_eq in NE. exact (goto_moves o p nr l k _ A B D E NE). }
  destruct (i_do i <? 0) eqn:NG.
  { apply Z.ltb_lt in NG. cbn. split; [|exact SP]. left. cbn. split; [exact A|]. split; [exact B|]. split; [exact D|lia]. }
  cbn. split; [|exact SP]. left. split; [exact A|]. split; [exact B|]. split; [exact D|exact S0].
Qed.

Lemma cycle_loc : forall o p nr i l k, loc o p nr l k -> cmd l <> 4 -> selprg l <= 0 ->
  loc o p nr (fst (cycle o i l)) (fold_left visit (inits (snd (cycle o i l))) k)
  /\ selprg (fst (cycle o i l)) <= 0 /\ cmd (fst (cycle o i l)) <> 4.
Proof.
  intros o p nr i l k L C SP. unfold cycle.
  destruct (lock_same l) as (l1 & l2 & l3 & l4 & l5 & _ & _ & _ & l6 & _).
  destruct (lock_state l (loc_pos _ _ _ _ _ L)) as [l7 l8].
  assert (L0 : loc o p nr (eval_lock l) k) by (exact (loc_ext _ _ _ l _ _ l1 l2 l3 l4 l7 l8 L)).
  assert (C0 : cmd (eval_lock l) <> 4) by (destruct l6 as [-> | ->]; [exact C|lia]).
  assert (SP0 : selprg (eval_lock l) <= 0) by (rewrite l5; exact SP). clear l1 l2 l3 l4 l5 l6 l7 l8 L.
  revert L0 C0 SP0. generalize (eval_lock l). clear. intros l L C SP.
  destruct (locked l) eqn:U.
  { cbn [fst snd]. rewrite inits_app. replace (inits (if 0 <? state l then snd (stop l) else [])) with (@nil Z) by (destruct (0 <? state l); reflexivity).
    cbn. split; [|split; [exact SP|lia]].
    lext l; cbn; [intros _ _; left; exact U|lia]. }
  destruct (rec_same l SP) as (r1 & r2 & r3 & r4 & r5 & r6 & r7 & r8).
  assert (L0 : loc o p nr (eval_recipes l) k).
  { refine (loc_ext _ _ _ l _ _ r1 r2 r3 r4 _ _ L); [rewrite r6, r7; auto|rewrite r7, r1; auto]. }
  rewrite <- r6 in U. rewrite <- r5 in SP. rewrite <- r8 in C. clear r1 r2 r3 r4 r5 r6 r7 r8 L.
  revert L0 U SP C. generalize (eval_recipes l). clear. intros l L U SP C.
  destruct (cmd l =? 0) eqn:C0; cbn [negb].
  - destruct (Z.ltb_spec 0 (state l)) as [P|P].
    + destruct (progress_loc o p nr i l k L P U SP) as [A B]. split; [exact A|]. split; [exact B|].
      unfold in_progress. apply Z.eqb_eq in C0.
      destruct (goto_prog o (i_do i) l) as (_ & _ & _ & _ & _ & gc & _).
      destruct (step l =? 555); [destruct (i_delay i && _); cbn; lia|].
      destruct (0 <? i_do i); [destruct (negb _); cbn [fst]; lia|]. destruct (i_do i <? 0); cbn; lia.
    + destruct (state l <? 0) eqn:NG; [|cbn; repeat split; auto].
      apply Z.ltb_lt in NG. unfold in_error. destruct (i_resume i && _); [|cbn; repeat split; auto].
      cbn [fst snd]. rewrite inits_again. cbn. split; [|split; assumption].
      lext l; cbn; [intros [Q|Q]; [congruence|lia]|lia].
  - cbn [fst snd]. destruct (command_loc o p nr i l k L C U) as [A B]. cbn. split; [|split; [lia|lia]].
    lext (fst (eval_command o i l)); auto.
Qed.

Lemma run_loc : forall o p nr es l k, loc o p nr l k -> cmd l <> 4 -> selprg l <= 0 -> Forall keeps_program es ->
  loc o p nr (fst (run o l es)) (fold_left visit (inits (snd (run o l es))) k).
Proof.
  intros o p nr es. induction es as [|e r IH]; intros l k L C SP F; [exact L|].
  inversion F as [|? ? K F']; subst. cbn [run fst snd]. rewrite inits_app, fold_left_app.
  assert (X : loc o p nr (fst (step_ev o l e)) (fold_left visit (inits (snd (step_ev o l e))) k)
              /\ selprg (fst (step_ev o l e)) <= 0 /\ cmd (fst (step_ev o l e)) <> 4).
  { destruct e as [n|n|n|n|i]; cbn [step_ev keeps_program] in *; try contradiction; cbn.
    - split; [|split; assumption]. lext l; auto.
    - split; [|split; assumption]. lext l; auto.
    - exact (cycle_loc o p nr i l k L C SP). }
  destruct X as (A & B & D). exact (IH _ _ A D B F').
Qed.
Lemma loc_prefix : forall o p nr l k, loc o p nr l k -> exists rest, snd k ++ rest = plan o p nr ++ [555].
Proof.
  intros o p nr l [sk kp] [(_ & _ & [(_ & _ & E)|[(_ & E)|(b & cur & _ & _ & _ & E & _)]] & _)|(_ & _ & _ & E)].
  - inversion E. exists (plan o p nr ++ [555]). reflexivity.
  - inversion E. exists []. apply app_nil_r.
  - eexists. exact E.
  - inversion E. exists []. apply app_nil_r.
Qed.
