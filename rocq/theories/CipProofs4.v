(** Proofs about the washing sequencer: commands, recipes, several lines. *)
From Coq Require Import ZArith List Bool Lia.
From Verif Require Import CipModel CipSpec CipProofs CipProofs2 CipProofs3.
Import ListNotations.
Open Scope Z_scope.

Lemma run_app : forall o a b l, run o l (a ++ b) =
  (fst (run o (fst (run o l a)) b), snd (run o l a) ++ snd (run o (fst (run o l a)) b)).
Proof.
  intros o a b. induction a as [|e r IH]; intros l; [cbn; destruct (run o l b); reflexivity|].
  cbn [app run fst snd]. rewrite IH. cbn [fst snd]. rewrite app_assoc. reflexivity.
Qed.

(** * Commands *)

Lemma rec_none : forall l, selrec l <= 0 -> selprg l <= 0 -> eval_recipes l = l.
Proof.
  intros l A B. unfold eval_recipes. replace (0 <? selrec l) with false by (symmetry; apply Z.ltb_ge; exact A).
  replace (0 <? selprg l) with false by (symmetry; apply Z.ltb_ge; exact B). reflexivity.
Qed.
Lemma cycle_cmd : forall o i l n, n = 1 \/ n = 2 \/ n = 3 \/ n = 4 -> locked l = false ->
  cycle o i (set_cmd n l) = let r := eval_command o i (eval_recipes (set_cmd n l)) in (set_cmd 0 (fst r), snd r).
Proof.
  intros o i l n H U. unfold cycle, eval_lock. cbn [cmd set_cmd]. unfold LOCK, UNLOCK.
  replace (n =? 10) with false by (symmetry; apply Z.eqb_neq; lia).
  replace (n =? 11) with false by (symmetry; apply Z.eqb_neq; lia). cbn [locked set_cmd]. rewrite U.
  destruct (rec_fields (set_cmd n l)) as (_ & _ & _ & _ & r & _). rewrite r. cbn [cmd set_cmd].
  replace (n =? 0) with false by (symmetry; apply Z.eqb_neq; lia). reflexivity.
Qed.
Lemma paused_cycles : forall o is l, cmd l = 0 -> selrec l <= 0 -> selprg l <= 0 -> locked l = false -> state l = -1 ->
  run o l (map Cycle is) = (l, []).
Proof.
  intros o is. induction is as [|i r IH]; intros l C SR SP U Z0; [reflexivity|]. cbn [map run step_ev].
  rewrite quiet_cycle by assumption. rewrite Z0. cbn [Z.ltb Z.compare]. unfold in_error. rewrite Z0. cbn [Z.eqb orb Pos.eqb].
  rewrite andb_false_r. cbn [fst snd]. rewrite IH by assumption. reflexivity.
Qed.
Lemma pause_resume : forall o i is j l, 0 < state l -> step l <> 555 -> locked l = false -> selrec l <= 0 -> selprg l <= 0 ->
  conflict l = false -> i_ready j = true ->
  run o l (Cmd 2 :: Cycle i :: map Cycle is ++ [Cmd 3; Cycle j]) = (set_cmd 0 (set_state 1 l), [Halt; Init (step l) true]).
Proof.
  intros o i is j l P N U SR SP CF RD.
  cbn [run step_ev fst snd app]. rewrite cycle_cmd by auto. rewrite rec_none by assumption.
  assert (E : eval_command o i (set_cmd 2 l) = (set_state (-1) (set_state 0 (set_cmd 2 l)), [Halt])).
  { unfold eval_command. cbn [cmd set_cmd]. cbn [Z.eqb Pos.eqb NEXT PAUSE]. cbn [state step set_cmd].
    replace (0 <? state l) with true by (symmetry; apply Z.ltb_lt; exact P).
    replace (step l =? 555) with false by (symmetry; apply Z.eqb_neq; exact N). reflexivity. }
  rewrite E. cbv zeta. cbn [fst snd]. rewrite run_app. rewrite paused_cycles by (cbn; auto). cbn [fst snd app run step_ev].
  rewrite cycle_cmd by auto. rewrite rec_none by assumption.
  unfold eval_command. cbn [cmd set_cmd]. cbn [Z.eqb Pos.eqb NEXT PAUSE RESET EVALUATE]. cbn [state step set_cmd set_state conflict].
  cbn [Z.ltb Z.compare]. rewrite CF, RD. cbn [negb Z.eqb Pos.eqb fst snd app]. unfold init_step. cbn [step set_cmd set_state].
  replace (step l =? 555) with false by (symmetry; apply Z.eqb_neq; exact N). reflexivity.
Qed.

Lemma rec_sel : forall l, selprg (eval_recipes l) <= 0.
Proof.
  intros l. unfold eval_recipes. destruct (0 <? selrec l); cbn -[Z.ltb];
    match goal with |- context [0 <? ?x] => destruct (Z.ltb_spec 0 x) end; cbn; try lia; cbn in *; lia.
Qed.
Lemma ending : forall o is l, cmd l = 0 -> selrec l <= 0 -> selprg l <= 0 -> locked l = false -> 0 < state l -> step l = 555 ->
  isreset l = true ->
  let x := run o l (map Cycle is) in
  Forall only_end (snd x) /\
  if existsb i_delay is then state (fst x) = 0 /\ step (fst x) = 0 /\ prog (fst x) = 0 /\ recipe (fst x) = -1 else fst x = l.
Proof.
  intros o is. induction is as [|i r IH]; intros l C SR SP U P E R x; [split; [constructor|reflexivity]|].
  unfold x. cbn [map run step_ev existsb]. rewrite quiet_cycle by assumption.
  replace (0 <? state l) with true by (symmetry; apply Z.ltb_lt; exact P). unfold in_progress. rewrite E, Z.eqb_refl, R.
  cbn [orb]. rewrite andb_true_r. destruct (i_delay i) eqn:D; cbn [orb fst snd].
  - rewrite idle_cycles; try reflexivity; try (cbn; lia); auto. cbn [fst snd]. rewrite app_nil_r. split; [|cbn; auto].
    unfold finish. destruct (conflict l); repeat (constructor; [cbn; auto|]); constructor.
  - destruct (IH l C SR SP U P E R) as [A B]. split; [|exact B]. constructor; [reflexivity|exact A].
Qed.
Lemma reset_ends : forall o i is l, locked l = false -> state l <> 0 ->
  let x := run o l (Cmd 4 :: Cycle i :: map Cycle is) in
  Forall only_end (snd x) /\ In (Finished true) (snd x)
  /\ (existsb i_delay is = true -> state (fst x) = 0 /\ step (fst x) = 0 /\ prog (fst x) = 0 /\ recipe (fst x) = -1)
  /\ (existsb i_delay is = false -> state (fst x) = 1 /\ step (fst x) = 555).
Proof.
  intros o i is l U N x. unfold x. cbn [run step_ev fst snd app]. rewrite cycle_cmd by auto.
  destruct (rec_fields (set_cmd 4 l)) as (r1 & r2 & r3 & r4 & r5 & r6 & r7 & r8 & _ & r9).
  pose proof (rec_sel (set_cmd 4 l)) as r10. cbn [state locked cmd set_cmd] in r3, r4, r5.
  revert r1 r2 r3 r4 r5 r6 r7 r8 r9 r10. generalize (eval_recipes (set_cmd 4 l)). intros m r1 r2 r3 r4 r5 r6 r7 r8 r9 r10.
  unfold eval_command. rewrite r5. cbn [Z.eqb Pos.eqb NEXT PAUSE RESET].
  replace (state m =? 0) with false by (symmetry; apply Z.eqb_neq; rewrite r4; exact N). cbn [negb]. cbv zeta. cbn [fst snd].
  set (m' := set_cmd 0 _).
  destruct (ending o is m') as [A B]; try reflexivity; try (cbn; lia); try (cbn; congruence).
  cbn in A, B. split; [|split; [|split]].
  - apply Forall_app. split; [|exact A]. repeat (constructor; [cbn; auto|]). constructor.
  - apply in_or_app. left. cbn. auto.
  - intros D. rewrite D in B. exact B.
  - intros D. rewrite D in B. rewrite B. split; reflexivity.
Qed.

(** Skipping never leaves the preparation of a solution. *)
Lemma mixing : forall o is l s, locked l = false -> selrec l <= 0 -> selprg l <= 0 -> state l <> 0 ->
  s = 0 \/ s = 10 -> In (step l) [105 + s; 106 + s; 108 + s; 109 + s] ->
  let x := run o l (flat_map (fun i => [Cmd 1; Cycle i]) is) in
  In (step (fst x)) [105 + s; 106 + s; 108 + s; 109 + s] /\ Forall (fun n => In n [105 + s; 106 + s; 108 + s; 109 + s]) (inits (snd x)).
Proof.
  intros o is. induction is as [|i r IH]; intros l s U SR SP N S H x; [split; [exact H|constructor]|].
  unfold x. cbn [flat_map app run step_ev fst snd]. rewrite cycle_cmd by auto. rewrite rec_none by assumption.
  assert (E : exists n, In n [106 + s; 108 + s; 109 + s] /\ n <> 0 /\ n <> 555 /\
    eval_command o i (set_cmd 1 l) = (set_state 1 (set_step n (stage l) (set_cmd 1 l)), [Init n false])).
  { unfold eval_command. cbn [cmd set_cmd]. cbn [Z.eqb Pos.eqb NEXT]. cbn [state step set_cmd].
    replace (state l =? 0) with false by (symmetry; apply Z.eqb_neq; exact N).
    replace (step l =? 555) with false by (symmetry; apply Z.eqb_neq; cbn [In] in H; lia). cbn [negb andb]. unfold goto_step. cbn [step prog set_cmd].
    destruct S as [-> | ->]; cbn in H; destruct H as [H|[H|[H|[H|[]]]]]; rewrite <- H; cbn;
      first [exists 106; split; [cbn; tauto|split; [lia|split; [lia|reflexivity]]]|exists 108; split; [cbn; tauto|split; [lia|split; [lia|reflexivity]]]|exists 109; split; [cbn; tauto|split; [lia|split; [lia|reflexivity]]]|exists 116; split; [cbn; tauto|split; [lia|split; [lia|reflexivity]]]|exists 118; split; [cbn; tauto|split; [lia|split; [lia|reflexivity]]]|exists 119; split; [cbn; tauto|split; [lia|split; [lia|reflexivity]]]]. }
  destruct E as (n & I & n0 & n5 & E). rewrite E. cbv zeta. cbn [fst snd].
  destruct (IH (set_cmd 0 (set_state 1 (set_step n (stage l) (set_cmd 1 l)))) s) as [A B]; auto; try (cbn; lia).
  { cbn [step set_cmd set_state set_step]. cbn [In] in *. tauto. }
  split; [exact A|]. rewrite inits_app. apply Forall_app. split; [|exact B]. cbn -[Z.add].
  replace (n =? 0) with false by (symmetry; apply Z.eqb_neq; exact n0). cbn -[Z.add]. constructor; [|constructor]. cbn [In] in *. tauto.
Qed.

(** * Recipes *)

Definition served (l : line) (s : option Z) : Prop :=
  forall r, s = Some r -> state l <> 0 /\ recipe l = r /\ conflict l = false /\ selrec l <= 0.
Lemma serve_init : forall l ag s, fold_left serve1 (init_step ag l) s = s.
Proof. intros. unfold init_step. cbn. destruct (step l =? 555); reflexivity. Qed.
Lemma served_ext : forall l m s, recipe m = recipe l -> conflict m = conflict l -> selrec m = selrec l ->
  (state l <> 0 -> state m <> 0) -> served l s -> served m s.
Proof. intros l m s A B C D H r E. destruct (H r E) as (H1 & H2 & H3 & H4). rewrite A, B, C. auto. Qed.
Lemma serve_command : forall o i l s, served l s ->
  served (fst (eval_command o i l)) (fold_left serve1 (snd (eval_command o i l)) s) \/
  (fold_left serve1 (snd (eval_command o i l)) s = Some (recipe l) /\ state l = 0 /\ i_conf i = false
   /\ recipe (fst (eval_command o i l)) = recipe l /\ conflict (fst (eval_command o i l)) = false /\ state (fst (eval_command o i l)) = 1
   /\ selrec (fst (eval_command o i l)) = selrec l /\ step (fst (eval_command o i l)) = step l).
Proof.
  intros o i l s H. unfold eval_command.
  destruct (cmd l =? NEXT).
  { left. destruct (_ && _); [|exact H]. cbn [fst snd]. rewrite serve_init.
    destruct (goto_prog o 0 l) as (_ & _ & _ & _ & _ & _ & g1 & g2 & g3 & _). apply (served_ext l); auto. cbn. lia. }
  destruct (cmd l =? PAUSE).
  { left. destruct (_ && _); [|exact H]. cbn. apply (served_ext l); auto. cbn. lia. }
  destruct (cmd l =? RESET).
  { left. destruct (Z.eqb_spec (state l) 0) as [E|E]; cbn [negb fst snd].
    - intros r Q. cbn in Q. destruct (H r Q). lia.
    - rewrite fold_left_app, serve_init. cbn. apply (served_ext l); auto. cbn. lia. }
  destruct (cmd l =? EVALUATE); [|left; exact H].
  destruct (Z.ltb_spec (state l) 0) as [N|N].
  { left. destruct (conflict l) eqn:CF; [exact H|]. destruct (negb (i_ready i)); [cbn; apply (served_ext l); auto; cbn; lia|].
    destruct (state l =? -32); [exact H|]. cbn [fst snd]. rewrite serve_init. apply (served_ext l); auto. cbn. lia. }
  destruct ((state l =? 0) && _ && _) eqn:E; [|left; exact H].
  apply andb_prop in E. destruct E as [E _]. apply andb_prop in E. destruct E as [E _]. apply Z.eqb_eq in E.
  assert (S : s = None) by (destruct s as [r|]; [destruct (H r eq_refl); lia|reflexivity]). rewrite S.
  destruct (i_conf i) eqn:CI; [left; intros r Q; discriminate Q|].
  destruct (negb (i_ready i)); [left; intros r Q; discriminate Q|].
  destruct (i_acid i && _ && _); [left; intros r Q; discriminate Q|].
  right. cbn [fst snd]. cbn [fold_left serve1]. rewrite serve_init. repeat split; auto.
Qed.
Lemma serve_progress : forall o i l s, served l s -> 0 < state l ->
  served (fst (in_progress o i l)) (fold_left serve1 (snd (in_progress o i l)) s)
  /\ (forall r, fold_left serve1 (snd (in_progress o i l)) s = Some r -> s = Some r).
Proof.
  intros o i l s H P. unfold in_progress. destruct (step l =? 555).
  { destruct (_ && _); cbn [fst snd].
    - assert (Q : fold_left serve1 (Do 555 :: snd (finish l)) s = None).
      { unfold finish. destruct s as [r|]; [|destruct (conflict l); reflexivity].
        destruct (H r eq_refl) as (_ & R & CF & _). rewrite CF. cbn. rewrite R, Z.eqb_refl. reflexivity. }
      rewrite Q. split; [intros r X; discriminate X|discriminate].
    - split; [exact H|auto]. }
  destruct (goto_prog o (i_do i) l) as (_ & _ & gs & _ & _ & _ & g1 & g2 & g3 & _).
  destruct (0 <? i_do i).
  { destruct (negb _); cbn [fst snd fold_left serve1]; rewrite ?serve_init; (split; [|auto]); apply (served_ext l); auto; rewrite gs; auto. }
  destruct (Z.ltb_spec (i_do i) 0); cbn; (split; [|auto]); [apply (served_ext l); auto; cbn; lia|exact H].
Qed.
(** What is in service after an event was in service before or is put in service by it, without conflict. *)
Lemma serve_cycle : forall o i l s, sound l -> served l s -> (s <> None -> cmd l = 11 -> step l <> 0) ->
  served (fst (cycle o i l)) (fold_left serve1 (snd (cycle o i l)) s)
  /\ forall r, fold_left serve1 (snd (cycle o i l)) s = Some r -> s = Some r \/ (i_conf i = false /\ r = recipe (eval_recipes l)).
Proof.
  intros o i l s SD H G.
  assert (H0 : served (eval_lock l) s).
  { destruct (lock_same l) as (l1 & _ & _ & _ & _ & l2 & l3 & l4 & _). intros r E. destruct (H r E) as (H1 & H2 & H3 & H4).
    rewrite l2, l3, l4. repeat split; auto. unfold eval_lock. destruct (cmd l =? LOCK); [exact H1|].
    destruct (Z.eqb_spec (cmd l) UNLOCK) as [Q|Q]; [|exact H1]. cbn -[Z.ltb].
    assert (X : step l <> 0) by (apply G; [rewrite E; discriminate|exact Q]).
    assert (Y : 0 <= step l) by (apply known_pos, SD). destruct (Z.ltb_spec 0 (step l)); lia. }
  assert (R : recipe (eval_recipes (eval_lock l)) = recipe (eval_recipes l)).
  { unfold eval_lock. destruct (cmd l =? LOCK); [|destruct (cmd l =? UNLOCK); [|reflexivity]];
    unfold eval_recipes, load_list; cbn -[Z.ltb one_of]; destruct (0 <? selrec l); cbn -[Z.ltb one_of];
    repeat match goal with |- context [if ?x then _ else _] => destruct x end; reflexivity. }
  rewrite <- R. unfold cycle. revert H0. generalize (eval_lock l). clear. intros l H.
  destruct (locked l).
  { cbn [fst snd]. rewrite fold_left_app.
    replace (fold_left serve1 (if 0 <? state l then snd (stop l) else []) s) with s by (destruct (0 <? state l); reflexivity).
    cbn. split; [|auto]. apply (served_ext l); auto. cbn. lia. }
  assert (H0 : served (eval_recipes l) s).
  { destruct (rec_fields l) as (_ & _ & _ & r1 & _ & r2 & _ & _ & r3 & r4). intros r E. destruct (H r E) as (H1 & H2 & H3 & H4).
    destruct (r3 H4) as [r5 r6]. rewrite r1, r2, r5, r6. auto. }
  assert (SR : selrec (eval_recipes l) <= 0) by apply rec_fields.
  revert H0 SR. generalize (eval_recipes l). clear. intros l H SR.
  destruct (negb (cmd l =? 0)).
  - cbn [fst snd]. destruct (serve_command o i l s H) as [A|(A & B & C & D & E & F & G & K)].
    + split; [apply (served_ext (fst (eval_command o i l))); auto|]. intros r Q.
      assert (Q1 := A r Q). clear A. revert Q Q1. unfold eval_command.
      destruct (cmd l =? NEXT); [destruct (_ && _); cbn [fst snd]; rewrite ?serve_init; auto|].
      destruct (cmd l =? PAUSE); [destruct (_ && _); cbn [fst snd]; auto|].
      destruct (cmd l =? RESET); [destruct (negb (state l =? 0)); cbn [fst snd]; rewrite ?fold_left_app, ?serve_init; auto|].
      destruct (cmd l =? EVALUATE); [|auto].
      destruct (state l <? 0); [destruct (conflict l); [auto|]; destruct (negb (i_ready i)); [auto|]; destruct (state l =? -32); [auto|]; cbn [fst snd]; rewrite serve_init; auto|].
      destruct ((state l =? 0) && _ && _); [|auto].
      destruct (i_conf i); [auto|]. destruct (negb (i_ready i)); [auto|]. destruct (i_acid i && _ && _); [auto|].
      cbn [fst snd fold_left serve1]. rewrite serve_init. intros Q _. right. split; [reflexivity|congruence].
    + rewrite A. split; [|intros r Q; right; split; [exact C|congruence]].
      intros r Q. inversion Q; subst r. cbn [state recipe conflict selrec set_cmd]. rewrite D, E, F, G. repeat split; auto; lia.
  - destruct (Z.ltb_spec 0 (state l)) as [P|P].
    + destruct (serve_progress o i l s H P) as [A B]. split; [exact A|]. intros r Q. left. exact (B r Q).
    + destruct (Z.ltb_spec (state l) 0) as [N|N]; [|split; [exact H|auto]].
      unfold in_error. destruct (_ && _); [|split; [exact H|auto]].
      cbn [fst snd]. rewrite serve_init. split; [|auto]. apply (served_ext l); auto. cbn. lia.
Qed.
Lemma serve_step : forall o l tr e, sound l -> served l (service tr) -> keeps_recipe l tr e ->
  served (fst (step_ev o l e)) (service (tr ++ snd (step_ev o l e)))
  /\ forall r, service (tr ++ snd (step_ev o l e)) = Some r ->
       service tr = Some r \/ exists i, e = Cycle i /\ i_conf i = false /\ r = recipe (eval_recipes l).
Proof.
  intros o l tr e SD H K. unfold service. rewrite !fold_left_app. fold (service tr).
  destruct e as [n|n|n|n|i]; cbn [step_ev fst snd fold_left].
  - split; [exact H|auto].
  - split; [|auto]. intros r E. destruct (H r E) as (H1 & H2 & H3 & H4). cbn. repeat split; auto.
    apply K. rewrite E. discriminate.
  - split; [exact H|auto].
  - split; [exact H|auto].
  - destruct (serve_cycle o i l (service tr) SD H) as [A B].
    { intros Q. specialize (K Q). exact K. }
    split; [exact A|]. intros r Q. destruct (B r Q) as [X|(X & Y)]; [left; exact X|right; exists i; auto].
Qed.
Lemma serve_run : forall o es l tr, sound l -> served l (service tr) -> always keeps_recipe o l tr es ->
  served (fst (run o l es)) (service (tr ++ snd (run o l es))).
Proof.
  intros o es. induction es as [|e r IH]; intros l tr SD H A; [cbn; rewrite app_nil_r; exact H|].
  cbn [always] in A. destruct A as [A1 A2]. cbn [run fst snd]. rewrite app_assoc.
  apply IH; [apply step_sound, SD|apply serve_step; auto|exact A2].
Qed.
