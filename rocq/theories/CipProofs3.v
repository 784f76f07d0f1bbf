(** Proofs about the washing sequencer: completion, commands, devices, recipes. *)
From Coq Require Import ZArith List Bool Lia.
From Verif Require Import CipModel CipSpec CipProofs CipProofs2.
Import ListNotations.
Open Scope Z_scope.

(** * States that can be reached *)

Definition known : list Z :=
  [0; 5; 6; 7; 8; 9; 10; 11; 12; 13; 14; 15; 16; 22; 23; 24; 26; 28; 29; 31; 33; 34; 35; 37; 39; 40;
   42; 43; 44; 46; 48; 49; 53; 54; 55; 57; 59; 60; 61; 62; 63; 64; 65; 66; 67; 71; 72; 73; 74; 75; 76; 77; 78; 79;
   81; 83; 84; 85; 86; 91; 105; 106; 108; 109; 111; 115; 116; 118; 119; 121;
   151; 152; 153; 154; 155; 156; 157; 160; 161; 162; 163; 164; 167; 168; 169; 170; 173; 174; 175; 176; 179; 180;
   181; 182; 183; 184; 185; 186; 187; 188; 300; 555].
Definition isknown (n : Z) : bool := one_of n known.
Lemma one_of_in : forall n xs, one_of n xs = true <-> In n xs.
Proof.
  intros n xs. unfold one_of. rewrite existsb_exists. split.
  - intros (x & I & E). apply Z.eqb_eq in E. subst. exact I.
  - intros I. exists n. split; [exact I|apply Z.eqb_refl].
Qed.
Lemma succ_known : forall o p n a, isknown n = true -> n <> 555 ->
  match succ_step o p n a with Some m => isknown m = true /\ m <> 0 | None => True end.
Proof.
  intros o p n a K N. destruct o as [cs ck vs vk vw]. unfold isknown in K. apply one_of_in in K. unfold known in K. cbn [In] in K.
  repeat (destruct K as [<-|K]; [try contradiction; cbn -[Z.land]; repeat match goal with |- context [if ?x then _ else _] => destruct x end; try exact I; (split; [reflexivity|lia])|]).
  contradiction.
Qed.
Lemma first_known : forall l b, isknown (first_step l b) = true /\ first_step l b <> 0.
Proof.
  intros l b. unfold first_step. repeat match goal with |- context [if ?x then _ else _] => destruct x end; (split; [reflexivity|lia]).
Qed.
Lemma goto_known : forall o a l, isknown (step l) = true -> step l <> 555 ->
  isknown (step (goto_step o a l)) = true /\ step (goto_step o a l) <> 0.
Proof.
  intros o a l K N. pose proof (succ_known o (prog l) (step l) a K N) as S. unfold goto_step.
  destruct (succ_step o (prog l) (step l) a); [exact S|apply first_known].
Qed.
Lemma known_pos : forall n, isknown n = true -> 0 <= n.
Proof.
  intros n K. apply one_of_in in K. assert (F : forallb (Z.leb 0) known = true) by reflexivity.
  rewrite forallb_forall in F. apply Z.leb_le, F, K.
Qed.

Definition sound (l : line) : Prop :=
  isknown (step l) = true /\ (state l = 0 -> step l = 0) /\ (step l = 0 -> stage l = -1).
Lemma rec_fields : forall l, step (eval_recipes l) = step l /\ stage (eval_recipes l) = stage l
  /\ locked (eval_recipes l) = locked l /\ state (eval_recipes l) = state l /\ cmd (eval_recipes l) = cmd l
  /\ conflict (eval_recipes l) = conflict l /\ aborted (eval_recipes l) = aborted l /\ isreset (eval_recipes l) = isreset l
  /\ (selrec l <= 0 -> recipe (eval_recipes l) = recipe l /\ selrec (eval_recipes l) = selrec l)
  /\ selrec (eval_recipes l) <= 0.
Proof.
  intros l. unfold eval_recipes, load_list.
  destruct (Z.ltb_spec 0 (selrec l)); cbn -[Z.ltb one_of];
  repeat match goal with |- context [if ?x then _ else _] => destruct x end; cbn; repeat split; intros; lia.
Qed.
Lemma sound_ext : forall l m, step m = step l -> stage m = stage l -> (state m = 0 -> step l = 0) -> sound l -> sound m.
Proof. intros l m S T U (A & B & C). unfold sound. rewrite S, T. repeat split; auto. Qed.
Lemma lock_sound : forall l, sound l -> sound (eval_lock l).
Proof.
  intros l S. destruct (lock_same l) as (l1 & l2 & _). apply (sound_ext l); auto.
  rewrite <- l1. apply lock_state; [apply known_pos, S|apply S].
Qed.
Lemma rec_sound : forall l, sound l -> sound (eval_recipes l).
Proof. intros l S. destruct (rec_fields l) as (r1 & r2 & _ & r3 & _). apply (sound_ext l); auto. rewrite r3. apply S. Qed.
Lemma goto_sound : forall o a s l, sound l -> step l <> 555 -> s <> 0 -> sound (set_state s (goto_step o a l)).
Proof.
  intros o a s l (A & B & C) N H. destruct (goto_known o a l A N) as [K K0]. unfold sound. cbn. repeat split; [exact K|lia|lia].
Qed.
Lemma command_sound : forall o i l, sound l -> sound (fst (eval_command o i l)).
Proof.
  intros o i l S. unfold eval_command.
  destruct (cmd l =? NEXT).
  { destruct (negb (state l =? 0) && negb (step l =? 555)) eqn:E; [|exact S]. apply andb_prop in E. destruct E as [_ E].
    apply negb_true_iff in E. apply Z.eqb_neq in E. cbn [fst]. apply goto_sound; auto; lia. }
  destruct (cmd l =? PAUSE).
  { destruct (_ && _); [|exact S]. apply (sound_ext l); try reflexivity; auto. cbn. lia. }
  destruct (cmd l =? RESET).
  { destruct (negb _); cbn [fst]; [|apply (sound_ext l); try reflexivity; auto; apply S].
    unfold sound. cbn. repeat split; lia. }
  destruct (cmd l =? EVALUATE); [|exact S].
  destruct (Z.ltb_spec (state l) 0) as [N|N].
  { destruct (conflict l); [exact S|]. destruct (negb (i_ready i)); [apply (sound_ext l); try reflexivity; auto; cbn; lia|].
    destruct (state l =? -32); [exact S|]. apply (sound_ext l); try reflexivity; auto. cbn. lia. }
  destruct ((state l =? 0) && _ && _); [|exact S].
  destruct (i_conf i); [apply (sound_ext l); try reflexivity; auto; cbn; lia|].
  destruct (negb (i_ready i)); [apply (sound_ext l); try reflexivity; auto; cbn; lia|].
  destruct (i_acid i && _ && _); apply (sound_ext l); try reflexivity; auto; cbn; lia.
Qed.
Lemma progress_sound : forall o i l, sound l -> 0 < state l -> sound (fst (in_progress o i l)).
Proof.
  intros o i l S P. unfold in_progress. destruct (Z.eqb_spec (step l) 555) as [E|E].
  { destruct (_ && _); cbn [fst]; [|exact S]. unfold sound. cbn. repeat split; lia. }
  destruct (0 <? i_do i).
  { assert (G : sound (goto_step o (i_do i) l)).
    { destruct S as (A & B & C). destruct (goto_known o (i_do i) l A E) as [K K0]. unfold sound.
      destruct (goto_prog o (i_do i) l) as (_ & _ & gs & _). rewrite gs. repeat split; [exact K|lia|lia]. }
    destruct (negb _); exact G. }
  destruct (Z.ltb_spec (i_do i) 0); [|exact S]. apply (sound_ext l); try reflexivity; auto. cbn. lia.
Qed.
Lemma error_sound : forall i l, sound l -> state l < 0 -> sound (fst (in_error i l)).
Proof.
  intros i l S N. unfold in_error. destruct (_ && _); [|exact S]. apply (sound_ext l); try reflexivity; auto. cbn. lia.
Qed.
Lemma cycle_sound : forall o i l, sound l -> sound (fst (cycle o i l)).
Proof.
  intros o i l S. unfold cycle. apply lock_sound in S. revert S. generalize (eval_lock l). clear. intros l S.
  destruct (locked l); [apply (sound_ext l); try reflexivity; auto; cbn; lia|].
  apply rec_sound in S. revert S. generalize (eval_recipes l). clear. intros l S.
  destruct (negb (cmd l =? 0)).
  - cbn [fst]. apply (command_sound o i) in S. apply (sound_ext (fst (eval_command o i l))); try reflexivity; auto. apply S.
  - destruct (Z.ltb_spec 0 (state l)); [apply progress_sound; auto|].
    destruct (Z.ltb_spec (state l) 0); [apply error_sound; auto|exact S].
Qed.
Lemma step_sound : forall o l e, sound l -> sound (fst (step_ev o l e)).
Proof.
  intros o l e S. destruct e; cbn [step_ev fst]; try (apply (sound_ext l); try reflexivity; auto; apply S). apply cycle_sound, S.
Qed.
Lemma run_sound : forall o es l, sound l -> sound (fst (run o l es)).
Proof. intros o es. induction es as [|e r IH]; intros l S; [exact S|]. cbn [run fst]. apply IH, step_sound, S. Qed.
Lemma new_sound : sound new_line.
Proof. unfold sound. cbn. repeat split; reflexivity. Qed.

(** The steps of a program come in their order. *)
Lemma order_from : forall o p es l, sound l -> state l = 0 -> prog l = p -> cmd l <> 4 -> selprg l <= 0 ->
  Forall keeps_program es ->
  exists rest, unloop (inits (snd (run o l es))) ++ rest = plan o p (norinse l) ++ [555].
Proof.
  intros o p es l S Z0 P C SP F. unfold unloop.
  apply (loc_prefix o p (norinse l) (fst (run o l es))).
  apply run_loc; auto. left. split; [exact P|]. split; [reflexivity|]. split; [|apply S].
  left. destruct S as (_ & A & B). repeat split; auto.
Qed.

(** * Quiet cycles *)

Lemma quiet_cycle : forall o i l, cmd l = 0 -> selrec l <= 0 -> selprg l <= 0 -> locked l = false ->
  cycle o i l = if 0 <? state l then in_progress o i l else if state l <? 0 then in_error i l else (l, []).
Proof.
  intros o i l C SR SP U. unfold cycle, eval_lock. rewrite C. cbn [Z.eqb LOCK UNLOCK]. rewrite U.
  unfold eval_recipes. replace (0 <? selrec l) with false by (symmetry; apply Z.ltb_ge; exact SR).
  replace (0 <? selprg l) with false by (symmetry; apply Z.ltb_ge; exact SP). rewrite C. reflexivity.
Qed.
Lemma idle_cycles : forall o is l, cmd l = 0 -> selrec l <= 0 -> selprg l <= 0 -> locked l = false -> state l = 0 ->
  run o l (map Cycle is) = (l, []).
Proof.
  intros o is. induction is as [|i r IH]; intros l C SR SP U Z0; [reflexivity|]. cbn [map run step_ev].
  rewrite quiet_cycle by assumption. rewrite Z0. cbn [Z.ltb Z.compare fst snd]. rewrite IH by assumption. reflexivity.
Qed.

(** * A washing that goes well ends *)

Lemma goto_plain : forall o p nr l kept, prog l = p -> norinse l = nr -> begun o p nr l (false, kept) -> step l <> 555 ->
  visit (false, kept) (step (goto_step o 1 l)) = (false, kept ++ [step (goto_step o 1 l)]).
Proof.
  intros o p nr l kept P N D NE. apply visit_plain.
  - destruct D as [(Z0 & _)|[(Z5 & _)|(b & cur & B & SB & I & _ & PL)]]; [|congruence|].
    + unfold goto_step. rewrite Z0. cbn. unfold first_step. repeat match goal with |- context [if ?x then _ else _] => destruct x end; lia.
    + destruct PL as [[-> _]|[(_ & _ & Q)|(_ & _ & Q)]]; try discriminate Q.
      pose proof (succ_block o p nr (Z.of_nat b) (step l) 1 ltac:(lia) I) as S. unfold goto_step. rewrite P.
      destruct (succ_step o p (step l) 1) as [n|]; cbn.
      * destruct S as [(_ & _ & Q)|[(_ & _ & Q)|Q]]; [congruence|congruence|apply Q].
      * unfold first_step. repeat match goal with |- context [if ?x then _ else _] => destruct x end; lia.
  - destruct D as [(Z0 & _)|[(Z5 & _)|(b & cur & B & SB & I & _ & PL)]]; [|congruence|].
    + unfold goto_step. rewrite Z0. cbn. unfold first_step. repeat match goal with |- context [if ?x then _ else _] => destruct x end; lia.
    + destruct PL as [[-> _]|[(_ & _ & Q)|(_ & _ & Q)]]; try discriminate Q.
      pose proof (succ_block o p nr (Z.of_nat b) (step l) 1 ltac:(lia) I) as S. unfold goto_step. rewrite P.
      destruct (succ_step o p (step l) 1) as [n|]; cbn.
      * destruct S as [(_ & _ & Q)|[(_ & _ & Q)|Q]]; [congruence|congruence|apply Q].
      * unfold first_step. repeat match goal with |- context [if ?x then _ else _] => destruct x end; lia.
Qed.
Lemma begun_rest : forall o p nr l k, begun o p nr l k -> step l <> 555 -> (length (snd k) <= length (plan o p nr))%nat.
Proof.
  intros o p nr l k [(_ & _ & ->)|[(Z5 & _)|(b & cur & _ & _ & _ & E & _)]] N; [cbn; lia|congruence|].
  apply (f_equal (@length Z)) in E. rewrite !app_length in E. cbn [length] in E. lia.
Qed.
Lemma done_plan : forall o p nr l kept, begun o p nr l (false, kept) -> step l = 555 -> kept = plan o p nr ++ [555].
Proof.
  intros o p nr l kept [(Q & _)|[(_ & Q)|(b & cur & _ & _ & I & _ & P)]] E; [lia|congruence|].
  apply block_pos in I. destruct P as [[P _]|[(_ & P & _)|(_ & P & _)]]; lia.
Qed.
Lemma completes : forall o p nr r is l kept,
  prog l = p -> norinse l = nr -> begun o p nr l (false, kept) -> 0 < state l -> locked l = false -> cmd l = 0 ->
  selrec l <= 0 -> selprg l <= 0 -> conflict l = false -> recipe l = r -> Forall good is ->
  (length (plan o p nr) + 2 <= length is + length kept)%nat ->
  let x := run o l (map Cycle is) in
  kept ++ inits (snd x) = plan o p nr ++ [555] /\ state (fst x) = 0 /\ step (fst x) = 0 /\ prog (fst x) = 0 /\ recipe (fst x) = -1
  /\ (step l <> 555 -> In (Finished (aborted l)) (snd x)) /\ In (RecOff r) (snd x).
Proof.
  intros o p nr r is. induction is as [|i is IH]; intros l kept P N D ST U C SR SP CF RC F LEN x.
  { exfalso. cbn [length] in LEN. destruct (Z.eq_dec (step l) 555) as [E|E].
    - apply (done_plan _ _ _ _ _ D) in E. rewrite E in LEN. rewrite app_length in LEN. cbn in LEN. lia.
    - pose proof (begun_rest _ _ _ _ _ D E) as Q. cbn in Q. lia. }
  inversion F as [|? ? (G1 & G2 & G3) F']; subst i0 l0 || idtac. clear F.
  unfold x. cbn [map run step_ev]. rewrite quiet_cycle by assumption.
  replace (0 <? state l) with true by (symmetry; apply Z.ltb_lt; exact ST). unfold in_progress.
  destruct (Z.eqb_spec (step l) 555) as [E|E].
  - rewrite G2, G3, orb_true_r. cbn [andb].
    assert (R : run o (fst (finish l)) (map Cycle is) = (fst (finish l), [])) by (apply idle_cycles; cbn; auto; lia).
    cbn [fst snd]. rewrite R. cbn [fst snd]. rewrite app_nil_r.
    assert (T : snd (finish l) = [Halt; RecOff (recipe l)]) by (unfold finish; rewrite CF; reflexivity). rewrite T.
    rewrite (done_plan _ _ _ _ _ D E). cbn. rewrite app_nil_r, RC. repeat split; auto; intros Q; congruence.
  - rewrite G1. cbn [Z.ltb Z.compare].
    destruct (goto_begun o p nr l _ 1 P N D E) as [G G0]. rewrite (goto_plain o p nr l kept P N D E) in G.
    pose proof (goto_moves o p nr l _ 1 P N D E) as GM.
    destruct (goto_prog o 1 l) as (gp & gn & gst & gl & gsp & gc & gr & gcf & gsr & ga & _).
    replace (step (goto_step o 1 l) =? step l) with false by (symmetry; apply Z.eqb_neq; exact GM). cbn [negb fst snd].
    assert (Q := IH (goto_step o 1 l) (kept ++ [step (goto_step o 1 l)])). cbv zeta in Q.
    rewrite gp, gn, gst, gl, gsp, gc, gr, gcf, gsr, ga in Q.
    specialize (Q P N G ST U C SR SP CF RC F'). rewrite app_length in Q. cbn [length] in Q, LEN. specialize (Q ltac:(lia)).
    destruct Q as (Q1 & Q2 & Q3 & Q4 & Q5 & Q6 & Q7).
    split; [|split; [exact Q2|split; [exact Q3|split; [exact Q4|split; [exact Q5|split]]]]].
    + change (inits ((Do (step l) :: init_step false (goto_step o 1 l)) ++ ?y)) with (inits (init_step false (goto_step o 1 l) ++ y)).
      rewrite inits_app, inits_init. replace (step (goto_step o 1 l) =? 0) with false by (symmetry; apply Z.eqb_neq; exact G0).
      rewrite <- Q1, <- app_assoc. reflexivity.
    + intros _. apply in_or_app. destruct (Z.eq_dec (step (goto_step o 1 l)) 555) as [E5|E5].
      * left. right. unfold init_step. rewrite E5. cbn. rewrite ga. auto.
      * right. apply Q6, E5.
    + apply in_or_app. right. exact Q7.
Qed.

(** * Locking *)

Definition held (l : line) : Prop := locked l = true /\ cmd l <> 11.
Lemma held_cycle : forall o i l, held l \/ cmd l = 10 ->
  held (fst (cycle o i l)) /\ state (fst (cycle o i l)) = -1000
  /\ (snd (cycle o i l) = [Halt] \/ snd (cycle o i l) = [Halt; Halt]).
Proof.
  intros o i l H.
  assert (L : locked (eval_lock l) = true).
  { unfold eval_lock. unfold LOCK, UNLOCK. destruct H as [[A B]|A].
    - destruct (cmd l =? 10); [reflexivity|]. replace (cmd l =? 11) with false by (symmetry; apply Z.eqb_neq; exact B). exact A.
    - rewrite A. reflexivity. }
  unfold cycle. rewrite L. cbn [fst snd]. split; [split; [exact L|cbn; lia]|]. split; [reflexivity|].
  destruct (0 <? state (eval_lock l)); [right|left]; reflexivity.
Qed.
Lemma held_run : forall o es l, held l -> ~ In (Cmd 11) es ->
  held (fst (run o l es)) /\ Forall (fun a => a = Halt) (snd (run o l es))
  /\ (state l = -1000 -> state (fst (run o l es)) = -1000).
Proof.
  intros o es. induction es as [|e r IH]; intros l H N; [split; [exact H|split; [constructor|auto]]|].
  cbn [run fst snd].
  assert (X : held (fst (step_ev o l e)) /\ Forall (fun a => a = Halt) (snd (step_ev o l e))
              /\ (state l = -1000 -> state (fst (step_ev o l e)) = -1000)).
  { destruct e as [n|n|n|n|i]; cbn [step_ev fst snd].
    - split; [split; [apply H|cbn; intros ->; apply N; left; reflexivity]|]. split; [constructor|auto].
    - split; [exact H|]. split; [constructor|auto].
    - split; [exact H|]. split; [constructor|auto].
    - split; [exact H|]. split; [constructor|auto].
    - destruct (held_cycle o i l (or_introl H)) as (A & B & [T|T]); rewrite T; (split; [exact A|split; [repeat constructor|auto]]). }
  destruct X as (A & B & C). destruct (IH _ A) as (D & E & G); [intros Q; apply N; right; exact Q|].
  split; [exact D|]. split; [apply Forall_app; split; assumption|auto].
Qed.

(** * Working devices *)

Definition busyat (l : line) (b : bool) : Prop := (b = true -> 0 < state l) /\ (locked l = true -> b = false).
Lemma busy_init : forall l ag b, fold_left busy1 (init_step ag l) b = negb (step l =? 555).
Proof. intros. unfold init_step. cbn. destruct (step l =? 555); reflexivity. Qed.
Lemma busy_command : forall o i l b, busyat l b -> locked l = false ->
  busyat (fst (eval_command o i l)) (fold_left busy1 (snd (eval_command o i l)) b).
Proof.
  intros o i l b (A & _) U.
  assert (X : forall m b', locked m = locked l -> (b' = true -> 0 < state m) -> busyat m b').
  { intros m b' Q W. split; [exact W|]. rewrite Q, U. discriminate. }
  assert (Y : busyat l b) by (apply X; auto).
  unfold eval_command.
  destruct (cmd l =? NEXT).
  { destruct (_ && _); [|exact Y]. cbn [fst snd]. apply X; [apply goto_prog|]. intros _. cbn. lia. }
  destruct (cmd l =? PAUSE).
  { destruct (_ && _); [|exact Y]. cbn. apply X; [reflexivity|discriminate]. }
  destruct (cmd l =? RESET).
  { destruct (negb _); cbn [fst snd]; [|apply X; [reflexivity|exact A]]. cbn. apply X; [reflexivity|discriminate]. }
  destruct (cmd l =? EVALUATE); [|exact Y].
  destruct (Z.ltb_spec (state l) 0) as [N|N].
  { assert (B0 : b = false) by (destruct b; [specialize (A eq_refl); lia|reflexivity]).
    destruct (conflict l); [exact Y|]. destruct (negb (i_ready i)); [cbn; apply X; [reflexivity|rewrite B0; discriminate]|].
    destruct (state l =? -32); [exact Y|]. cbn [fst snd]. apply X; [reflexivity|cbn; lia]. }
  destruct ((state l =? 0) && _ && _) eqn:E; [|exact Y].
  apply andb_prop in E. destruct E as [E _]. apply andb_prop in E. destruct E as [E _]. apply Z.eqb_eq in E.
  assert (B0 : b = false) by (destruct b; [specialize (A eq_refl); lia|reflexivity]).
  destruct (i_conf i); [cbn; apply X; [reflexivity|rewrite B0; discriminate]|].
  destruct (negb (i_ready i)); [cbn; apply X; [reflexivity|rewrite B0; discriminate]|].
  destruct (i_acid i && _ && _); [cbn; apply X; [reflexivity|rewrite B0; discriminate]|].
  cbn [fst snd]. apply X; [reflexivity|cbn; lia].
Qed.
Lemma busy_progress : forall o i l b, busyat l b -> locked l = false -> 0 < state l ->
  busyat (fst (in_progress o i l)) (fold_left busy1 (snd (in_progress o i l)) b).
Proof.
  intros o i l b (A & _) U P.
  assert (X : forall m b', locked m = locked l -> (b' = true -> 0 < state m) -> busyat m b').
  { intros m b' Q W. split; [exact W|]. rewrite Q, U. discriminate. }
  unfold in_progress. destruct (step l =? 555).
  { destruct (_ && _); cbn [fst snd].
    - apply X; [reflexivity|]. unfold finish. destruct (conflict l); cbn; discriminate.
    - apply X; auto. }
  destruct (goto_prog o (i_do i) l) as (_ & _ & gs & gl & _).
  destruct (0 <? i_do i).
  { destruct (negb _); cbn [fst snd]; (apply X; [exact gl|]; intros _; rewrite gs; exact P). }
  destruct (i_do i <? 0); cbn; apply X; auto. discriminate.
Qed.
Lemma busy_cycle : forall o i l b, busyat l b -> (cmd l = 11 -> locked l = true) ->
  busyat (fst (cycle o i l)) (fold_left busy1 (snd (cycle o i l)) b).
Proof.
  intros o i l b B G.
  assert (B0 : locked (eval_lock l) = false -> busyat (eval_lock l) b).
  { unfold eval_lock. destruct (cmd l =? LOCK); [cbn; discriminate|].
    destruct (Z.eqb_spec (cmd l) UNLOCK) as [E|E]; [|intros _; exact B]. intros _. specialize (G E). destruct B as (B1 & B2).
    specialize (B2 G). rewrite B2. split; discriminate || auto. }
  unfold cycle. revert B0. generalize (eval_lock l). clear. intros l B. destruct (locked l) eqn:U.
  { cbn [fst snd]. rewrite fold_left_app. cbn. split; [discriminate|auto]. }
  specialize (B eq_refl). destruct (rec_fields l) as (r1 & _ & r2 & r3 & _).
  assert (B0 : busyat (eval_recipes l) b) by (unfold busyat; rewrite r2, r3; exact B).
  rewrite <- r2 in U. revert B0 U. generalize (eval_recipes l). clear. intros l B U.
  destruct (negb (cmd l =? 0)).
  - cbn [fst snd]. exact (busy_command o i l b B U).
  - destruct (Z.ltb_spec 0 (state l)); [apply busy_progress; auto|].
    destruct (Z.ltb_spec (state l) 0); [|exact B]. unfold in_error. destruct (_ && _); [|exact B].
    cbn [fst snd]. split; [cbn; lia|cbn; rewrite U; discriminate].
Qed.
Lemma busy_run : forall o es l tr, busyat l (busy tr) -> always unlock_locked o l tr es ->
  busyat (fst (run o l es)) (busy (tr ++ snd (run o l es))).
Proof.
  intros o es. induction es as [|e r IH]; intros l tr B A; [cbn; rewrite app_nil_r; exact B|].
  cbn [always] in A. destruct A as [A1 A2]. cbn [run fst snd]. rewrite app_assoc. apply IH; [|exact A2].
  unfold busy. rewrite fold_left_app. destruct e as [n|n|n|n|i]; cbn [step_ev fst snd fold_left]; try exact B.
  apply busy_cycle; [exact B|exact A1].
Qed.
