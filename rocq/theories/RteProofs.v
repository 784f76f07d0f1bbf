(** Proofs about the routes: the order of steps. *)
From Coq Require Import ZArith List Bool Lia.
From Verif Require Import CipModel CipSpec CipProofs CipProofs2 CipProofs3 RteModel RteSpec.
Import ListNotations.
Open Scope Z_scope.

(** * Which steps follow each other *)

Definition firsts : list Z := [5; 10; 22; 42; 61; 71; 81; 83; 91; 105; 115; 151; 300; 555].
Definition nexts (n : Z) : list Z :=
  if n =? 555 then 0 :: firsts
  else if has n [0; 9; 15; 40; 60; 67; 79; 91; 111; 121; 188; 300] then firsts
  else if n =? 5 then [7]
  else if has n [6; 7; 10; 11; 12; 13; 14; 22; 23; 42; 43; 62; 63; 64; 65; 66; 71; 72; 73; 74; 75; 76; 77; 78; 83; 84; 85] then [n + 1]
  else if n =? 8 then [16] else if n =? 16 then 9 :: firsts
  else if n =? 24 then [26; 28] else if n =? 26 then [28] else if n =? 28 then [29] else if n =? 29 then [31]
  else if n =? 31 then [33] else if n =? 33 then [34] else if n =? 34 then [35] else if n =? 35 then [37]
  else if n =? 37 then [39] else if n =? 39 then [40]
  else if n =? 44 then [46; 48] else if n =? 46 then [48] else if n =? 48 then [49] else if n =? 49 then [53]
  else if n =? 53 then [54] else if n =? 54 then [55] else if n =? 55 then [57] else if n =? 57 then [59]
  else if n =? 59 then [60] else if n =? 61 then [62; 66] else if n =? 81 then [83] else if n =? 86 then [91]
  else if n =? 105 then [106] else if n =? 106 then [108] else if n =? 108 then [109; 111] else if n =? 109 then [106]
  else if n =? 115 then [116] else if n =? 116 then [118] else if n =? 118 then [119; 121] else if n =? 119 then [116]
  else if n =? 157 then [160; 161] else if n =? 164 then [167; 168] else if n =? 170 then [173; 174] else if n =? 176 then [179; 180]
  else [n + 1].
(** The acts of a line: [n] is the step set up last. *)
Fixpoint chain (n : Z) (tr : list act) : Prop :=
  match tr with
  | [] => True
  | Do m :: r => m = n /\ chain n r
  | Init m _ :: r => (m = n \/ m = 555 \/ In m (nexts n)) /\ isknown m = true /\ chain m r
  | _ :: r => chain n r
  end.
Definition last_step (n : Z) (tr : list act) : Z := fold_left (fun n a => match a with Init m _ => m | _ => n end) tr n.
Lemma last_app : forall n a b, last_step n (a ++ b) = last_step (last_step n a) b.
Proof. intros. apply fold_left_app. Qed.
Lemma chain_app : forall a b n, chain n (a ++ b) <-> chain n a /\ chain (last_step n a) b.
Proof.
  induction a as [|x a IH]; intros b n; [cbn; tauto|]. change (last_step n (x :: a)) with (last_step (last_step n [x]) a).
  cbn [app chain]. destruct x; cbn [last_step fold_left]; rewrite IH; tauto.
Qed.
Definition joined (l : line) (n : Z) : Prop := n = step l \/ (step l = 0 /\ state l <= 0 /\ n = 555).

Lemma first_in : forall l b, In (first_step l b) firsts.
Proof.
  intros l b. unfold first_step. repeat match goal with |- context [if ?x then _ else _] => destruct x end;
    unfold firsts; cbn [In]; tauto.
Qed.
Lemma goto_next : forall o a l n, isknown (step l) = true -> step l <> 555 -> joined l n ->
  step (goto_step o a l) = n \/ In (step (goto_step o a l)) (nexts n).
Proof.
  intros o a l n K N [-> |(Z0 & _ & ->)].
  - unfold goto_step. unfold isknown in K. apply one_of_in in K. revert K N. generalize (step l). intros m K N.
    assert (F : forall k, In (step (load_program k)) firsts) by (intros; apply first_in).
    destruct o as [cs ck vs vk vw]. unfold known in K. cbn [In] in K.
    repeat (destruct K as [<-|K]; [try (exfalso; apply N; reflexivity); cbn -[Z.land firsts load_program];
      repeat match goal with |- context [if ?x then _ else _] => destruct x end; cbn [step set_step]; right;
      first [exact (F l) | exact (or_intror (F l)) | cbn [In]; tauto]|]). contradiction.
  - unfold goto_step. rewrite Z0. cbn -[firsts load_program]. right. right. apply first_in.
Qed.

Definition follows (n : Z) (r : line * list act) : Prop :=
  chain n (snd r) /\ joined (fst r) (last_step n (snd r)).
Lemma chain_init : forall ag l n, isknown (step l) = true -> step l = n \/ step l = 555 \/ In (step l) (nexts n) ->
  chain n (init_step ag l) /\ last_step n (init_step ag l) = step l.
Proof. intros ag l n K H. unfold init_step. destruct (step l =? 555); cbn; auto. Qed.
Lemma joined_any : forall l m n, step m = step l -> (state l <= 0 -> state m <= 0) -> joined l n -> joined m n.
Proof. intros l m n S T [H|(A & B & C)]; [left; congruence|right]. rewrite S. auto. Qed.
Lemma joined_busy : forall l n, joined l n -> 0 < state l -> n = step l.
Proof. intros l n [H|H] P; [exact H|lia]. Qed.
Lemma zero_next : In 0 (nexts 555). Proof. left. reflexivity. Qed.
(** The step is set up again. *)
Lemma again_follows : forall ag l m n, sound l -> joined l n -> step m = step l -> follows n (m, init_step ag m).
Proof.
  intros ag l m n (K & _) J S. unfold follows. cbn [fst snd].
  destruct (chain_init ag m n) as [A B]; [rewrite S; exact K| |split; [exact A|left; exact B]].
  rewrite S. destruct J as [-> |(Z0 & _ & ->)]; [auto|]. right. right. rewrite Z0. exact zero_next.
Qed.
Lemma goto_follows : forall o a l n m, sound l -> joined l n -> step l <> 555 -> step m = step (goto_step o a l) -> follows n (m, init_step false m).
Proof.
  intros o a l n m (K & _) J N S. unfold follows. cbn [fst snd].
  destruct (goto_known o a l K N) as [G _]. destruct (goto_next o a l n K N J) as [E|E];
    (destruct (chain_init false m n) as [A B]; [rewrite S; exact G| |split; [exact A|left; exact B]]); rewrite S; auto.
Qed.
Lemma quiet_follows : forall l n m, joined l n -> step m = step l -> (state l <= 0 -> state m <= 0) -> follows n (m, []).
Proof. intros l n m J S T. split; [exact I|]. exact (joined_any l m n S T J). Qed.
Lemma skip_follows : forall n m a r, (forall k, chain k (a :: r) <-> chain k r) -> (forall k, last_step k [a] = k) ->
  follows n (m, r) -> follows n (m, a :: r).
Proof.
  intros n m a r H1 H2 [A B]. cbn [fst snd] in *. split; cbn [fst snd]; [apply H1, A|].
  change (a :: r) with ([a] ++ r). rewrite last_app, H2. exact B.
Qed.
Lemma command_follows : forall o i l n, sound l -> joined l n -> locked l = false -> follows n (eval_command o i l).
Proof.
  intros o i l n S J U. pose proof S as (K & _ & Z0). unfold eval_command.
  assert (Q : follows n (l, [])) by (apply (quiet_follows l); auto).
  destruct (cmd l =? NEXT).
  { destruct (negb (state l =? 0) && negb (step l =? 555)) eqn:E; [|exact Q]. apply andb_prop in E. destruct E as [_ E].
    apply negb_true_iff, Z.eqb_neq in E. apply (goto_follows o 0 l n (set_state 1 (goto_step o 0 l)) S J E). cbn [step set_state]. reflexivity. }
  destruct (cmd l =? PAUSE).
  { destruct ((0 <? state l) && negb (step l =? 555)) eqn:E; [|exact Q]. apply skip_follows; [reflexivity|reflexivity|].
    apply (quiet_follows l); [exact J|reflexivity|]. cbn. lia. }
  destruct (cmd l =? RESET).
  { destruct (negb (state l =? 0)) eqn:E; [|apply (quiet_follows l); auto]. apply skip_follows; [reflexivity|reflexivity|].
    split; cbn; [|left; reflexivity]. auto. }
  destruct (cmd l =? EVALUATE); [|exact Q].
  destruct (state l <? 0) eqn:E.
  { apply Z.ltb_lt in E. destruct (conflict l); [exact Q|]. destruct (negb (i_ready i)); [apply (quiet_follows l); auto; cbn; lia|].
    destruct (state l =? -32); [exact Q|]. apply (again_follows _ l); auto. }
  destruct (_ && _) eqn:E2; [|exact Q].
  apply andb_prop in E2. destruct E2 as [E2 _]. apply andb_prop in E2. destruct E2 as [E2 _]. apply Z.eqb_eq in E2.
  destruct (i_conf i); [apply (quiet_follows l); auto; cbn; lia|]. destruct (negb (i_ready i)); [apply (quiet_follows l); auto; cbn; lia|].
  destruct (_ && _); [apply (quiet_follows l); auto; cbn; lia|].
  apply skip_follows; [reflexivity|reflexivity|]. apply (again_follows _ l); auto.
Qed.
Lemma progress_follows : forall o i l n, sound l -> joined l n -> 0 < state l -> follows n (in_progress o i l).
Proof.
  intros o i l n S J P. pose proof (joined_busy l n J P) as E. subst n. pose proof S as (K & _).
  assert (D : forall m r, follows (step l) (m, r) -> follows (step l) (m, Do (step l) :: r)).
  { intros m r [A B]. split; cbn [fst snd chain] in *; [split; [reflexivity|exact A]|exact B]. }
  unfold in_progress. destruct (Z.eqb_spec (step l) 555) as [E|E].
  { destruct (_ && _).
    - assert (Q : forall r, (forall a, In a r -> match a with Halt | RecOff _ => True | _ => False end) -> forall k, chain k r /\ last_step k r = k).
      { induction r as [|a r IH]; intros H k; [cbn; auto|]. pose proof (H a (or_introl eq_refl)) as Ha.
        destruct (IH (fun b Hb => H b (or_intror Hb)) k) as [A B]. destruct a; try contradiction; split; cbn; auto. }
      assert (Q2 : forall a, In a (snd (finish l)) -> match a with Halt | RecOff _ => True | _ => False end).
      { intros a Ha. unfold finish, stop in Ha. cbn [snd app] in Ha. destruct Ha as [<-|Ha]; [exact I|]. destruct (conflict l); [destruct Ha|].
        destruct Ha as [<-|[]]. exact I. }
      destruct (Q _ Q2 555) as [Q3 Q4]. split; cbn [fst snd chain].
      + rewrite E. split; [reflexivity|exact Q3].
      + right. change (last_step (step l) (Do 555 :: snd (finish l))) with (last_step (step l) (snd (finish l))). rewrite E.
        repeat split; [cbn; lia|exact Q4].
    - rewrite <- E. apply D. apply (quiet_follows l); auto. }
  destruct (0 <? i_do i).
  { destruct (negb _) eqn:E2.
    - apply D. apply (goto_follows o (i_do i) l (step l) (goto_step o (i_do i) l) S J E). reflexivity.
    - apply D. apply negb_false_iff, Z.eqb_eq in E2. split; [exact I|]. left. cbn. congruence. }
  destruct (i_do i <? 0) eqn:E2.
  { apply D. apply skip_follows; [reflexivity|reflexivity|]. apply (quiet_follows l); auto. cbn. intros. apply Z.ltb_lt in E2. lia. }
  apply D. apply (quiet_follows l); auto.
Qed.
Lemma error_follows : forall i l n, sound l -> joined l n -> follows n (in_error i l).
Proof.
  intros i l n S J. unfold in_error. destruct (_ && _); [apply (again_follows _ l); auto|apply (quiet_follows l); auto].
Qed.
Lemma cycle_follows : forall o i l n, sound l -> joined l n -> follows n (cycle o i l).
Proof.
  intros o i l n S J. unfold cycle.
  assert (J0 : joined (eval_lock l) n).
  { apply (joined_any l); [apply lock_same| |exact J]. pose proof (known_pos _ (proj1 S)). unfold eval_lock.
    destruct (cmd l =? LOCK); cbn; [auto|]. destruct (cmd l =? UNLOCK); cbn; [|auto]. destruct (0 <? step l); lia. }
  apply lock_sound in S. revert S J0. generalize (eval_lock l). clear. intros l S J.
  destruct (locked l) eqn:U.
  { assert (Y : joined (set_state (-1000) (set_cmd 0 l)) n) by (apply (joined_any l); auto; cbn; lia).
    destruct (0 <? state l); (split; [exact I|exact Y]). }
  destruct (rec_fields l) as (r1 & r2 & r4 & r3 & _).
  assert (J1 : joined (eval_recipes l) n) by (apply (joined_any l); auto; lia).
  apply rec_sound in S. rewrite <- r4 in U. revert S J1 U. generalize (eval_recipes l). clear. intros l S J U.
  destruct (negb (cmd l =? 0)).
  { pose proof (command_follows o i l n S J U) as [A B]. split; [exact A|]. eapply joined_any; [| |exact B]; [reflexivity|auto]. }
  destruct (0 <? state l) eqn:P; [apply progress_follows; auto; apply Z.ltb_lt; exact P|].
  destruct (state l <? 0); [apply error_follows; auto|]. split; [exact I|exact J].
Qed.
Lemma run_chain : forall o es l n, sound l -> joined l n -> chain n (snd (run o l es)).
Proof.
  intros o es. induction es as [|e r IH]; intros l n S J; [exact I|]. cbn [run snd].
  assert (F : follows n (step_ev o l e)).
  { destruct e; cbn [step_ev]; try (split; [exact I|eapply joined_any; [| |exact J]; [reflexivity|auto]]). apply cycle_follows; assumption. }
  destruct F as [A B]. apply chain_app. split; [exact A|]. apply IH; [apply step_sound, S|exact B].
Qed.
Lemma history_chain : forall o es xs, history o es xs -> chain 0 (map fst xs).
Proof.
  intros o es xs (rest & E). assert (C : chain 0 (snd (run o new_line es))) by (apply run_chain; [exact new_sound|left; reflexivity]).
  rewrite <- E in C. apply chain_app in C. apply C.
Qed.
