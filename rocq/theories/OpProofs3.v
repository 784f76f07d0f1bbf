(** Proofs about operations: extra steps, the sequence of steps, times. *)
From Coq Require Import ZArith List Bool Lia.
From Verif Require Import Base TimeModel OpModel OpSpec OpProofs OpProofs2.
Import ListNotations.
Open Scope Z_scope.

(** * No step is listed twice *)

Definition nd (d : sdyn) : Prop := NoDup (extra d) /\ NoDup (saved d).

Lemma nodup_remove k : forall l, NoDup l -> NoDup (remove_first k l).
Proof.
  induction 1 as [|x l N H IH]; cbn; [constructor|]. destruct (x =? k); [auto|].
  constructor; [|exact IH]. intros I. apply N. eapply in_remove_first; eauto.
Qed.
Lemma nodup_replace k v : forall l, NoDup l -> ~ In v l -> NoDup (replace_first k v l).
Proof.
  induction 1 as [|x l N H IH]; cbn; [constructor|]. intros V. destruct (Z.eqb_spec x k).
  - constructor; tauto.
  - constructor; [|tauto]. intros I. apply in_replace in I as [I|I]; tauto.
Qed.
Lemma nodup_snoc k : forall l : list Z, NoDup l -> ~ In k l -> NoDup (l ++ [k]).
Proof.
  induction 1 as [|x l N H IH]; cbn; intros V; [repeat constructor; auto|].
  constructor; [|tauto]. rewrite in_app_iff. cbn. intuition.
Qed.

(** Fields not touched by a move of the main step. *)
Lemma to_step_lists s cf e k c : extra (dy (to_step s cf e k c)) = extra (dy c) /\ saved (dy (to_step s cf e k c)) = saved (dy c).
Proof.
  unfold to_step, on_step. cbv zeta.
  repeat match goal with |- context[if ?b then _ else _] => destruct b; cbn [dy upd emit wild step_init step_evaluate step_finalize
    extra saved set_next set_time set_act set_s_start set_s_dx negb] end; auto.
Qed.

Lemma nd_same d d' : nd d -> extra d' = extra d -> saved d' = saved d -> nd d'.
Proof. intros [H1 H2] E S. unfold nd. rewrite E, S. auto. Qed.
Lemma nd_to_step s cf e k c : nd (dy c) -> nd (dy (to_step s cf e k c)).
Proof. intros H. destruct (to_step_lists s cf e k c). eapply nd_same; eauto. Qed.
Lemma nd_on_step cf k f c : (forall c, nd (dy c) -> nd (dy (f k c))) -> nd (dy c) -> nd (dy (on_step cf k f c)).
Proof. intros H N. unfold on_step. destruct (in_range cf k); auto. Qed.

Section State.
  Context (s : Z) (cf : sconf) (e : env).
  Lemma nd_next c : nd (dy c) -> nd (dy (to_next_step s cf e c)).
  Proof. intros H. unfold to_next_step. cbv zeta. destruct (_ <? _); [destruct (_ =? _)|]; auto using nd_to_step. Qed.
  Lemma nd_turn c : nd (dy c) -> nd (dy (turn_off_active_step s cf c)).
  Proof.
    intros H. unfold turn_off_active_step. destruct (_ <? _); [|auto].
    apply (nd_on_step cf (act (dy c)) (step_finalize s) c); auto.
  Qed.
  Lemma nd_on k c : nd (dy c) -> nd (dy (on_extra_step s cf e k c)).
  Proof.
    intros H. unfold on_extra_step. cbv zeta. destruct (_ || _); [auto|]. destruct (_ =? _); [auto|].
    destruct (existsb _ _) eqn:E; [auto|].
    assert (X : nd (dy (upd (fun d => set_extra (extra d ++ [k]) d) c))).
    { destruct H as [H1 H2]. split; [|exact H2]. cbn. apply nodup_snoc; [exact H1|].
      intros I. apply existsb_In in I. congruence. }
    destruct (in_range cf k); [destruct (ok e k)|]; exact X.
  Qed.
  Lemma nd_off k c : nd (dy c) -> nd (dy (off_extra_step s cf k c)).
  Proof.
    intros H. unfold off_extra_step. destruct (_ || _); [auto|]. destruct (existsb _ _); [|auto].
    destruct (nd_on_step cf k (step_finalize s) c) as [H1 H2]; auto.
    split; [|exact H2]. cbn. apply nodup_remove. exact H1.
  Qed.
  Lemma nd_switch off on c : ~ In on (extra (dy c)) -> nd (dy c) -> nd (dy (switch_active_extra_step s cf e off on c)).
  Proof.
    intros N H. unfold switch_active_extra_step. cbv zeta. destruct (_ || _); [auto|]. destruct (_ =? _); [auto|].
    destruct (existsb _ _); [|auto].
    assert (X : forall c, extra (dy (on_step cf off (step_finalize s) c)) = extra (dy c) /\ saved (dy (on_step cf off (step_finalize s) c)) = saved (dy c)).
    { intros c0. unfold on_step. destruct (in_range cf off); auto. }
    assert (Y : forall c, extra (dy (on_step cf on (step_evaluate s) (on_step cf on (step_init s e) c))) = extra (dy c) /\
       saved (dy (on_step cf on (step_evaluate s) (on_step cf on (step_init s e) c))) = saved (dy c)).
    { intros c0. unfold on_step. destruct (in_range cf on); auto. }
    destruct H as [H1 H2]. split; cbn [upd dy set_extra extra saved].
    - rewrite (proj1 (Y _)), (proj1 (X _)). apply nodup_replace; auto.
    - rewrite (proj2 (Y _)), (proj2 (X _)). auto.
  Qed.
  Lemma nd_fold_init : forall l c, nd (dy c) ->
    nd (dy (fold_left (fun c k => if in_range cf k then step_init s e k c else c) l c)).
  Proof. induction l; intros c H; cbn [fold_left]; [auto|]. apply IHl. destruct (in_range cf a); auto. Qed.
  Lemma nd_fold_fin : forall l c, nd (dy c) ->
    nd (dy (fold_left (fun c k => if in_range cf k then step_finalize s k c else c) l c)).
  Proof. induction l; intros c H; cbn [fold_left]; [auto|]. apply IHl. destruct (in_range cf a); auto. Qed.
  Lemma nd_init first c : nd (dy c) -> nd (dy (state_init s cf e first c)).
  Proof.
    intros H. unfold state_init. cbv zeta. destruct (_ <=? _); [exact H|]. apply nd_fold_init, nd_to_step. exact H.
  Qed.
  Lemma nd_finalize c : nd (dy c) -> nd (dy (state_finalize s cf e c)).
  Proof.
    intros H. unfold state_finalize. cbv zeta. split; [constructor|]. cbn [upd dy set_extra saved].
    set (c2 := if 0 <? _ then _ else _).
    assert (X : nd (dy c2)).
    { unfold c2. destruct (_ <? _); [|exact H]. apply (nd_on_step cf _ (step_finalize s)); [auto|exact H]. }
    apply (nd_fold_fin (extra (dy c2)) c2 X).
  Qed.
  Lemma nd_loop : forall fuel idx c, nd (dy c) -> nd (dy (extra_loop s cf e fuel idx c)).
  Proof.
    induction fuel as [|f IH]; intros idx c H; cbn [extra_loop]; [auto|]. destruct (nth_error _ _); [|auto].
    apply IH. cbv zeta. destruct (in_range cf z); [|auto]. destruct (_ && _); [apply nd_off|]; exact H.
  Qed.
  Lemma nd_enable c : nd (dy c) -> nd (dy (enable_loop s cf e c)).
  Proof.
    unfold enable_loop. generalize (seq 1 (Z.to_nat (n_steps cf))). intros l. revert c.
    induction l as [|i l IH]; intros c H; cbn [fold_left]; [auto|]. apply IH. cbv zeta.
    destruct (existsb _ _); [auto|]. destruct (signal2 e _); auto using nd_on.
  Qed.
  Lemma nd_jump c : nd (dy c) -> nd (dy (jump_part s cf e c)).
  Proof.
    intros H. unfold jump_part. cbv zeta. apply nd_on_step; [auto|].
    destruct (jump e _) as [nx|]; [|auto]. destruct (0 <=? nx); auto using nd_to_step.
  Qed.
  Lemma nd_evaluate n c : nd (dy c) -> nd (dy (fst (state_evaluate s cf e n c))).
  Proof.
    intros H. unfold state_evaluate. cbv zeta. set (c3 := enable_loop s cf e _).
    assert (X : nd (dy c3)) by (apply nd_enable, nd_loop; exact H).
    destruct (_ <=? _); [exact X|]. destruct (_ <? _).
    - destruct (_ || _); [destruct (_ =? -1); [destruct (0 <? n)|]|]; cbn [fst];
        [exact X|apply nd_finalize; exact X|apply nd_to_step; exact X|apply nd_jump; exact X].
    - cbn [fst]. apply nd_jump. exact X.
  Qed.
End State.

Definition ond (o : oper) : Prop := forall s, nd (sts o s).

Lemma ond_in s f o : ond o -> nd (dy (f (view s o))) -> ond (in_state s f o).
Proof.
  intros O H s'. unfold in_state. cbn [sts]. destruct (s' =? s); [exact H|apply O].
Qed.
Lemma ond_init e s k o : ond o -> ond (init_st e s k o).
Proof. intros O. apply ond_in; [exact O|]. apply nd_init, O. Qed.
Lemma ond_fin e s o : ond o -> ond (fin_st e s o).
Proof. intros O. apply ond_in; [exact O|]. apply nd_finalize, O. Qed.
Lemma ond_eval e s o : ond o -> ond (fst (eval_st e s o)).
Proof. intros O. cbn [eval_st fst]. apply ond_in; [exact O|]. apply nd_evaluate, O. Qed.
Lemma ond_cur s o : ond o -> ond (set_cur s o).
Proof. exact (fun H => H). Qed.
Lemma ond_save s o : ond o -> ond (in_state s save_steps o).
Proof. intros O. apply ond_in; [exact O|]. destruct (O s). split; auto. Qed.
Lemma ond_load s o : ond o -> ond (in_state s load_steps o).
Proof. intros O. apply ond_in; [exact O|]. destruct (O s). split; auto. Qed.
Lemma ond_dx s o : ond o -> ond (in_state s add_dx_step_time o).
Proof. intros O. apply ond_in; [exact O|]. destruct (O s). cbn. destruct (_ <? _); split; auto. Qed.

Lemma ond_run e n o : ond o -> ond (fst (to_run_state e n o)).
Proof.
  intros O. unfold to_run_state. cbv zeta. apply ond_eval.
  pose proof (ond_load RUN (set_cur RUN o) O) as X.
  destruct (0 <? n); [destruct (n =? _)|destruct (0 <? run_step o)]; auto using ond_dx, ond_init.
Qed.

(** Exchanging an extra step for one that is already an active extra step. *)
Definition overlaps (c : call) (o : oper) : Prop :=
  match c with CSwitchExtra _ on => In on (extra (sts o (cur o))) | _ => False end.
Fixpoint no_overlap (h : list (env * call)) (o : oper) : Prop :=
  match h with
  | [] => True
  | (e, c) :: r => ~ overlaps c o /\ no_overlap r (do_call e c o)
  end.

Lemma ond_call e c o : ~ overlaps c o -> ond o -> ond (do_call e c o).
Proof.
  intros V O. destruct c; cbn [do_call overlaps] in *.
  - unfold op_start. cbv zeta. repeat (destruct (_ =? _)); cbn [fst];
      repeat match goal with |- context[if empty ?x then _ else _] => destruct (empty x) end;
      auto using ond_run, ond_fin.
    + apply (ond_init e RUN 1). apply ond_cur, ond_fin, O.
    + apply (ond_init e STARTING 1). apply ond_cur, ond_fin, O.
    + apply ond_eval, ond_init, ond_cur, ond_fin, O.
    + apply (ond_init e RUN 1). apply ond_cur, ond_fin, O.
  - unfold op_pause. cbv zeta. destruct (_ =? _).
    + apply ond_eval, ond_init, ond_cur, ond_fin, ond_save. exact O.
    + destruct (_ =? _); [|exact O]. cbn [fst]. apply ond_init, ond_cur, ond_fin, O.
  - unfold op_stop. cbv zeta. destruct (_ || _); [|destruct (_ =? _)]; auto; apply ond_eval, ond_init, ond_cur, ond_fin, O.
  - unfold op_switch_off. destruct (_ =? _); auto; apply ond_eval, ond_init, ond_cur, ond_fin, O.
  - unfold op_finalize. destruct (_ <? _); auto. pose proof (ond_fin e (cur o) o O) as X.
    intros s. cbn [set_cur sts]. destruct (_ && _); [|apply X]. destruct (X s). split; auto.
  - apply ond_eval, O.
  - apply ond_in; [exact O|]. apply nd_to_step, O.
  - apply ond_in; [exact O|]. apply nd_next, O.
  - apply ond_in; [exact O|]. apply nd_turn, O.
  - apply ond_in; [exact O|]. apply nd_on, O.
  - apply ond_in; [exact O|]. apply nd_off, O.
  - apply ond_in; [exact O|]. apply nd_switch; [exact V|apply O].
Qed.

Lemma ond_calls : forall h o, no_overlap h o -> ond o -> ond (run_calls h o).
Proof.
  induction h as [|[e c] r IH]; intros o V O; cbn [run_calls no_overlap] in *; [exact O|].
  destruct V as [V1 V2]. apply IH; [exact V2|]. apply ond_call; auto.
Qed.

(** * The sequence of steps *)

(** What the evaluation of extra steps leaves alone. *)
Definition frame (d d' : sdyn) : Prop :=
  act d' = act d /\ act_next d' = act_next d /\ s_start d' (act d) = s_start d (act d) /\ s_dx d' (act d) = s_dx d (act d) /\
  ~ In (act d) (extra d').

Section Next.
  Context (s : Z) (cf : sconf) (e : env).

  Lemma frame_trans a b c : frame a b -> frame b c -> frame a c.
  Proof. intros (A1 & A2 & A3 & A4 & A5) (B1 & B2 & B3 & B4 & B5). rewrite A1 in *. repeat split; congruence. Qed.

  Lemma frame_off k c : ~ In (act (dy c)) (extra (dy c)) -> 0 < act (dy c) -> frame (dy c) (dy (off_extra_step s cf k c)).
  Proof.
    intros N P. unfold off_extra_step. destruct (_ || _); [repeat split; auto|].
    destruct (existsb _ _) eqn:X; [|repeat split; auto]. apply existsb_In in X.
    assert (K : act (dy c) <> k) by congruence.
    unfold on_step. destruct (in_range cf k); repeat split; auto; cbn [upd dy set_extra extra step_finalize emit wild set_s_dx s_dx].
    - unfold put. replace (act (dy c) =? k) with false by lia. reflexivity.
    - intros I. apply in_remove_first in I. auto.
    - intros I. apply in_remove_first in I. auto.
  Qed.
  Lemma frame_on k c : ~ In (act (dy c)) (extra (dy c)) -> frame (dy c) (dy (on_extra_step s cf e k c)).
  Proof.
    intros N. unfold on_extra_step. cbv zeta. destruct (_ || _); [repeat split; auto|].
    destruct (Z.eqb_spec (act (dy c)) k) as [|K]; [repeat split; auto|]. destruct (existsb _ _); [repeat split; auto|].
    assert (M : ~ In (act (dy c)) (extra (dy c) ++ [k])) by (rewrite in_app_iff; cbn; intuition).
    destruct (in_range cf k); [destruct (ok e k)|]; repeat split; auto;
      cbn [upd dy step_evaluate step_init emit set_s_start s_start set_extra]. unfold put.
    replace (act (dy c) =? k) with false by lia. reflexivity.
  Qed.
  Lemma frame_loop : forall fuel idx c, ~ In (act (dy c)) (extra (dy c)) -> 0 < act (dy c) ->
    frame (dy c) (dy (extra_loop s cf e fuel idx c)).
  Proof.
    induction fuel as [|f IH]; intros idx c N P; cbn [extra_loop]; [repeat split; auto|].
    destruct (nth_error _ _) as [k|]; [|repeat split; auto]. cbv zeta.
    destruct (in_range cf k); [|apply IH; auto].
    destruct (_ && _); [|exact (IH (S idx) (step_evaluate s k c) N P)].
    pose proof (frame_off k (step_evaluate s k c) N P) as F.
    eapply frame_trans; [exact F|]. destruct F as (A1 & A2 & A3 & A4 & A5).
    apply IH; rewrite A1; [exact A5|exact P].
  Qed.
  Lemma frame_enable c : ~ In (act (dy c)) (extra (dy c)) -> frame (dy c) (dy (enable_loop s cf e c)).
  Proof.
    unfold enable_loop. generalize (seq 1 (Z.to_nat (n_steps cf))). intros l. revert c.
    induction l as [|i l IH]; intros c N; cbn [fold_left]; [repeat split; auto|]. cbv zeta.
    destruct (existsb _ _); [apply IH; auto|]. destruct (signal2 e _); [|apply IH; auto].
    pose proof (frame_on (Z.of_nat i) c N) as F. eapply frame_trans; [exact F|].
    destruct F as (A1 & A2 & A3 & A4 & A5). apply IH. rewrite A1. exact A5.
  Qed.

  Lemma to_step_act k c : act (dy (to_step s cf e k c)) = if in_range cf k then k else act (dy c).
  Proof.
    unfold to_step, on_step. destruct (in_range cf k); cbn [negb]; [|reflexivity]. cbv zeta.
    repeat match goal with |- context[if ?b then _ else _] => destruct b; cbn [dy upd emit wild step_init step_evaluate step_finalize
      act set_next set_time set_act set_s_start set_s_dx negb] end; auto.
  Qed.

  Lemma act_evaluate n c : ~ In (act (dy c)) (extra (dy c)) -> 0 < act (dy c) -> 0 < n ->
    0 <= par e (dur_par cf (act (dy c))) < 2 ^ 32 ->
    let timeout := (0 <? dur_par cf (act (dy c))) &&
        ((par e (dur_par cf (act (dy c))) =? 0) || (par e (dur_par cf (act (dy c))) <? eval_time e (act (dy c)) (dy c))) in
    act (dy (fst (state_evaluate s cf e n c))) =
      next_step cf (fun k => par e (dur_par cf k)) (jump e (act (dy c))) (act_next (dy c)) (act (dy c)) (eval_time e (act (dy c)) (dy c)) /\
    snd (state_evaluate s cf e n c) = timeout && (act_next (dy c) =? -1).
  Proof.
    intros N P Hn Hp. cbv zeta. unfold state_evaluate. cbv zeta.
    set (c1 := step_evaluate s 0 c). set (c2 := extra_loop s cf e _ 0 c1). set (c3 := enable_loop s cf e c2).
    assert (F : frame (dy c) (dy c3)).
    { assert (F1 : frame (dy c) (dy c2)) by (apply (frame_loop (length (extra (dy c1))) 0 c1 N P)).
      eapply frame_trans; [exact F1|]. destruct F1 as (A1 & A2 & A3 & A4 & A5). apply frame_enable. rewrite A1. exact A5. }
    destruct F as (A1 & A2 & A3 & A4 & A5). rewrite A1. destruct (Z.leb_spec (act (dy c)) 0); [lia|].
    set (a := act (dy c)) in *. unfold next_step.
    assert (EV : forall x y, eval_time e a (set_time x (set_max y (dy c3))) = eval_time e a (dy c)).
    { intros x y. unfold eval_time, latest_time. cbn. rewrite A3, A4. reflexivity. }
    assert (JP : forall c0, act (dy c0) = a ->
      act (dy (jump_part s cf e c0)) = match jump e a with Some j => if in_range cf j then j else a | None => a end).
    { intros c0 E0. unfold jump_part, on_step. cbv zeta. rewrite E0.
      transitivity (act (dy match jump e a with Some nx => if 0 <=? nx then to_step s cf e nx c0 else c0 | None => c0 end)).
      - destruct (in_range cf (act _)); reflexivity.
      - destruct (jump e a) as [j|]; [|exact E0]. destruct (Z.leb_spec 0 j).
        + rewrite to_step_act, E0. reflexivity.
        + rewrite E0. unfold in_range. destruct (Z.leb_spec 1 j); [lia|reflexivity]. }
    destruct (0 <? dur_par cf a) eqn:D; cbn [andb].
    - cbn [upd dy set_time act_time act_next set_max]. rewrite EV, A2.
      assert (T1 : (s32 (par e (dur_par cf a)) =? 0) = (par e (dur_par cf a) =? 0)) by (unfold s32; destruct (Z.eqb_spec (par e (dur_par cf a)) 0); destruct (Z.eqb_spec ((par e (dur_par cf a) + 2 ^ 31) mod 2 ^ 32 - 2 ^ 31) 0); try reflexivity; exfalso; Z.div_mod_to_equations; lia).
      assert (T2 : u32 (s32 (par e (dur_par cf a))) = par e (dur_par cf a)).
      { unfold u32, s32. rewrite Zminus_mod_idemp_l. replace (_ + _ - _) with (par e (dur_par cf a)) by lia. apply Z.mod_small. exact Hp. }
      rewrite T1, T2. destruct (_ || _) eqn:TO.
      + destruct (Z.eqb_spec (act_next (dy c)) (-1)) as [NX|NX].
        * replace (0 <? n) with true by lia. rewrite NX. split; [|reflexivity]. cbn. exact A1.
        * cbn [fst snd]. split; [|reflexivity]. rewrite to_step_act. cbn [upd dy set_time set_max act]. rewrite A1. reflexivity.
      + cbn [fst snd]. split; [|reflexivity]. apply JP. exact A1.
    - cbn [fst snd]. split; [|reflexivity]. apply JP. exact A1.
  Qed.
End Next.

(** * Fields kept by the calls *)

Definition nexts (cf : sconf) (d : sdyn) : Prop := 0 < act d -> act_next d = next_n cf (act d).
Definition calm (d d' : sdyn) : Prop := start_time d' = start_time d.

Section Keep.
  Context (s : Z) (cf : sconf) (e : env).

  (** Both facts together. *)
  Definition fine (c c' : ctx) : Prop := calm (dy c) (dy c') /\ (nexts cf (dy c) -> nexts cf (dy c')).
  Lemma fine_refl c : fine c c.
  Proof. split; [reflexivity|auto]. Qed.
  Lemma fine_trans a b c : fine a b -> fine b c -> fine a c.
  Proof. intros [A1 A2] [B1 B2]. split; [unfold calm in *; congruence|auto]. Qed.
  Lemma fine_main c c' : start_time (dy c') = start_time (dy c) -> act (dy c') = act (dy c) -> act_next (dy c') = act_next (dy c) -> fine c c'.
  Proof. intros A B C. split; [exact A|]. unfold nexts. rewrite B, C. auto. Qed.

  Lemma fine_to_step k c : fine c (to_step s cf e k c).
  Proof.
    unfold to_step, on_step. destruct (in_range cf k); cbn [negb]; [|apply fine_refl]. cbv zeta.
    split.
    - unfold calm. repeat match goal with |- context[if ?b then _ else _] => destruct b; cbn [dy upd emit wild step_init step_evaluate step_finalize
      start_time set_next set_time set_act set_s_start set_s_dx negb] end; reflexivity.
    - intros _ _. repeat match goal with |- context[if ?b then _ else _] => destruct b; cbn [dy upd emit wild step_init step_evaluate step_finalize
      act act_next set_next set_time set_act set_s_start set_s_dx negb] end; reflexivity.
  Qed.
  Lemma fine_next c : fine c (to_next_step s cf e c).
  Proof. unfold to_next_step. cbv zeta. destruct (_ <? _); [destruct (_ =? _)|]; auto using fine_to_step, fine_refl. Qed.
  Lemma fine_turn c : fine c (turn_off_active_step s cf c).
  Proof.
    unfold turn_off_active_step, on_step. destruct (_ <? _); [|apply fine_refl].
    split; [destruct (in_range cf _); reflexivity|]. intros _ H. cbn in H. lia.
  Qed.
  Lemma fine_on k c : fine c (on_extra_step s cf e k c).
  Proof.
    unfold on_extra_step. cbv zeta. destruct (_ || _); [apply fine_refl|]. destruct (_ =? _); [apply fine_refl|].
    destruct (existsb _ _); [apply fine_refl|]. destruct (in_range cf k); [destruct (ok e k)|]; apply fine_main; reflexivity.
  Qed.
  Lemma fine_off k c : fine c (off_extra_step s cf k c).
  Proof.
    unfold off_extra_step, on_step. destruct (_ || _); [apply fine_refl|]. destruct (existsb _ _); [|apply fine_refl].
    destruct (in_range cf k); apply fine_main; reflexivity.
  Qed.
  Lemma fine_switch a b c : fine c (switch_active_extra_step s cf e a b c).
  Proof.
    unfold switch_active_extra_step, on_step. cbv zeta. destruct (_ || _); [apply fine_refl|]. destruct (_ =? _); [apply fine_refl|].
    destruct (existsb _ _); [|apply fine_refl]. destruct (in_range cf a), (in_range cf b); apply fine_main; reflexivity.
  Qed.
  Lemma fine_loop : forall fuel idx c, fine c (extra_loop s cf e fuel idx c).
  Proof.
    induction fuel as [|f IH]; intros idx c; cbn [extra_loop]; [apply fine_refl|].
    destruct (nth_error _ _); [|apply fine_refl]. eapply fine_trans; [|apply IH]. cbv zeta.
    destruct (in_range cf _); [|apply fine_refl]. destruct (_ && _).
    - eapply fine_trans; [|apply fine_off]. apply fine_main; reflexivity.
    - apply fine_main; reflexivity.
  Qed.
  Lemma fine_enable c : fine c (enable_loop s cf e c).
  Proof.
    unfold enable_loop. generalize (seq 1 (Z.to_nat (n_steps cf))). intros l. revert c.
    induction l as [|i l IH]; intros c; cbn [fold_left]; [apply fine_refl|]. eapply fine_trans; [|apply IH]. cbv zeta.
    destruct (existsb _ _); [apply fine_refl|]. destruct (signal2 e _); [apply fine_on|apply fine_refl].
  Qed.
  Lemma fine_jump c : fine c (jump_part s cf e c).
  Proof.
    unfold jump_part. cbv zeta. set (c1 := match jump e _ with Some _ => _ | None => _ end).
    apply (fine_trans c c1).
    - unfold c1. destruct (jump e _); [|apply fine_refl]. destruct (_ <=? _); auto using fine_to_step, fine_refl.
    - unfold on_step. destruct (in_range cf _); apply fine_main; reflexivity.
  Qed.
  Lemma fine_evaluate n c : 0 < n -> fine c (fst (state_evaluate s cf e n c)).
  Proof.
    intros Hn. unfold state_evaluate. cbv zeta. set (c3 := enable_loop s cf e _).
    assert (X : fine c c3).
    { unfold c3. eapply fine_trans; [|apply fine_enable]. eapply fine_trans; [|apply fine_loop]. apply fine_main; reflexivity. }
    destruct (_ <=? _); [exact X|]. destruct (0 <? dur_par _ _).
    - destruct (_ || _); [destruct (_ =? -1)|].
      + replace (0 <? n) with true by lia. cbn [fst]. eapply fine_trans; [exact X|]. apply fine_main; reflexivity.
      + cbn [fst]. eapply fine_trans; [|apply fine_to_step]. eapply fine_trans; [exact X|]. apply fine_main; reflexivity.
      + cbn [fst]. eapply fine_trans; [|apply fine_jump]. eapply fine_trans; [exact X|]. apply fine_main; reflexivity.
    - cbn [fst]. eapply fine_trans; [|apply fine_jump]. eapply fine_trans; [exact X|]. apply fine_main; reflexivity.
  Qed.
  Lemma init_spec first c : start_time (dy (state_init s cf e first c)) = now e /\ nexts cf (dy (state_init s cf e first c)).
  Proof.
    unfold state_init. cbv zeta. set (c1 := upd _ _).
    assert (N1 : nexts cf (dy c1)) by (intros H; cbn in H; lia).
    destruct (_ <=? _); [auto|]. destruct (fine_to_step first c1) as [T N].
    set (c2 := to_step s cf e first c1) in *. specialize (N N1).
    assert (X : forall l c, fine c (fold_left (fun c k => if in_range cf k then step_init s e k c else c) l c)).
    { induction l as [|x l IH]; intros c0; cbn [fold_left]; [apply fine_refl|]. eapply fine_trans; [|apply IH].
      destruct (in_range cf x); apply fine_main; reflexivity. }
    destruct (X (extra (dy c2)) c2) as [T2 N2]. unfold calm in *. rewrite T2, T. auto.
  Qed.
  Lemma finalize_act c : act (dy (state_finalize s cf e c)) = 0 \/ act (dy (state_finalize s cf e c)) = act (dy c) /\ act (dy c) <= 0.
  Proof.
    unfold state_finalize. cbv zeta. cbn [upd dy set_extra act].
    assert (X : forall l c, act (dy (fold_left (fun c k => if in_range cf k then step_finalize s k c else c) l c)) = act (dy c)).
    { induction l as [|x l IH]; intros c0; cbn [fold_left]; [reflexivity|]. rewrite IH. destruct (in_range cf x); reflexivity. }
    rewrite X. match goal with |- context[0 <? ?a] => destruct (Z.ltb_spec 0 a) as [P|P] end.
    - left. reflexivity.
    - right. split; [reflexivity|exact P].
  Qed.
End Keep.

(** * Every main step knows its successor *)

Definition onext (o : oper) : Prop := forall s, nexts (conf o s) (sts o s).
Lemma onext_in s f o : onext o -> nexts (conf o s) (dy (f (view s o))) -> onext (in_state s f o).
Proof.
  intros O H s'. unfold in_state. cbn [sts conf]. destruct (Z.eqb_spec s' s) as [->|]; [exact H|apply O].
Qed.
Lemma onext_init e s k o : onext o -> onext (init_st e s k o).
Proof. intros O. apply onext_in; [exact O|]. apply init_spec. Qed.
Lemma onext_fin e s o : onext o -> onext (fin_st e s o).
Proof.
  intros O. apply onext_in; [exact O|]. intros H. destruct (finalize_act s (conf o s) e (view s o)) as [X|[X Y]]; lia.
Qed.
Lemma onext_eval e s o : 0 < num o -> onext o -> onext (fst (eval_st e s o)).
Proof. intros N O. cbn [eval_st fst]. apply onext_in; [exact O|]. apply fine_evaluate; [exact N|apply O]. Qed.
Lemma onext_upd s f o : (forall d, act (f d) = act d /\ act_next (f d) = act_next d) -> onext o -> onext (in_state s (upd f) o).
Proof.
  intros H O. apply onext_in; [exact O|]. unfold nexts. cbn. destruct (H (sts o s)) as [-> ->]. apply O.
Qed.
Lemma onext_cur s o : onext o -> onext (set_cur s o).
Proof. exact (fun H => H). Qed.
Lemma onext_dx s o : onext o -> onext (in_state s add_dx_step_time o).
Proof. apply onext_upd. intros d. destruct (_ <? _); auto. Qed.

Lemma onext_run e n o : 0 < num o -> onext o -> onext (fst (to_run_state e n o)).
Proof.
  intros N O. unfold to_run_state. cbv zeta.
  assert (X : onext (in_state RUN load_steps (set_cur RUN o))) by (apply onext_upd; [auto|exact O]).
  destruct (0 <? n); [destruct (n =? _)|destruct (0 <? run_step o)]; apply onext_eval; auto using onext_dx, onext_init.
Qed.

Lemma onext_call e c o : 0 < num o -> onext o -> onext (do_call e c o).
Proof.
  intros N O. destruct c; cbn [do_call].
  - unfold op_start. cbv zeta. repeat (destruct (_ =? _)); cbn [fst];
      repeat match goal with |- context[if empty ?x then _ else _] => destruct (empty x) end;
      auto using onext_run, onext_fin.
    + apply (onext_init e RUN 1). apply onext_cur, onext_fin, O.
    + apply (onext_init e STARTING 1). apply onext_cur, onext_fin, O.
    + apply onext_eval; [exact N|]. apply onext_init, onext_cur, onext_fin, O.
    + apply (onext_init e RUN 1). apply onext_cur, onext_fin, O.
  - unfold op_pause. cbv zeta. destruct (_ =? _).
    + apply onext_eval; [exact N|]. apply onext_init, onext_cur, onext_fin. apply onext_upd; [auto|exact O].
    + destruct (_ =? _); [|exact O]. cbn [fst]. apply onext_init, onext_cur, onext_fin, O.
  - unfold op_stop. cbv zeta. destruct (_ || _); [|destruct (_ =? _)]; auto; (apply onext_eval; [exact N|]; apply onext_init, onext_cur, onext_fin, O).
  - unfold op_switch_off. destruct (_ =? _); auto; apply onext_eval; [exact N|]; apply onext_init, onext_cur, onext_fin, O.
  - unfold op_finalize. destruct (_ <? _); auto. pose proof (onext_fin e (cur o) o O) as X.
    intros s. cbn [set_cur sts conf]. destruct (_ && _); [|apply X]. exact (X s).
  - apply onext_eval; [exact N|exact O].
  - apply onext_in; [exact O|]. apply fine_to_step, O.
  - apply onext_in; [exact O|]. apply fine_next, O.
  - apply onext_in; [exact O|]. apply fine_turn, O.
  - apply onext_in; [exact O|]. apply fine_on, O.
  - apply onext_in; [exact O|]. apply fine_off, O.
  - apply onext_in; [exact O|]. apply fine_switch, O.
Qed.

Lemma onext_calls : forall h o, 0 < num o -> onext o -> onext (run_calls h o).
Proof.
  induction h as [|[e c] r IH]; intros o N O; cbn [run_calls]; [exact O|].
  apply IH; [rewrite (proj2 (conf_call e c o)); exact N|]. apply onext_call; auto.
Qed.
Lemma onext_new n cf : onext (new_oper n cf).
Proof. intros s H. cbn in H. lia. Qed.

(** * Running time *)

Definition timed (w : stopwatch) (o : oper) : Prop :=
  run_time o = total w /\ (cur o = RUN -> start_time (sts o RUN) = since w).

Lemma start_eval e s o s' : 0 < num o -> start_time (sts (fst (eval_st e s o)) s') = start_time (sts o s').
Proof.
  intros N. cbn [eval_st fst in_state sts]. destruct (Z.eqb_spec s' s) as [->|]; [|reflexivity].
  exact (proj1 (fine_evaluate s (conf o s) e (num o) (view s o) N)).
Qed.
Lemma start_init e s k o : start_time (sts (init_st e s k o) s) = now e.
Proof. cbn [init_st in_state sts]. rewrite Z.eqb_refl. apply init_spec. Qed.

Lemma to_run_spec e n o : 0 < num o ->
  let o' := fst (to_run_state e n o) in
  cur o' = RUN /\ run_time o' = run_time o /\ start_time (sts o' RUN) = now e.
Proof.
  intros N. unfold to_run_state. cbv zeta. set (o2 := if 0 <? n then _ else _).
  assert (X : cur o2 = RUN /\ run_time o2 = run_time o /\ start_time (sts o2 RUN) = now e /\ num o2 = num o).
  { assert (Y : forall o, start_time (sts (in_state RUN add_dx_step_time o) RUN) = start_time (sts o RUN)).
    { intros x. unfold in_state, add_dx_step_time. cbn [sts upd dy]. rewrite Z.eqb_refl. destruct (0 <? act (sts x RUN)); reflexivity. }
    unfold o2. destruct (0 <? n); [destruct (n =? _)|destruct (0 <? run_step o)];
      (split; [reflexivity|split; [reflexivity|split; [rewrite ?Y; apply start_init|reflexivity]]]). }
  destruct X as (X1 & X2 & X3 & X4).
  split; [exact X1|]. split; [exact X2|]. rewrite start_eval by lia. exact X3.
Qed.

Lemma timed_same_state w o o' t : timed w o -> cur o' = cur o -> run_time o' = run_time o ->
  start_time (sts o' RUN) = start_time (sts o RUN) -> timed (watch w (cur o) (cur o') t) o'.
Proof.
  intros [T1 T2] C R S. unfold watch. rewrite C, Z.eqb_refl.
  replace ((cur o =? RUN) && ((cur o =? PAUSE) || (cur o =? PAUSING))) with false
    by (unfold RUN, PAUSE, PAUSING; lia).
  split; [congruence|]. rewrite C, S. exact T2.
Qed.

Lemma in_start f o s : calm (sts o s) (dy (f (view s o))) -> start_time (sts (in_state s f o) RUN) = start_time (sts o RUN).
Proof. intros H. cbn [in_state sts]. destruct (Z.eqb_spec RUN s) as [<-|]; [exact H|reflexivity]. Qed.

Lemma timed_call e c o w : 0 < num o -> In (cur o) all_states -> timed w o ->
  timed (watch w (cur o) (cur (do_call e c o)) (now e)) (do_call e c o).
Proof.
  intros N I T. destruct c; cbn [do_call].
  - unfold op_start. cbv zeta.
    destruct (Z.eqb_spec (cur o) IDLE) as [E|_].
    { rewrite E. cbn [fst]. set (nx := if empty (conf o STARTING) then RUN else STARTING).
      change (cur (set_run_time 0 (init_st e nx 1 (set_cur nx (fin_st e IDLE o))))) with nx.
      assert (X : nx = RUN \/ nx = STARTING) by (unfold nx; destruct (empty _); auto).
      split; [destruct X as [-> | ->]; reflexivity|]. intros R. change (nx = RUN) in R. clearbody nx. subst nx.
      transitivity (now e); [apply start_init|reflexivity]. }
    destruct (Z.eqb_spec (cur o) PAUSE) as [E|_].
    { rewrite E. destruct T as [T1 T2]. destruct (empty (conf o UNPAUSING)).
      - destruct (to_run_spec e new (fin_st e PAUSE o) N) as (A & B & C). rewrite A. split; [exact (eq_trans B T1)|].
        intros _. exact C.
      - split; [exact T1|]. intros R. discriminate R. }
    destruct (Z.eqb_spec (cur o) STARTING) as [E|_].
    { rewrite E. split; [reflexivity|]. intros _. transitivity (now e); [apply start_init|reflexivity]. }
    destruct (Z.eqb_spec (cur o) UNPAUSING) as [E|_].
    { rewrite E. destruct T as [T1 T2]. destruct (to_run_spec e new o N) as (A & B & C). rewrite A.
      split; [exact (eq_trans B T1)|]. intros _. exact C. }
    apply timed_same_state; auto.
  - unfold op_pause. cbv zeta. destruct (Z.eqb_spec (cur o) RUN) as [E|_].
    { rewrite E. destruct T as [T1 T2]. set (nx := if empty (conf o PAUSING) then PAUSE else PAUSING).
      assert (X : nx = PAUSE \/ nx = PAUSING) by (unfold nx; destruct (empty _); auto). clearbody nx.
      match goal with |- timed (watch w RUN (cur ?x) _) _ => change (cur x) with nx end.
      specialize (T2 E). destruct X as [-> | ->]; (split; [|intros R; discriminate R]);
        cbn [eval_st fst in_state run_time init_st fin_st set_cur set_run_step set_run_time watch total];
        unfold evaluation_time; rewrite T1, T2; reflexivity. }
    destruct (Z.eqb_spec (cur o) PAUSING) as [E|_].
    { rewrite E. destruct T as [T1 T2]. split; [exact T1|intros R; discriminate R]. }
    apply timed_same_state; auto.
  - unfold op_stop. cbv zeta.
    set (nx := if empty (conf o STOPPING) then STOP else STOPPING).
    assert (X : nx = STOP \/ nx = STOPPING) by (unfold nx; destruct (empty _); auto). clearbody nx.
    destruct (_ || _) eqn:G.
    { match goal with |- timed (watch w _ (cur ?x) _) _ => change (cur x) with nx end.
      destruct T as [T1 T2]. split; [|intros R; change (nx = RUN) in R; destruct X; subst nx; discriminate].
      transitivity (run_time o); [reflexivity|]. rewrite T1. rewrite !orb_true_iff, !Z.eqb_eq in G.
      destruct G as [[[[G|G]|G]|G]|G]; rewrite G; destruct X as [-> | ->]; reflexivity. }
    destruct (Z.eqb_spec (cur o) STOPPING) as [E|_].
    { rewrite E. destruct T as [T1 T2]. split; [exact T1|intros R; discriminate R]. }
    apply timed_same_state; auto.
  - unfold op_switch_off. destruct (Z.eqb_spec (cur o) IDLE) as [E|D]; [apply timed_same_state; auto|].
    destruct T as [T1 T2]. split; [|intros R; discriminate R].
    transitivity (run_time o); [reflexivity|]. rewrite T1. cbn in I.
    destruct I as [I|[I|[I|[I|[I|[I|[I|[I|[]]]]]]]]]; rewrite <- I in *; try congruence; reflexivity.
  - unfold op_finalize. destruct (Z.ltb_spec 0 (cur o)) as [D|D]; [|apply timed_same_state; auto].
    destruct T as [T1 T2]. split; [|intros R; discriminate R].
    transitivity (run_time o); [reflexivity|]. rewrite T1. cbn in I.
    destruct I as [I|[I|[I|[I|[I|[I|[I|[I|[]]]]]]]]]; rewrite <- I in *; try discriminate; reflexivity.
  - apply timed_same_state; auto. apply start_eval, N.
  - apply timed_same_state; auto. apply in_start. apply fine_to_step.
  - apply timed_same_state; auto. apply in_start. apply fine_next.
  - apply timed_same_state; auto. apply in_start. apply fine_turn.
  - apply timed_same_state; auto. apply in_start. apply fine_on.
  - apply timed_same_state; auto. apply in_start. apply fine_off.
  - apply timed_same_state; auto. apply in_start. apply fine_switch.
Qed.

Lemma states_call e c o : In (cur o) all_states -> In (cur (do_call e c o)) all_states.
Proof.
  intros I. destruct (Z.eq_dec (cur (do_call e c o)) (cur o)) as [->|N]; [exact I|].
  pose proof (edges e c o I N) as E. revert E. generalize (cur (do_call e c o)). intros x E.
  destruct E; cbn; try tauto; repeat match goal with H : _ \/ _ |- _ => destruct H end; subst; tauto.
Qed.
Lemma states_run : forall h o, In (cur o) all_states -> In (cur (run_calls h o)) all_states.
Proof. induction h as [|[e c] r IH]; intros o I; cbn [run_calls]; [exact I|]. apply IH, states_call, I. Qed.

Lemma timed_calls : forall h o w, 0 < num o -> In (cur o) all_states -> timed w o ->
  timed (watch_calls h o w) (run_calls h o).
Proof.
  induction h as [|[e c] r IH]; intros o w N I T; cbn [run_calls watch_calls]; [exact T|].
  apply IH; [rewrite (proj2 (conf_call e c o)); exact N|apply states_call, I|]. apply timed_call; auto.
Qed.

(** * The time of a step across a pause *)

Lemma dx_put : forall cf s e l c, dx_step (dy (fold_left (fun c k => if in_range cf k then step_init s e k c else c) l c)) = dx_step (dy c) /\
  act (dy (fold_left (fun c k => if in_range cf k then step_init s e k c else c) l c)) = act (dy c) /\
  extra (dy (fold_left (fun c k => if in_range cf k then step_init s e k c else c) l c)) = extra (dy c) /\
  forall a, ~ In a l -> s_start (dy (fold_left (fun c k => if in_range cf k then step_init s e k c else c) l c)) a = s_start (dy c) a.
Proof.
  intros cf s e. induction l as [|x l IH]; intros c; cbn [fold_left]; [auto|].
  destruct (IH (if in_range cf x then step_init s e x c else c)) as (A & B & C & D). rewrite A, B, C.
  repeat split; try (destruct (in_range cf x); reflexivity). intros a N. rewrite D by (cbn in N; tauto).
  destruct (in_range cf x); [|reflexivity]. cbn. unfold put. replace (a =? x) with false; [reflexivity|].
  cbn in N. lia.
Qed.

Lemma init_at s cf e a c : in_range cf a = true -> ~ In a (extra (dy c)) ->
  dur_par cf a <= 0 \/ 0 < par e (dur_par cf a) < 2 ^ 31 ->
  let c' := state_init s cf e a c in
  act (dy c') = a /\ extra (dy c') = extra (dy c) /\ s_start (dy c') a = now e /\ dx_step (dy c') = dx_step (dy c).
Proof.
  intros R N P. cbv zeta. unfold state_init. cbv zeta.
  assert (n_steps cf <=? 0 = false) as -> by (apply in_range_spec in R; lia).
  set (c1 := upd _ _). set (c2 := to_step s cf e a c1).
  assert (X : act (dy c2) = a /\ extra (dy c2) = extra (dy c) /\ s_start (dy c2) a = now e /\ dx_step (dy c2) = dx_step (dy c)).
  { unfold c2, to_step. rewrite R. cbn [negb]. cbv zeta. change (act (dy (upd _ c1))) with 0. cbn [Z.ltb Z.compare].
    unfold on_step. rewrite R.
    match goal with |- context[if ?b || ?d then _ else _] => assert (b || d = true) as -> end.
    { destruct (Z.ltb_spec 0 (dur_par cf a)); [|rewrite orb_true_iff; right; lia].
      rewrite orb_true_iff. left. cbn [upd dy set_time act_time]. destruct P as [P|P]; [lia|].
      unfold s32. rewrite Z.mod_small by lia. lia. }
    destruct (Z.ltb_spec 0 (dur_par cf a)); cbn; unfold put; rewrite Z.eqb_refl; auto. }
  destruct X as (X1 & X2 & X3 & X4). destruct (dx_put cf s e (extra (dy c2)) c2) as (A & B & C & D).
  rewrite A, B, C, X1, X2, X4. repeat split; auto. rewrite <- X2 at 1. rewrite D; [exact X3|]. rewrite X2. exact N.
Qed.

(** The part of the state machine a resumed operation depends on. *)
Definition in_pause (c : call) : bool :=
  match c with CStart _ | CStop | CSwitchOff | CFinalize => false | _ => true end.

Lemma pause_keeps e c o : in_pause c = true -> cur o = PAUSE ->
  let o' := do_call e c o in cur o' = PAUSE /\ sts o' RUN = sts o RUN /\ run_step o' = run_step o.
Proof.
  intros P C. destruct c; try discriminate; cbn [do_call].
  - unfold op_pause. rewrite C. auto.
  - unfold op_evaluate_state. rewrite C. cbn [eval_st fst in_state sts cur run_step]. auto.
  - unfold op_to_step. rewrite C. auto.
  - unfold op_to_next. rewrite C. auto.
  - unfold op_turn_off. rewrite C. auto.
  - unfold op_on_extra. rewrite C. auto.
  - unfold op_off_extra. rewrite C. auto.
  - unfold op_switch_extra. rewrite C. auto.
Qed.
Lemma pause_keeps_all : forall h o, (forall e c, In (e, c) h -> in_pause c = true) -> cur o = PAUSE ->
  let o' := run_calls h o in cur o' = PAUSE /\ sts o' RUN = sts o RUN /\ run_step o' = run_step o.
Proof.
  induction h as [|[e c] r IH]; intros o H C; cbn [run_calls]; [auto|].
  destruct (pause_keeps e c o (H e c (or_introl eq_refl)) C) as (A & B & D).
  destruct (IH (do_call e c o)) as (A' & B' & D'); [intros e' c' I; apply (H e' c'); cbn; auto|exact A|].
  cbv zeta. rewrite B', D'. auto.
Qed.

Lemma resume e1 h e2 n o : base o -> onext o -> 0 < num o -> cur o = RUN ->
  empty (conf o PAUSING) = true -> empty (conf o UNPAUSING) = true ->
  let a := act (sts o RUN) in
  0 < a -> ~ In a (extra (sts o RUN)) -> (forall e c, In (e, c) h -> in_pause c = true) ->
  n <= 0 \/ n = a -> 0 <= now e2 < 2 ^ 32 ->
  dur_par (conf o RUN) a <= 0 \/ 0 < par e2 (dur_par (conf o RUN) a) < 2 ^ 31 ->
  0 <= par e2 (dur_par (conf o RUN) a) < 2 ^ 32 ->
  act (sts (do_call e2 (CStart n) (run_calls h (do_call e1 CPause o))) RUN) =
  next_step (conf o RUN) (fun k => par e2 (dur_par (conf o RUN) k)) (jump e2 a) (next_n (conf o RUN) a) a
    (eval_time e1 a (sts o RUN)).
Proof.
  intros Bo On Nn C Ep Eu a Pa Na Hh Hn Ht Hp Hq.
  set (o1 := do_call e1 CPause o).
  assert (X1 : cur o1 = PAUSE /\ run_step o1 = a /\ saved (sts o1 RUN) = extra (sts o RUN) /\
     dx_step (sts o1 RUN) = eval_time e1 a (sts o RUN)).
  { unfold o1. cbn [do_call]. unfold op_pause. rewrite C. cbn [Z.eqb Pos.eqb RUN]. cbv zeta. rewrite Ep.
    split; [reflexivity|]. split; [reflexivity|].
    set (f := fin_st e1 RUN _). assert (Y : sts (fst (eval_st e1 PAUSE (init_st e1 PAUSE 1 (set_cur PAUSE f)))) RUN = sts f RUN) by reflexivity.
    rewrite Y. unfold f. cbn [fin_st in_state sts]. change (RUN =? RUN) with true. cbv iota.
    set (c := {| dy := _; tr := _; ub := _ |}).
    assert (Rg : rng (conf o RUN) (dy c)).
    { pose proof (proj1 (proj1 Bo RUN)) as (R1 & R2 & R3). unfold c. cbn. repeat split; auto. }
    split.
    - destruct (state_finalize_spec RUN (conf o RUN) (fun _ => False) e1 c Rg) as (_ & _ & S & _). exact S.
    - unfold state_finalize. cbv zeta.
      change (act (dy (upd (set_start (now e1)) (step_finalize RUN 0 c)))) with a.
      replace (0 <? a) with true by lia. cbn [upd dy set_extra dx_step].
      assert (Z : forall l c, dx_step (dy (fold_left (fun c k => if in_range (conf o RUN) k then step_finalize RUN k c else c) l c)) = dx_step (dy c)).
      { induction l as [|x l IH]; intros c0; cbn [fold_left]; [reflexivity|]. rewrite IH. destruct (in_range _ x); reflexivity. }
      change (conf (set_run_step _ _)) with (conf o). rewrite Z. cbn [upd dy set_act dx_step].
      unfold on_step.
      match goal with |- context[if ?b then _ else _] => destruct b end;
        cbn [dy step_finalize emit upd wild set_s_dx dx_step set_dx];
        unfold eval_time, latest_time, c; cbn; fold a; unfold put; replace (a =? 0) with false by lia; reflexivity. }
  destruct X1 as (C1 & S1 & V1 & D1).
  destruct (pause_keeps_all h o1 Hh C1) as (C2 & S2 & R2). set (o2 := run_calls h o1) in *. cbv zeta in *.
  assert (F2 : conf o2 = conf o /\ num o2 = num o).
  { unfold o2. destruct (conf_run h o1) as [-> ->]. apply conf_call. }
  destruct F2 as [F2 G2].
  assert (SP : saved (sts o2 RUN) = extra (sts o RUN) /\ dx_step (sts o2 RUN) = eval_time e1 a (sts o RUN)) by (rewrite S2; auto).
  destruct SP as [V2 D2].
  assert (R3 : run_step o2 = a) by congruence. clearbody o2. clear V1 D1 S2 R2.
  cbn [do_call]. unfold op_start. cbv zeta. rewrite C2. cbn [Z.eqb PAUSE IDLE Pos.eqb]. rewrite F2, Eu.
  unfold to_run_state. cbv zeta. set (x := in_state RUN load_steps _).
  change (run_step (fin_st e2 PAUSE o2)) with (run_step o2). rewrite R3.
  assert (E : (if 0 <? n then if n =? a then in_state RUN add_dx_step_time (init_st e2 RUN n x) else init_st e2 RUN n x
      else if 0 <? a then in_state RUN add_dx_step_time (init_st e2 RUN a x) else init_st e2 RUN 1 x) =
      in_state RUN add_dx_step_time (init_st e2 RUN a x)).
  { destruct (Z.ltb_spec 0 n).
    - destruct Hn as [Hn | ->]; [lia|]. rewrite Z.eqb_refl. reflexivity.
    - replace (0 <? a) with true by lia. reflexivity. }
  rewrite E. clear E. set (y := in_state RUN add_dx_step_time (init_st e2 RUN a x)).
  assert (CFx : conf x = conf o) by exact F2.
  assert (NMy : num y = num o) by exact G2. assert (CFy : conf y = conf o) by exact F2.
  assert (VX : view RUN (init_st e2 RUN a x) = state_init RUN (conf o RUN) e2 a (view RUN x)).
  { unfold init_st. rewrite view_in, CFx. reflexivity. }
  assert (DX : dy (view RUN x) = set_extra (saved (sts o2 RUN)) (sts o2 RUN)) by reflexivity.
  assert (Ra : in_range (conf o RUN) a = true).
  { destruct (proj1 (proj1 (proj1 Bo RUN))) as [Z|Z]; [|exact Z]. cbn in Z. fold a in Z. lia. }
  destruct (init_at RUN (conf o RUN) e2 a (view RUN x) Ra) as (I1 & I2 & I3 & I4).
  { rewrite DX. cbn [set_extra extra]. rewrite V2. exact Na. }
  { exact Hp. }
  set (z := state_init RUN (conf o RUN) e2 a (view RUN x)) in *.
  assert (VY : view RUN y = add_dx_step_time z).
  { unfold y. rewrite view_in, VX. reflexivity. }
  assert (DY : dy (view RUN y) = set_s_dx (put (s_dx (dy z)) a (eval_time e1 a (sts o RUN))) (dy z)).
  { rewrite VY. unfold add_dx_step_time. cbn [upd dy]. rewrite I1. replace (0 <? a) with true by lia.
    rewrite I4, DX. cbn [set_extra dx_step]. rewrite D2. reflexivity. }
  assert (AY : act (dy (view RUN y)) = a) by (rewrite DY; exact I1).
  assert (NX : act_next (dy (view RUN y)) = next_n (conf o RUN) a).
  { rewrite DY. cbn [set_s_dx act_next].
    pose proof (proj2 (init_spec RUN (conf o RUN) e2 a (view RUN x))) as H. fold z in H. unfold nexts in H. rewrite I1 in H. auto. }
  assert (EY : extra (dy (view RUN y)) = extra (sts o RUN)).
  { rewrite DY. cbn [set_s_dx extra]. rewrite I2, DX. exact V2. }
  assert (TY : eval_time e2 a (dy (view RUN y)) = eval_time e1 a (sts o RUN)).
  { rewrite DY. unfold eval_time at 1, latest_time. cbn [set_s_dx s_start s_dx]. rewrite I3. unfold put. rewrite Z.eqb_refl.
    unfold get_delta_millisec. rewrite Z.ltb_irrefl. replace (now e2 <=? now e2) with true by lia.
    rewrite Z.sub_diag, Z.add_0_l. unfold eval_time, u32. apply Z.mod_mod. lia. }
  destruct (act_evaluate RUN (conf o RUN) e2 (num o) (view RUN y)) as [Q _].
  { rewrite AY, EY. exact Na. }
  { rewrite AY. exact Pa. }
  { exact Nn. }
  { rewrite AY. exact Hq. }
  rewrite AY, NX, TY in Q. rewrite <- Q.
  cbn [eval_st fst in_state sts]. change (RUN =? RUN) with true. cbv iota. rewrite CFy, NMy. reflexivity.
Qed.
