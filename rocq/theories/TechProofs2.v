(** Proofs about technological objects: all calls, invariants. *)
From Coq Require Import ZArith List Bool Lia Relations.
From Verif Require Import Base TimeModel OpModel OpSpec OpProofs OpProofs2 OpProofs3 TechModel TechSpec TechProofs.
Import ListNotations.
Open Scope Z_scope.

Notation st t n := (cur (t_ops t n)).

Section Calls.
  Context (R : restr) (i : inp) (m : bool).

  Lemma none_steps k t' p : t_n t' = t_n (p_obj p k) -> t_ops t' = t_ops (p_obj p k) ->
    t_word t' = t_word (p_obj p k) -> t_avail t' = t_avail (p_obj p k) -> esteps R i m p (put_obj k t' p).
  Proof. intros. apply rt_step. apply (ENone _ _ _ _ _ k t'); auto using at_put. Qed.

  (** [set_mode] called from the evaluation of an operation that is not idle. *)
  Lemma set_mode_busy k n newm p : known p -> 1 <= n <= t_n (p_obj p k) -> st (p_obj p k) n <> IDLE ->
    esteps R i m p (fst (set_mode R i k n newm p)).
  Proof.
    intros K N B. apply set_mode_steps; [auto|lia|]. intros _ _. right.
    destruct (gm_01 (p_obj p k) n) as [G|G]; [lia| |auto]. exfalso. apply B. apply (K k n N). exact G.
  Qed.

  Lemma auto_steps k n p : known p -> 1 <= n <= t_n (p_obj p k) -> esteps R i m p (auto_switch_on R i k n p).
  Proof.
    intros K N. unfold auto_switch_on. cbv zeta.
    destruct (t_fail _ n); [apply rt_refl|].
    destruct (t_first _ n).
    { assert (S : esteps R i m p (fst (set_mode R i k n RUN p))).
      { apply set_mode_steps; auto; [lia|]. intros [E|E]; discriminate. }
      destruct (snd _ =? 0); (eapply rt_trans; [exact S|]; apply none_steps; reflexivity). }
    destruct (check_operation_on R i k n p =? 0).
    { eapply rt_trans; [apply (none_steps k (say n [AutoOn n] (p_obj p k))); reflexivity|].
      apply set_mode_steps; [|lia|intros [E|E]; discriminate].
      eapply known_steps; [|exact K]. apply none_steps; reflexivity. }
    match goal with |- context[if ?a then set_auto _ _ _ _ _ _ _ else _] => destruct a end;
    match goal with |- context[if ?a then set_auto _ _ _ _ _ _ _ else _] => destruct a end;
      apply none_steps; reflexivity.
  Qed.

  Lemma op_evaluate_steps k n p : known p -> 1 <= n <= t_n (p_obj p k) -> esteps R i m p (op_evaluate R i k n p).
  Proof.
    intros K N. unfold op_evaluate. cbv zeta.
    set (q := put_obj k (act_op R i k n op_evaluate_state (p_obj p k)) p).
    assert (Q : esteps R i m p q) by (eapply act_steps'; eauto using no_leave_eval, at_put).
    assert (Kq : known q) by (eapply known_steps; eauto).
    assert (Nq : 1 <= n <= t_n (p_obj q k)) by (rewrite (steps_n _ _ _ _ _ Q); exact N).
    eapply rt_trans; [exact Q|].
    destruct (goto_ i k n _) as [nx|]; [|apply none_steps; reflexivity].
    destruct (Z.eqb_spec (st (p_obj q k) n) IDLE) as [E0|E0]; [apply auto_steps; auto|].
    unfold from_run, default_next.
    repeat match goal with |- context[if ?b then _ else _] => destruct b end; try apply rt_refl; apply set_mode_busy; auto.
  Qed.

  Lemma cond_pause (b : bool) k n p : known p -> 1 <= n <= t_n (p_obj p k) ->
    esteps R i m p (put_obj k (if b then act_op R i k n op_pause (p_obj p k) else p_obj p k) p).
  Proof.
    intros K N. destruct b; [|apply none_steps; reflexivity]. eapply act_steps'; eauto using no_leave_pause, at_put.
  Qed.

  (** Replacing an object twice. *)
  Lemma put_twice k t' t p q : esteps R i m p (put_obj k t p) -> at_obj k t' p q ->
    (forall q', at_obj k t' (put_obj k t p) q' -> esteps R i m (put_obj k t p) q') -> esteps R i m p q.
  Proof.
    intros A (B1 & B2 & B3) C. eapply rt_trans; [exact A|]. apply C. split; [exact B1|]. split; [exact B2|].
    intros y Y. rewrite put_other by auto. auto.
  Qed.

  Lemma cond_pause_at (b : bool) k n p q : known p -> 1 <= n <= t_n (p_obj p k) ->
    at_obj k (if b then act_op R i k n op_pause (p_obj p k) else p_obj p k) p q -> esteps R i m p q.
  Proof.
    intros K N A. destruct b; [eapply act_steps'; eauto using no_leave_pause|].
    apply rt_step. apply (ENone _ _ _ _ _ k _ A); reflexivity.
  Qed.

  Lemma eval_one_steps k n p : known p -> 1 <= n <= t_n (p_obj p k) -> esteps R i m p (eval_one R i k n p).
  Proof.
    intros K N. unfold eval_one. cbv zeta.
    set (q := op_evaluate R i k n p).
    assert (Q : esteps R i m p q) by (apply op_evaluate_steps; auto).
    assert (Kq : known q) by (eapply known_steps; eauto).
    assert (Nq : 1 <= n <= t_n (p_obj q k)) by (rewrite (steps_n _ _ _ _ _ Q); exact N).
    eapply rt_trans; [exact Q|]. clearbody q; clear Q K N p.
    set (b1 := autopause i && _ && _ && _).
    set (t1 := if b1 then _ else _).
    assert (S1 : esteps R i m q (put_obj k t1 q)) by (apply cond_pause; auto).
    assert (K1 : known (put_obj k t1 q)) by (eapply known_steps; eauto).
    assert (N1 : 1 <= n <= t_n t1) by (pose proof (steps_n _ _ _ _ _ S1 k) as E; rewrite put_same in E; lia).
    destruct (cur (t_ops t1 n) =? RUN); [|exact S1].
    set (t2 := if badpars i k n then _ else _).
    assert (S2 : esteps R i m q (put_obj k t2 q)).
    { eapply put_twice; [exact S1|apply at_put|]. intros q' A. unfold t2 in A.
      apply (cond_pause_at (badpars i k n) k n); auto; rewrite put_same; auto. }
    assert (K2 : known (put_obj k t2 q)) by (eapply known_steps; eauto).
    assert (N2 : 1 <= n <= t_n t2) by (pose proof (steps_n _ _ _ _ _ S2 k) as E; rewrite put_same in E; lia).
    eapply put_twice; [exact S2|apply at_put|]. intros q' A.
    eapply (cond_pause_at (is_overrun _) k n); auto; rewrite put_same; eauto.
  Qed.

  Lemma extra_steps k n step on p : known p -> 0 <= n -> esteps R i m p (fst (set_extra_step i k n step on p)).
  Proof.
    intros K N. unfold set_extra_step. cbv zeta.
    destruct (Z.ltb_spec (t_n (p_obj p k)) n) as [L|L]; [apply rt_refl|].
    destruct (Z.eqb_spec n 0) as [E|E]; [apply rt_refl|]. cbn [orb fst].
    apply rt_step. apply (EKeep _ _ _ _ _ k n (set_op n (if on then op_on_extra (ienv i k n) step (t_ops (p_obj p k) n) else op_off_extra step (t_ops (p_obj p k) n)) (p_obj p k)));
      auto using at_put, frame_op; rewrite ?op_same; try lia; try (destruct on; auto; fail).
    destruct on; apply (K k n); lia.
  Qed.

  Lemma set_cmd_steps k val p : known p ->
    (forall n s, val = encode (State n s) -> valid (State n s) -> s = PAUSE \/ s = STOP -> 1 <= n <= t_n (p_obj p k) ->
       m = true \/ get_mode (p_obj p k) n = 1) ->
    - 2 ^ 31 <= val < 2 ^ 31 -> esteps R i m p (fst (set_cmd R i k val p)).
  Proof.
    intros K M V. unfold set_cmd. cbv zeta.
    destruct (Z.eqb_spec val 0) as [Ev|Ev]; [cbn [fst]; apply none_steps; reflexivity|].
    destruct (Z.lt_ge_cases val 0) as [Neg|Pos].
    { assert (B : 2 ^ 31 <= u32 val).
      { unfold u32. replace val with (val + 2 ^ 32 + (-1) * 2 ^ 32) by lia. rewrite Z.mod_add by lia.
        rewrite Z.mod_small by lia. lia. }
      set (v := u32 val) in *. clearbody v.
      repeat match goal with |- context[?a <? ?b] => rewrite (proj2 (Z.ltb_ge a b)) by lia end.
      rewrite !andb_false_r. apply rt_refl. }
    unfold u32. rewrite (Z.mod_small val) by lia.
    destruct (Z.leb_spec 200000 val) as [L1|L1], (Z.ltb_spec val 300000) as [L2|L2]; cbn [andb].
    { apply extra_steps; auto. pose proof (Z.div_le_lower_bound val 100 2000). lia. }
    all: destruct (Z.leb_spec 300000 val) as [L3|L3], (Z.ltb_spec val 400000) as [L4|L4]; cbn [andb]; try lia;
      try (apply extra_steps; [exact K|]; pose proof (Z.div_le_lower_bound val 100 3000); lia).
    all: destruct (Z.leb_spec 1000 val) as [L5|L5], (Z.ltb_spec val 2000) as [L6|L6]; cbn [andb]; try lia;
      try (match goal with |- context[if ?b then _ else _] => destruct b end; cbn [fst];
           [apply none_steps; reflexivity|];
           assert (S : esteps R i m p (fst (set_mode R i k (val - 1000) 1 p)))
             by (apply set_mode_steps; [auto|lia|intros [E|E]; discriminate]);
           eapply rt_trans; [exact S|apply none_steps; reflexivity]).
    all: destruct (Z.leb_spec 2000 val) as [L7|L7], (Z.ltb_spec val 3000) as [L8|L8]; cbn [andb]; try lia;
      try (match goal with |- context[if ?b then _ else _] => destruct b end; cbn [fst];
           [apply none_steps; reflexivity|];
           assert (S : esteps R i m p (fst (set_mode R i k (val - 2000) 0 p)))
             by (apply set_mode_steps; [auto|lia|intros [E|E]; discriminate]);
           eapply rt_trans; [exact S|apply none_steps; reflexivity]).
    all: destruct (Z.leb_spec 100000 val) as [L9|L9], (Z.ltb_spec val 200000) as [L10|L10]; cbn [andb]; try lia;
      try apply rt_refl.
    all: set (q := put_obj k (set_cmdv val (p_obj p k)) p);
      assert (Q : esteps R i m p q) by (apply none_steps; reflexivity);
      (eapply rt_trans; [exact Q|]); apply set_mode_steps;
      [eapply known_steps; eauto|pose proof (Z.div_le_lower_bound val 100 1000); lia|];
      intros S N; unfold q in N |- *; rewrite put_same in N |- *; cbn [t_n set_cmdv] in N;
      rewrite (gm_word (p_obj p k)) by reflexivity; apply (M (val / 100 - 1000) (val mod 100)); auto;
      cbn [encode valid];
      pose proof (Z.div_mod val 100 ltac:(lia)); pose proof (Z.mod_pos_bound val 100 ltac:(lia)); lia.
  Qed.

End Calls.
