(** Proofs about technological objects: elementary steps. *)
From Coq Require Import ZArith List Bool Lia Relations.
From Verif Require Import Base TimeModel OpModel OpSpec OpProofs OpProofs2 OpProofs3 TechModel TechSpec.
Import ListNotations.
Open Scope Z_scope.

(** ** Bits *)

Lemma u32_bit w b : 0 <= b < 32 -> Z.testbit (u32 w) b = Z.testbit w b.
Proof. intros B. unfold u32. rewrite Z.mod_pow2_bits_low by lia. reflexivity. Qed.

Lemma bit1 j : j <> 0 -> Z.testbit 1 j = false.
Proof.
  intros J. destruct (Z.lt_ge_cases j 0); [apply Z.testbit_neg_r; lia|].
  change 1 with (2 ^ 0). apply Z.pow2_bits_false. lia.
Qed.
Lemma gm_bit t n : 1 <= n <= t_n t ->
  get_mode t n = Z.b2z (Z.testbit (t_word t ((n - 1) / 32)) ((n - 1) mod 32)).
Proof.
  intros N. unfold get_mode. rewrite (proj2 (Z.ltb_ge _ _)) by lia. rewrite (proj2 (Z.eqb_neq n 0)) by lia. cbn [orb].
  rewrite Z.land_comm. change 1 with (Z.ones 1). rewrite Z.land_comm, Z.land_ones by lia.
  rewrite <- Z.bit0_mod. rewrite Z.shiftr_spec by lia. reflexivity.
Qed.
Lemma gm_01 t n : 1 <= n -> get_mode t n = 0 \/ get_mode t n = 1.
Proof.
  intros N. destruct (Z.le_gt_cases n (t_n t)) as [L|L].
  - rewrite gm_bit by lia. destruct (Z.testbit _ _); cbn; auto.
  - left. unfold get_mode. rewrite (proj2 (Z.ltb_lt _ _)) by lia. reflexivity.
Qed.
Lemma gm_out t n : t_n t < n -> get_mode t n = 0.
Proof. intros L. unfold get_mode. rewrite (proj2 (Z.ltb_lt _ _)) by lia. reflexivity. Qed.

Lemma gm_on t n m : 1 <= n <= t_n t -> 1 <= m -> get_mode (bit_on n t) m = if m =? n then 1 else get_mode t m.
Proof.
  intros N M. destruct (Z.le_gt_cases m (t_n t)) as [L|L].
  2:{ rewrite !gm_out by (cbn; lia). rewrite (proj2 (Z.eqb_neq m n)) by lia. reflexivity. }
  rewrite !gm_bit by (cbn; lia). unfold bit_on. cbn [t_word set_word]. unfold put.
  pose proof (Z.div_mod (n - 1) 32 ltac:(lia)). pose proof (Z.div_mod (m - 1) 32 ltac:(lia)).
  pose proof (Z.mod_pos_bound (n - 1) 32 ltac:(lia)). pose proof (Z.mod_pos_bound (m - 1) 32 ltac:(lia)).
  destruct (Z.eqb_spec ((m - 1) / 32) ((n - 1) / 32)) as [E|E].
  - rewrite u32_bit by lia. rewrite Z.lor_spec, Z.shiftl_spec by lia. rewrite E.
    destruct (Z.eqb_spec m n) as [->|D].
    + rewrite Z.sub_diag. cbn [Z.testbit]. rewrite orb_true_r. reflexivity.
    + replace (Z.testbit 1 _) with false; [rewrite orb_false_r; reflexivity|].
      symmetry. apply bit1. lia.
  - destruct (Z.eqb_spec m n) as [->|D]; [congruence|reflexivity].
Qed.
Lemma gm_off t n m : 1 <= n <= t_n t -> 1 <= m -> get_mode (bit_off n t) m = if m =? n then 0 else get_mode t m.
Proof.
  intros N M. destruct (Z.le_gt_cases m (t_n t)) as [L|L].
  2:{ rewrite !gm_out by (cbn; lia). destruct (m =? n); reflexivity. }
  rewrite !gm_bit by (cbn; lia). unfold bit_off. cbn [t_word set_word]. unfold put.
  pose proof (Z.div_mod (n - 1) 32 ltac:(lia)). pose proof (Z.div_mod (m - 1) 32 ltac:(lia)).
  pose proof (Z.mod_pos_bound (n - 1) 32 ltac:(lia)). pose proof (Z.mod_pos_bound (m - 1) 32 ltac:(lia)).
  destruct (Z.eqb_spec ((m - 1) / 32) ((n - 1) / 32)) as [E|E].
  - rewrite u32_bit by lia. rewrite Z.land_spec, Z.lnot_spec, Z.shiftl_spec by lia. rewrite E.
    destruct (Z.eqb_spec m n) as [->|D].
    + rewrite Z.sub_diag. cbn [Z.testbit negb]. rewrite andb_false_r. reflexivity.
    + replace (Z.testbit 1 _) with false; [cbn [negb]; rewrite andb_true_r; reflexivity|].
      symmetry. apply bit1. lia.
  - destruct (Z.eqb_spec m n) as [->|D]; [congruence|reflexivity].
Qed.

(** ** Elementary steps of a plant *)

Definition at_obj (k : Z) (t' : tobj) (p p' : plant) : Prop :=
  p_n p' = p_n p /\ p_obj p' k = t' /\ forall y, y <> k -> p_obj p' y = p_obj p y.
Definition frame (n : Z) (t t' : tobj) : Prop :=
  t_n t' = t_n t /\ forall x, x <> n -> t_ops t' x = t_ops t x /\ (1 <= x -> get_mode t' x = get_mode t x).
Notation st t n := (cur (t_ops t n)).

(** [m]: an idle operation may be marked as on. *)
Inductive estep (R : restr) (i : inp) (m : bool) (p p' : plant) : Prop :=
| ENone k t' : at_obj k t' p p' -> t_n t' = t_n (p_obj p k) -> t_ops t' = t_ops (p_obj p k) ->
    t_word t' = t_word (p_obj p k) -> t_avail t' = t_avail (p_obj p k) -> estep R i m p p'
| EKeep k n t' : at_obj k t' p p' -> 1 <= n <= t_n (p_obj p k) -> frame n (p_obj p k) t' ->
    get_mode t' n = get_mode (p_obj p k) n -> In (st t' n) all_states ->
    (st t' n = IDLE -> st (p_obj p k) n = IDLE) ->
    (st t' n <> IDLE -> st (p_obj p k) n <> IDLE \/ get_mode (p_obj p k) n = 1) ->
    t_avail t' = t_avail (p_obj p k) -> estep R i m p p'
| EOff k n t' : at_obj k t' p p' -> 1 <= n <= t_n (p_obj p k) -> frame n (p_obj p k) t' ->
    get_mode (p_obj p k) n = 1 -> get_mode t' n = 0 -> st t' n = IDLE ->
    (forall x, t_avail t' x = t_avail (final_availability R k n (p_obj p k)) x) -> estep R i m p p'
| EOn k n t' : at_obj k t' p p' -> 1 <= n <= t_n (p_obj p k) -> frame n (p_obj p k) t' ->
    get_mode (p_obj p k) n = 0 -> get_mode t' n = 1 -> In (st t' n) all_states -> st t' n <> IDLE ->
    check_on_mode R i k n p = 0 ->
    t_avail t' = t_avail (init_availability R k n (p_obj p k)) -> estep R i m p p'
| EMark k n t' : m = true -> at_obj k t' p p' -> 1 <= n <= t_n (p_obj p k) -> frame n (p_obj p k) t' ->
    get_mode t' n = 1 -> st t' n = st (p_obj p k) n ->
    t_avail t' = t_avail (p_obj p k) -> estep R i m p p'.

Definition esteps R i m := clos_refl_trans plant (estep R i m).

(** ** Every operation is in a known state; one that is not idle is reported on *)
Definition known (p : plant) : Prop :=
  forall k n, 1 <= n <= t_n (p_obj p k) ->
    In (st (p_obj p k) n) all_states /\ (get_mode (p_obj p k) n = 0 -> st (p_obj p k) n = IDLE).

Lemma at_put k t p : at_obj k t p (put_obj k t p).
Proof.
  split; [reflexivity|]. split; cbn; [rewrite Z.eqb_refl; reflexivity|].
  intros y Y. rewrite (proj2 (Z.eqb_neq y k)) by auto. reflexivity.
Qed.
Lemma put_same k t p : p_obj (put_obj k t p) k = t.
Proof. apply at_put. Qed.
Lemma put_other k t p y : y <> k -> p_obj (put_obj k t p) y = p_obj p y.
Proof. apply at_put. Qed.

Lemma gm_word t t' : t_n t' = t_n t -> t_word t' = t_word t -> forall x, get_mode t' x = get_mode t x.
Proof. intros A B x. unfold get_mode. rewrite A, B. reflexivity. Qed.

Ltac at_cases H := let A := fresh "An" in let B := fresh "Ak" in let C := fresh "Ao" in destruct H as (A & B & C).

(** The operations and reports of all other objects are those before. *)
Lemma known_step R i m p p' : known p -> estep R i m p p' -> known p'.
Proof.
  intros K S y x X. destruct S as [k t' A N O W _|k n t' A N F G I S1 S2 _|k n t' A N F G G' S1 _|k n t' A N F G G' I S1 _ _|k n t' _ A N F G S1 _];
    at_cases A; (destruct (Z.eq_dec y k) as [->|Y];
      [rewrite Ak in *|rewrite (Ao y Y) in *; apply (K y x X)]).
  - rewrite O. rewrite (gm_word _ _ N W). apply K. lia.
  - destruct F as [Fn F]. destruct (Z.eq_dec x n) as [->|D].
    + split; [exact I|]. intros Z0. rewrite G in Z0. destruct (K k n ltac:(lia)) as [_ K2]. specialize (K2 Z0).
      destruct (Z.eq_dec (st t' n) IDLE) as [|D]; auto. destruct (S2 D) as [B|B]; [contradiction|lia].
    + destruct (F x D) as [-> F2]. rewrite F2 by lia. apply K. lia.
  - destruct F as [Fn F]. destruct (Z.eq_dec x n) as [->|D].
    + rewrite S1. split; [left; reflexivity|auto].
    + destruct (F x D) as [-> F2]. rewrite F2 by lia. apply K. lia.
  - destruct F as [Fn F]. destruct (Z.eq_dec x n) as [->|D].
    + split; [exact I|lia].
    + destruct (F x D) as [-> F2]. rewrite F2 by lia. apply K. lia.
  - destruct F as [Fn F]. destruct (Z.eq_dec x n) as [->|D].
    + rewrite S1. split; [apply K; lia|lia].
    + destruct (F x D) as [-> F2]. rewrite F2 by lia. apply K. lia.
Qed.
Lemma known_steps R i m p p' : esteps R i m p p' -> known p -> known p'.
Proof. intros S. induction S; eauto using known_step. Qed.

Lemma steps_n R i m p p' : esteps R i m p p' -> forall k, t_n (p_obj p' k) = t_n (p_obj p k).
Proof.
  intros S. induction S as [p p' S| |p q r S1 IH1 S2 IH2]; auto.
  - intros y. destruct S as [k t' A N|k n t' A N [F _]|k n t' A N [F _]|k n t' A N [F _]|k n t' _ A N [F _]];
      at_cases A; (destruct (Z.eq_dec y k) as [->|Y]; [rewrite Ak; auto|rewrite (Ao y Y); auto]).
  - intros y. rewrite IH2. apply IH1.
Qed.

(** ** The functions of the model are made of such steps *)

Lemma frame_op n o t : frame n t (set_op n o t).
Proof.
  split; [reflexivity|]. intros x X. split.
  - cbn. rewrite (proj2 (Z.eqb_neq x n)) by auto. reflexivity.
  - intros _. apply gm_word; reflexivity.
Qed.
Lemma op_same n o t : t_ops (set_op n o t) n = o.
Proof. cbn. rewrite Z.eqb_refl. reflexivity. Qed.

Lemma fin_idle e o : In (cur o) all_states -> cur (op_finalize e o) = IDLE.
Proof.
  intros I. unfold op_finalize. destruct (Z.ltb_spec 0 (cur o)) as [L|L]; [reflexivity|].
  cbn in I. unfold IDLE, RUN, PAUSE, STOP, STARTING, PAUSING, UNPAUSING, STOPPING in *. lia.
Qed.

Ltac edge_cases E := inversion E; cbn [In] in *;
  repeat match goal with H : _ \/ _ |- _ => destruct H end; try discriminate; try contradiction;
  unfold IDLE, RUN, PAUSE, STOP, STARTING, PAUSING, UNPAUSING, STOPPING in *; lia.

Section Pieces.
  Context (R : restr) (i : inp) (m : bool).

  Lemma mode_off_steps k n p p1 : known p -> 1 <= n <= t_n (p_obj p k) ->
    at_obj k (fst (mode_off R i k n (p_obj p k))) p p1 -> esteps R i m p p1.
  Proof.
    intros K N A. unfold mode_off in A. destruct (Z.eqb_spec (get_mode (p_obj p k) n) 0) as [Z0|Z0]; cbn [fst] in A.
    { apply rt_step. apply (ENone _ _ _ _ _ k (p_obj p k)); auto. }
    destruct (chk_off i k n <=? 0); cbn [fst] in A; [|apply rt_step; apply (ENone _ _ _ _ _ k (p_obj p k)); auto].
    apply rt_step. apply (EOff _ _ _ _ _ k n _ A); auto.
    - split; [reflexivity|]. intros x X. split.
      + cbn. rewrite (proj2 (Z.eqb_neq x n)) by auto. reflexivity.
      + intros L. transitivity (get_mode (bit_off n (p_obj p k)) x); [apply gm_word; reflexivity|].
        rewrite gm_off by auto. rewrite (proj2 (Z.eqb_neq x n)) by auto. reflexivity.
    - destruct (gm_01 (p_obj p k) n) as [E|E]; auto; lia.
    - transitivity (get_mode (bit_off n (p_obj p k)) n); [apply gm_word; reflexivity|].
      rewrite gm_off by (auto; lia). rewrite Z.eqb_refl. reflexivity.
    - cbn. rewrite Z.eqb_refl. apply fin_idle. apply K. auto.
  Qed.

  (** A call of an operation that does not take it out of the known states. *)
  Lemma act_steps k n f p p1 : known p -> 1 <= n <= t_n (p_obj p k) ->
    (forall e o, In (cur o) all_states -> In (cur (fst (f e o))) all_states /\
       (cur (fst (f e o)) = IDLE -> cur o = IDLE) /\
       (cur (fst (f e o)) <> IDLE -> cur o <> IDLE \/ get_mode (p_obj p k) n = 1)) ->
    at_obj k (act_op R i k n f (p_obj p k)) p p1 -> esteps R i m p p1.
  Proof.
    intros K N F A. unfold act_op in A. cbv zeta in A.
    set (o := t_ops (p_obj p k) n) in *. set (r := f (ienv i k n) o) in *.
    destruct (F (ienv i k n) o (proj1 (K k n N))) as (F1 & F2 & F3). fold r in F1, F2, F3.
    assert (E : forall q, at_obj k (set_op n (fst r) (p_obj p k)) p q -> estep R i m p q).
    { intros q Q. apply (EKeep _ _ _ _ _ k n _ Q); auto using frame_op; rewrite ?op_same; auto; reflexivity. }
    destruct (snd r).
    - set (q := put_obj k (set_op n (fst r) (p_obj p k)) p).
      assert (Q : estep R i m p q) by (apply E, at_put).
      eapply rt_trans; [apply rt_step, Q|].
      apply (mode_off_steps k n).
      + eapply known_step; eauto.
      + unfold q. rewrite put_same. exact N.
      + unfold q. rewrite put_same. destruct A as (A1 & A2 & A3). split; [exact A1|]. split; [exact A2|].
        intros y Y. rewrite put_other by auto. auto.
    - apply rt_step, E, A.
  Qed.

  Definition no_leave (f : env -> oper -> oper * bool) : Prop :=
    forall e o, In (cur o) all_states -> In (cur (fst (f e o))) all_states /\ (cur (fst (f e o)) = IDLE <-> cur o = IDLE).
  Lemma no_leave_pause : no_leave op_pause.
  Proof.
    intros e o I. split; [apply (states_call e CPause o I)|].
    pose proof (edges e CPause o I) as E. cbn [do_call] in E.
    destruct (Z.eq_dec (cur (fst (op_pause e o))) (cur o)) as [->|D]; [tauto|].
    specialize (E D). edge_cases E.
  Qed.
  Lemma no_leave_stop : no_leave op_stop.
  Proof.
    intros e o I. split; [apply (states_call e CStop o I)|].
    pose proof (edges e CStop o I) as E. cbn [do_call] in E.
    destruct (Z.eq_dec (cur (fst (op_stop e o))) (cur o)) as [->|D]; [tauto|].
    specialize (E D). edge_cases E.
  Qed.
  Lemma no_leave_eval : no_leave op_evaluate_state.
  Proof. intros e o I. split; [exact I|]. tauto. Qed.

  Lemma start_enters e n o : In (cur o) all_states ->
    In (cur (fst (op_start e n o))) all_states /\ (cur (fst (op_start e n o)) = IDLE -> cur o = IDLE).
  Proof.
    intros I. split; [apply (states_call e (CStart n) o I)|].
    pose proof (edges e (CStart n) o I) as E. cbn [do_call] in E.
    destruct (Z.eq_dec (cur (fst (op_start e n o))) (cur o)) as [->|D]; auto.
    specialize (E D). edge_cases E.
  Qed.
  Lemma start_idle_enters e n o : cur o = IDLE -> cur (fst (op_start e n o)) <> IDLE /\ snd (op_start e n o) = false.
  Proof.
    intros E. unfold op_start. rewrite E. cbn [IDLE]. rewrite Z.eqb_refl. cbv zeta. cbn.
    destruct (empty _); split; auto; discriminate.
  Qed.

  Lemma act_steps' k n f p p1 : known p -> 1 <= n <= t_n (p_obj p k) -> no_leave f ->
    at_obj k (act_op R i k n f (p_obj p k)) p p1 -> esteps R i m p p1.
  Proof.
    intros K N F. apply act_steps; auto. intros e o I. destruct (F e o I) as [A B]. split; auto. split; [tauto|].
    intros D. left. tauto.
  Qed.

  Lemma at_self k p : at_obj k (p_obj p k) p p.
  Proof. repeat split. Qed.

  (** The marking of lines 133 and 147. *)
  Lemma bit_on_steps k n p : 1 <= n <= t_n (p_obj p k) -> known p ->
    m = true \/ get_mode (p_obj p k) n = 1 -> esteps R i m p (put_obj k (bit_on n (p_obj p k)) p).
  Proof.
    intros N K [M|M]; apply rt_step.
    - apply (EMark _ _ _ _ _ k n (bit_on n (p_obj p k))); auto using at_put.
      + split; [reflexivity|]. intros x X. split; [reflexivity|]. intros L. rewrite gm_on by auto.
        rewrite (proj2 (Z.eqb_neq x n)) by auto. reflexivity.
      + rewrite gm_on by (auto; lia). rewrite Z.eqb_refl. reflexivity.
    - apply (EKeep _ _ _ _ _ k n (bit_on n (p_obj p k))); auto using at_put.
      + split; [reflexivity|]. intros x X. split; [reflexivity|]. intros L. rewrite gm_on by auto.
        rewrite (proj2 (Z.eqb_neq x n)) by auto. reflexivity.
      + rewrite gm_on by (auto; lia). rewrite Z.eqb_refl. auto.
      + apply (K k n N).
  Qed.

  Lemma mark_act k n f p : known p -> 1 <= n <= t_n (p_obj p k) -> no_leave f ->
    m = true \/ get_mode (p_obj p k) n = 1 ->
    esteps R i m p (put_obj k (act_op R i k n f (bit_on n (p_obj p k))) p).
  Proof.
    intros K N F M. set (q := put_obj k (bit_on n (p_obj p k)) p).
    assert (Q : esteps R i m p q) by (apply bit_on_steps; auto).
    eapply rt_trans; [exact Q|]. apply (act_steps' k n f).
    - eapply known_steps; eauto.
    - rewrite (steps_n _ _ _ _ _ Q). exact N.
    - exact F.
    - unfold q. rewrite put_same. split; [reflexivity|]. split; [apply put_same|].
      intros y Y. rewrite !put_other by auto. reflexivity.
  Qed.

  Lemma set_mode_steps k n newm p : known p -> 0 <= n ->
    (newm = PAUSE \/ newm = STOP -> 1 <= n <= t_n (p_obj p k) -> m = true \/ get_mode (p_obj p k) n = 1) ->
    esteps R i m p (fst (set_mode R i k n newm p)).
  Proof.
    intros K N M. unfold set_mode. cbv zeta.
    destruct (Z.eqb_spec n 0) as [E0|E0]; [apply rt_refl|].
    destruct (Z.ltb_spec (t_n (p_obj p k)) n) as [L|L]; [apply rt_refl|].
    assert (N' : 1 <= n <= t_n (p_obj p k)) by lia.
    destruct (Z.eqb_spec newm PAUSE) as [EP|EP].
    { destruct (chk_pause i k n =? 0); [|apply rt_refl]. cbn [fst]. apply mark_act; auto using no_leave_pause. }
    destruct (Z.eqb_spec newm STOP) as [ES|ES].
    { destruct (chk_stop i k n =? 0); [|apply rt_refl]. cbn [fst]. apply mark_act; auto using no_leave_stop. }
    destruct (newm =? 0).
    { cbn [fst]. eapply mode_off_steps; eauto. apply at_put. }
    destruct (Z.eqb_spec (get_mode (p_obj p k) n) 1) as [G|G].
    { destruct (cur (t_ops (p_obj p k) n) =? RUN); [apply rt_refl|].
      destruct (chk_start i k n =? 0); [|apply rt_refl]. cbn [fst].
      eapply act_steps; eauto using at_put. intros e o I.
      destruct (start_enters e (rstep i k n) o I). auto. }
    destruct (deverr i k n && checked i k n); [apply rt_refl|].
    destruct (Z.eqb_spec (check_on_mode R i k n p) 0) as [C|C]; [|apply rt_refl]. cbn [fst].
    assert (G0 : get_mode (p_obj p k) n = 0) by (destruct (gm_01 (p_obj p k) n); lia).
    pose proof (proj2 (K k n N') G0) as I0.
    set (o := t_ops (p_obj p k) n) in *.
    destruct (start_idle_enters (ienv i k n) (run_step o) o I0) as [S1 S2].
    set (t1 := act_op R i k n (fun e o => op_start e (run_step o) o) (p_obj p k)).
    assert (T1 : t1 = set_op n (fst (op_start (ienv i k n) (run_step o) o)) (p_obj p k)).
    { unfold t1, act_op. cbv zeta. fold o. rewrite S2. reflexivity. }
    apply rt_step. apply (EOn _ _ _ _ _ k n (bit_on n (init_availability R k n t1))); auto using at_put.
    - rewrite T1. split; [reflexivity|]. intros x X. split.
      + cbn. rewrite (proj2 (Z.eqb_neq x n)) by auto. reflexivity.
      + intros Lx. rewrite gm_on by (cbn; auto). rewrite (proj2 (Z.eqb_neq x n)) by auto. apply gm_word; reflexivity.
    - rewrite gm_on by (try rewrite T1; cbn; auto; lia). rewrite Z.eqb_refl. reflexivity.
    - rewrite T1. cbn. rewrite Z.eqb_refl. apply (states_call (ienv i k n) (CStart (run_step o)) o). apply K; auto.
    - rewrite T1. cbn. rewrite Z.eqb_refl. exact S1.
    - rewrite T1. reflexivity.
  Qed.
End Pieces.
