(** Proofs about technological objects: automatic switching on. *)
From Coq Require Import ZArith List Bool Lia Relations.
From Verif Require Import Base TimeModel OpModel OpSpec OpProofs OpProofs2 OpProofs3 TechModel TechSpec TechProofs TechProofs2 TechProofs3.
Import ListNotations.
Open Scope Z_scope.

Notation st t n := (cur (t_ops t n)).

(** The fields of the automatic switch-on and the messages. *)
Definition same_auto (t t' : tobj) : Prop :=
  t_first t' = t_first t /\ t_fail t' = t_fail t /\ t_warn t' = t_warn t /\ t_wait t' = t_wait t /\ t_msgs t' = t_msgs t.
Lemma same_refl t : same_auto t t.
Proof. repeat split. Qed.

Lemma same_off R i k n t : same_auto t (fst (mode_off R i k n t)).
Proof. unfold mode_off. repeat match goal with |- context[if ?b then _ else _] => destruct b end; repeat split. Qed.
Lemma same_act R i k n f t : same_auto t (act_op R i k n f t).
Proof.
  unfold act_op. cbv zeta. destruct (snd _); [|repeat split].
  exact (same_off R i k n (set_op n (fst (f (ienv i k n) (t_ops t n))) t)).
Qed.
Lemma same_put k t p : same_auto (p_obj p k) t -> forall y, same_auto (p_obj p y) (p_obj (put_obj k t p) y).
Proof.
  intros S y. destruct (Z.eq_dec y k) as [->|D]; [rewrite put_same; exact S|rewrite put_other by auto; apply same_refl].
Qed.
Lemma same_mode R i k n newm p y : same_auto (p_obj p y) (p_obj (fst (set_mode R i k n newm p)) y).
Proof.
  unfold set_mode. cbv zeta.
  repeat match goal with |- context[if ?b then _ else _] => destruct b end; cbn [fst]; try apply same_refl;
    apply same_put; first [apply same_act|apply same_off|exact (same_act R i k n op_pause (bit_on n (p_obj p k)))
      |exact (same_act R i k n op_stop (bit_on n (p_obj p k)))
      |exact (same_act R i k n (fun e o => op_start e (run_step o) o) (p_obj p k))].
Qed.

(** The fields of one operation. *)
Definition rep (t : tobj) (n : Z) (r : request) : Prop :=
  match r with
  | NoRefusal => t_first t n = true /\ t_fail t n = false
  | Refused s w => t_first t n = false /\ t_fail t n = false /\ t_wait t n = s /\ t_warn t n = w
  | GivenUp s w => t_first t n = false /\ t_fail t n = true /\ t_wait t n = s /\ t_warn t n = w
  end.
Lemma rep_same t t' n r : same_auto t t' -> rep t n r -> rep t' n r.
Proof. intros (A & B & C & D & _). unfold rep. rewrite A, B, C, D. auto. Qed.

Lemma rep_auto_other n n' fi fa wa wt ms t r : n <> n' -> rep t n r -> rep (set_auto n' fi fa wa wt ms t) n r.
Proof.
  intros D. unfold rep. cbn [t_first t_fail t_warn t_wait set_auto]. unfold putb, put.
  rewrite !(proj2 (Z.eqb_neq n n')) by auto. auto.
Qed.
Lemma rep_say n n' ms t r : rep t n r -> rep (say n' ms t) n r.
Proof.
  unfold rep, say. cbn [t_first t_fail t_warn t_wait set_auto]. unfold putb, put.
  destruct (Z.eqb_spec n n') as [->|]; auto.
Qed.

(** Evaluating one operation does not touch the request of another. *)
Lemma auto_other R i k n' p y n r : (y, n) <> (k, n') -> rep (p_obj p y) n r -> rep (p_obj (auto_switch_on R i k n' p) y) n r.
Proof.
  intros D H. unfold auto_switch_on. cbv zeta.
  assert (Put : forall t q, rep (p_obj q y) n r -> (y = k -> rep t n r) -> rep (p_obj (put_obj k t q) y) n r).
  { intros t q A B. destruct (Z.eq_dec y k) as [E|E]; [rewrite E, put_same; rewrite E in B; auto|rewrite put_other by auto; auto]. }
  assert (SM : forall q, rep (p_obj q y) n r -> rep (p_obj (fst (set_mode R i k n' RUN q)) y) n r)
    by (intros q; apply rep_same, same_mode).
  assert (N : y = k -> n <> n') by congruence.
  destruct (t_fail _ n'); [exact H|]. destruct (t_first _ n').
  { destruct (snd _ =? 0); apply Put; auto; intros E.
    - apply rep_say. pose proof (SM p H) as X. rewrite E in X. exact X.
    - apply rep_auto_other; auto. pose proof (SM p H) as X. rewrite E in X. exact X. }
  destruct (_ =? 0).
  { apply SM. apply Put; auto. intros E. apply rep_say. rewrite <- E. exact H. }
  apply Put; auto. intros E. subst y.
  match goal with |- context[if ?a then set_auto _ _ _ _ _ _ _ else _] => destruct a end;
  match goal with |- context[if ?a then set_auto _ _ _ _ _ _ _ else _] => destruct a end;
    repeat apply rep_auto_other; auto.
Qed.

Lemma tail_rep R i k n' p y n r : rep (p_obj (op_evaluate R i k n' p) y) n r -> rep (p_obj (eval_one R i k n' p) y) n r.
Proof.
  intros H. unfold eval_one. cbv zeta. set (q := op_evaluate R i k n' p) in *.
  eapply rep_same; [|exact H]. apply same_put.
  assert (T : forall a b c, same_auto a b -> same_auto b c -> same_auto a c).
  { intros a b c (A1 & A2 & A3 & A4 & A5) (B1 & B2 & B3 & B4 & B5). repeat split; congruence. }
  set (t1 := if autopause i && _ && _ && _ then _ else _).
  assert (S1 : same_auto (p_obj q k) t1) by (unfold t1; destruct (_ && _); [apply same_act|apply same_refl]).
  destruct (cur (t_ops t1 n') =? RUN); [|exact S1].
  set (t2 := if badpars i k n' then _ else _).
  assert (S2 : same_auto (p_obj q k) t2).
  { unfold t2. destruct (badpars i k n'); [|exact S1]. eapply T; [exact S1|apply same_act]. }
  destruct (is_overrun _); [|exact S2]. eapply T; [exact S2|apply same_act].
Qed.

Lemma tail_msgs R i k n p : t_msgs (p_obj (eval_one R i k n p) k) = t_msgs (p_obj (op_evaluate R i k n p) k).
Proof.
  unfold eval_one. cbv zeta. set (q := op_evaluate R i k n p) in *. rewrite put_same.
  assert (A : forall f t, t_msgs (act_op R i k n f t) = t_msgs t) by (intros; apply same_act).
  repeat match goal with |- context[if ?b then _ else _] => destruct b end; rewrite ?A; reflexivity.
Qed.

Lemma eval_other R i k n' p y n r : (y, n) <> (k, n') -> rep (p_obj p y) n r -> rep (p_obj (eval_one R i k n' p) y) n r.
Proof.
  intros D H. apply tail_rep. unfold op_evaluate. cbv zeta.
  set (q := put_obj k (act_op R i k n' op_evaluate_state (p_obj p k)) p).
  assert (Q : rep (p_obj q y) n r) by (eapply rep_same; [|exact H]; apply same_put, same_act).
  assert (SM : forall s, rep (p_obj (fst (set_mode R i k n' s q)) y) n r) by (intros s; eapply rep_same; [apply same_mode|exact Q]).
  destruct (goto_ i k n' _) as [nx|].
  2:{ destruct (Z.eq_dec y k) as [E|E]; [|rewrite put_other by auto; exact Q].
      rewrite E, put_same. apply rep_auto_other; [congruence|]. rewrite E in Q. exact Q. }
  unfold from_run, default_next.
  repeat match goal with |- context[if ?b then _ else _] => destruct b end; auto using auto_other.
Qed.

(** ** The evaluation of the operation itself *)

(** No check returns the value that is mistaken for success (-100 + 100). *)
Definition plain_checks (i : inp) : Prop := forall k n, chk_on i k n <> -100 /\ chk_run i k n <> -1100.

Lemma check_plain R i k n p : plain_checks i -> check_on_mode R i k n p <> -100.
Proof.
  intros P. unfold check_on_mode. cbv zeta. destruct (P k n) as [P1 P2].
  match goal with |- context[match (if restricting i then ?a else None) with _ => _ end] => destruct a as [x|] eqn:E1 end.
  - apply first_some in E1. destruct E1 as [E1 _]. apply in_upto in E1.
    destruct (restricting i); [lia|]. destruct (Z.eqb_spec (chk_run i k n) 0); lia.
  - assert (N : forall A (b : bool) , (if b then @None A else None) = None) by (intros A []; reflexivity). rewrite N.
    match goal with |- context[match (if restricting i then ?a else None) with _ => _ end] => destruct a as [y|] eqn:E2 end.
    + destruct (restricting i); [|destruct (Z.eqb_spec (chk_run i k n) 0); lia].
      match goal with |- context[match first_in ?f ?l with _ => _ end] => destruct (first_in f l) as [x|] eqn:E3 end; [|lia].
      apply first_some in E3. destruct E3 as [E3 _]. apply in_upto in E3. lia.
    + rewrite N. destruct (Z.eqb_spec (chk_run i k n) 0); lia.
Qed.

Lemma check_op R i k n p : plain_checks i -> 1 <= n -> (check_operation_on R i k n p =? 0) = may_start R i k n p.
Proof.
  intros P N. unfold check_operation_on, may_start. cbv zeta.
  destruct (deverr i k n && checked i k n); cbn [negb andb]; [apply Z.eqb_neq; lia|].
  pose proof (check_plain R i k n p P). destruct (Z.eqb_spec (check_on_mode R i k n p) 0); [reflexivity|].
  apply Z.eqb_neq. lia.
Qed.

Lemma mode_zero R i k n p : plain_checks i -> 1 <= n <= t_n (p_obj p k) -> get_mode (p_obj p k) n = 0 ->
  (snd (set_mode R i k n RUN p) =? 0) = may_start R i k n p.
Proof.
  intros P N G. unfold set_mode, may_start. cbv zeta.
  rewrite (proj2 (Z.eqb_neq n 0)) by lia. rewrite (proj2 (Z.ltb_ge _ _)) by lia.
  change (RUN =? PAUSE) with false. change (RUN =? STOP) with false. change (RUN =? 0) with false. cbv iota.
  rewrite G. change (0 =? 1) with false. cbv iota.
  pose proof (check_plain R i k n p P).
  destruct (deverr i k n && checked i k n); cbn [snd negb andb]; [apply Z.eqb_neq; lia|].
  destruct (Z.eqb_spec (check_on_mode R i k n p) 0) as [E|E]; [reflexivity|]. cbn [snd]. apply Z.eqb_neq. lia.
Qed.

Lemma mode_runs R i k n p : known p -> 1 <= n <= t_n (p_obj p k) -> get_mode (p_obj p k) n = 0 ->
  let q := fst (set_mode R i k n RUN p) in
  if may_start R i k n p then (st (p_obj q k) n = RUN \/ st (p_obj q k) n = STARTING) /\ get_mode (p_obj q k) n = 1
  else q = p.
Proof.
  intros K N G. unfold set_mode, may_start. cbv zeta.
  rewrite (proj2 (Z.eqb_neq n 0)) by lia. rewrite (proj2 (Z.ltb_ge _ _)) by lia.
  change (RUN =? PAUSE) with false. change (RUN =? STOP) with false. change (RUN =? 0) with false. cbv iota.
  rewrite G. change (0 =? 1) with false. cbv iota.
  destruct (deverr i k n && checked i k n); cbn [negb andb]; [reflexivity|].
  destruct (check_on_mode R i k n p =? 0); [|reflexivity]. cbn [fst].
  rewrite put_same. pose proof (proj2 (K k n N) G) as I0.
  set (o := t_ops (p_obj p k) n) in *.
  destruct (start_idle_enters (ienv i k n) (run_step o) o I0) as [_ S2].
  unfold act_op. cbv zeta. fold o. rewrite S2. split.
  - cbn. rewrite Z.eqb_refl. unfold op_start. rewrite I0. cbn. destruct (empty _); cbn; auto.
  - rewrite gm_on by (cbn; lia). rewrite Z.eqb_refl. reflexivity.
Qed.

Lemma rep_reset n wa wt ms t : rep (set_auto n true false wa wt ms t) n NoRefusal.
Proof. cbn. unfold putb. rewrite Z.eqb_refl. auto. Qed.

(** The outcome of evaluating an operation, told by [ask]. *)
Lemma own_eval R i k n p r : plain_checks i -> known p -> agree p -> 1 <= n <= t_n (p_obj p k) -> rep (p_obj p k) n r ->
  rep (p_obj (op_evaluate R i k n p) k) n (fst (ask R i k n p r)) /\
  t_msgs (p_obj (op_evaluate R i k n p) k) = snd (ask R i k n p r) ++ t_msgs (p_obj p k).
Proof.
  intros P K Ag N H. unfold op_evaluate, ask. cbv zeta. fold (acted R i k n p).
  set (q := acted R i k n p).
  assert (Q : esteps R i false p q) by (eapply act_steps'; eauto using no_leave_eval, at_put).
  assert (Kq : known q) by (eapply known_steps; eauto).
  assert (Aq : agree q).
  { clear - Ag Q. induction Q; eauto using agree_step. }
  assert (Nq : 1 <= n <= t_n (p_obj q k)) by (rewrite (steps_n _ _ _ _ _ Q); exact N).
  assert (Sq : same_auto (p_obj p k) (p_obj q k)) by (apply same_put, same_act).
  assert (Hq : rep (p_obj q k) n r) by (eapply rep_same; eauto).
  assert (Mq : t_msgs (p_obj q k) = t_msgs (p_obj p k)) by apply Sq.
  rewrite <- Mq. clearbody q. clear Sq Mq Q N K Ag H p.
  destruct (goto_ i k n _) as [nx|]; [|rewrite put_same; split; [apply rep_reset|reflexivity]].
  destruct (Z.eqb_spec (st (p_obj q k) n) IDLE) as [E|E]; cbn [negb].
  2:{ assert (SM : forall s, rep (p_obj (fst (set_mode R i k n s q)) k) n r /\ t_msgs (p_obj (fst (set_mode R i k n s q)) k) = t_msgs (p_obj q k)).
      { intros s. split; [eapply rep_same; [apply same_mode|exact Hq]|apply same_mode]. }
      unfold from_run, default_next. cbn [fst snd app].
      repeat match goal with |- context[if ?b then _ else _] => destruct b end; auto. }
  assert (G : get_mode (p_obj q k) n = 0).
  { destruct (gm_01 (p_obj q k) n) as [G|G]; [lia|exact G|]. exfalso. apply (Aq k n Nq G E). }
  unfold auto_switch_on. cbv zeta. rewrite (mode_zero R i k n q P Nq G).
  rewrite (check_op R i k n q P ltac:(lia)).
  pose proof (mode_runs R i k n q Kq Nq G) as MR. cbv zeta in MR.
  pose proof (same_mode R i k n RUN q k) as (_ & _ & _ & _ & SM).
  destruct r as [|s w|s w]; cbn [rep] in Hq.
  - destruct Hq as [H1 H2]. rewrite H2, H1. destruct (may_start R i k n q).
    + rewrite put_same. split; [|cbn [fst snd say set_auto t_msgs]; rewrite SM; reflexivity].
      apply rep_say. eapply rep_same; [apply same_mode|]. split; auto.
    + rewrite MR. rewrite put_same. cbn [fst snd]. split; [|reflexivity].
      cbn. unfold putb, put. rewrite Z.eqb_refl. auto.
  - destruct Hq as (H1 & H2 & H3 & H4). rewrite H2, H1. destruct (may_start R i k n q).
    + pose proof (same_mode R i k n RUN (put_obj k (say n [AutoOn n] (p_obj q k)) q) k) as S. rewrite put_same in S.
      split; [|cbn [fst snd]; rewrite (proj2 (proj2 (proj2 (proj2 S)))); reflexivity].
      eapply rep_same; [exact S|]. apply rep_say. repeat split; auto.
    + rewrite put_same. rewrite H4. cbn [fst snd].
      destruct (warn_time i <? _); cbn [t_wait t_first t_fail t_warn set_auto]; unfold put; rewrite ?Z.eqb_refl, ?H3;
        (destruct (wait_time i <? _); [|]); cbn; unfold putb, put; rewrite ?Z.eqb_refl, ?H1, ?H2, ?H3, ?H4; auto.
  - destruct Hq as (H1 & H2 & H3 & H4). rewrite H2. cbn. auto.
Qed.

Lemma rep_h R i c p k n r : plain_checks i -> known p -> agree p -> 1 <= n <= t_n (p_obj p k) ->
  rep (p_obj p k) n r -> rep (p_obj (do_h R i c p) k) n (watch_request R k n i c p r).
Proof.
  intros P K Ag N H. destruct c as [k' val|k' n' s|k' n' c|k' n']; cbn [do_h watch_request].
  - assert (Put : forall t q, same_auto (p_obj q k') t -> rep (p_obj q k) n r -> rep (p_obj (put_obj k' t q) k) n r)
      by (intros t q S; apply rep_same, same_put, S).
    assert (SM : forall q a b, rep (p_obj q k) n r -> rep (p_obj (fst (set_mode R i k' a b q)) k) n r)
      by (intros q a b; apply rep_same, same_mode).
    unfold set_cmd, set_extra_step. cbv zeta.
    repeat match goal with |- context[if ?b then _ else _] => destruct b end; cbn [fst]; auto;
      try (apply Put; auto; repeat split; fail); try (apply SM, Put; auto; repeat split; fail);
      apply Put; auto; repeat split; apply SM.
  - eapply rep_same; [apply same_mode|exact H].
  - destruct (_ && _); [|exact H]. eapply rep_same; [|exact H]. apply same_put. repeat split.
  - destruct (has p k' n') eqn:Hp.
    2:{ destruct (Z.eqb_spec k' k) as [->|]; cbn [andb]; [|exact H].
        destruct (Z.eqb_spec n' n) as [->|]; cbn [andb]; [|exact H]. rewrite Hp. exact H. }
    destruct (Z.eqb_spec k' k) as [->|D]; cbn [andb]; [|apply eval_other; [congruence|exact H]].
    destruct (Z.eqb_spec n' n) as [->|D]; cbn [andb]; [|apply eval_other; [congruence|exact H]].
    rewrite Hp. apply tail_rep. apply own_eval; auto.
Qed.

Lemma agree_h R i c p : known p -> polite c p -> agree p -> agree (do_h R i c p).
Proof.
  intros K Pl Ag. assert (S : esteps R i false p (do_h R i c p)) by (apply do_h_steps; auto).
  clear - Ag S. induction S; eauto using agree_step.
Qed.

Lemma rep_run R k n : forall h p r, known p -> agree p -> polite_run R h p ->
  (forall i c, In (i, c) h -> plain_checks i) -> 1 <= n <= t_n (p_obj p k) -> rep (p_obj p k) n r ->
  rep (p_obj (run_h R h p) k) n (request_after R k n h p r).
Proof.
  induction h as [|[i c] h IH]; cbn [run_h polite_run request_after]; intros p r K Ag L P N H; [exact H|].
  assert (Pi : plain_checks i) by (apply (P i c); left; reflexivity).
  apply IH; auto using known_h.
  - apply agree_h; tauto.
  - tauto.
  - intros i0 c0 I0. apply (P i0 c0). right. exact I0.
  - rewrite n_h by auto. exact N.
  - apply rep_h; auto.
Qed.

(** What becomes of the operation itself. *)
Lemma own_result R i k n p r : plain_checks i -> known p -> agree p -> 1 <= n <= t_n (p_obj p k) -> rep (p_obj p k) n r ->
  st (p_obj (acted R i k n p) k) n = IDLE -> goto_ i k n IDLE <> None ->
  let q := op_evaluate R i k n p in
  if match r with GivenUp _ _ => false | _ => may_start R i k n (acted R i k n p) end
  then (st (p_obj q k) n = RUN \/ st (p_obj q k) n = STARTING) /\ get_mode (p_obj q k) n = 1
  else st (p_obj q k) n = IDLE /\ get_mode (p_obj q k) n = 0.
Proof.
  intros P K Ag N H E Go. unfold op_evaluate. cbv zeta. fold (acted R i k n p).
  set (q := acted R i k n p) in *.
  assert (Q : esteps R i false p q) by (eapply act_steps'; eauto using no_leave_eval, at_put).
  assert (Kq : known q) by (eapply known_steps; eauto).
  assert (Aq : agree q).
  { clear - Ag Q. induction Q; eauto using agree_step. }
  assert (Nq : 1 <= n <= t_n (p_obj q k)) by (rewrite (steps_n _ _ _ _ _ Q); exact N).
  assert (Hq : rep (p_obj q k) n r) by (eapply rep_same; [apply same_put, same_act|exact H]).
  clearbody q. clear Q N K Ag H p.
  assert (G : get_mode (p_obj q k) n = 0).
  { destruct (gm_01 (p_obj q k) n) as [G|G]; [lia|exact G|]. exfalso. apply (Aq k n Nq G E). }
  rewrite E. destruct (goto_ i k n IDLE) as [nx|]; [|contradiction].
  change (IDLE =? IDLE) with true. cbv iota. unfold auto_switch_on. cbv zeta.
  rewrite (mode_zero R i k n q P Nq G). rewrite (check_op R i k n q P ltac:(lia)).
  pose proof (mode_runs R i k n q Kq Nq G) as MR. cbv zeta in MR.
  destruct r as [|s w|s w]; cbn [rep] in Hq.
  - destruct Hq as [H1 H2]. rewrite H2, H1. destruct (may_start R i k n q); rewrite put_same.
    + exact MR.
    + rewrite MR. split; [exact E|]. exact G.
  - destruct Hq as (H1 & H2 & H3 & H4). rewrite H2, H1. destruct (may_start R i k n q) eqn:M.
    + set (q' := put_obj k (say n [AutoOn n] (p_obj q k)) q).
      assert (T : esteps R i false q q') by (apply none_steps; reflexivity).
      assert (M' : may_start R i k n q' = true).
      { rewrite <- M. unfold may_start, check_on_mode. cbv zeta.
        assert (X : forall y, t_n (p_obj q' y) = t_n (p_obj q y)) by (apply (steps_n _ _ _ _ _ T)).
        assert (Y : forall y x, get_mode (p_obj q' y) x = get_mode (p_obj q y) x).
        { intros y x. unfold q'. destruct (Z.eq_dec y k) as [->|D]; [rewrite put_same|rewrite put_other by auto]; reflexivity. }
        assert (Fx : forall f g l, (forall x, f x = g x) -> first_in f l = first_in g l).
        { intros f g l F. induction l as [|a l IH]; cbn; [reflexivity|]. rewrite F, IH. reflexivity. }
        assert (I1 : first_in (fun x => rin R k n x && (get_mode (p_obj q' k) x =? 1)) (upto (t_n (p_obj q' k))) =
                     first_in (fun x => rin R k n x && (get_mode (p_obj q k) x =? 1)) (upto (t_n (p_obj q k)))).
        { rewrite X. apply Fx. intros x. rewrite Y. reflexivity. }
        assert (I2 : forall y, first_in (fun x => rout R k n y x && (get_mode (p_obj q' y) x =? 1)) (upto (t_n (p_obj q' y))) =
                     first_in (fun x => rout R k n y x && (get_mode (p_obj q y) x =? 1)) (upto (t_n (p_obj q y)))).
        { intros y. rewrite X. apply Fx. intros x. rewrite Y. reflexivity. }
        rewrite I1. change (p_n q') with (p_n q).
        rewrite (Fx (fun y => match first_in (fun x => rout R k n y x && (get_mode (p_obj q' y) x =? 1)) (upto (t_n (p_obj q' y))) with Some _ => true | None => false end)
                    (fun y => match first_in (fun x => rout R k n y x && (get_mode (p_obj q y) x =? 1)) (upto (t_n (p_obj q y))) with Some _ => true | None => false end))
          by (intros y; rewrite I2; reflexivity).
        f_equal. destruct (if restricting i then _ else None); [reflexivity|].
        destruct (if restricting i then _ else None) as [y|]; [|reflexivity]. rewrite I2. reflexivity. }
      assert (MR' := mode_runs R i k n q' (known_steps _ _ _ _ _ T Kq)). cbv zeta in MR'. rewrite M' in MR'.
      apply MR'; [rewrite (steps_n _ _ _ _ _ T); exact Nq|]. unfold q'. rewrite put_same. exact G.
    + rewrite put_same.
      destruct (warn_time i <? _); cbn [t_wait t_first t_fail t_warn set_auto];
        (destruct (wait_time i <? _)); split; try exact E; exact G.
  - destruct Hq as (H1 & H2 & H3 & H4). rewrite H2. auto.
Qed.
