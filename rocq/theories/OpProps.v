(** Properties C11-C14, C56-C58: operations, their states and steps. *)
From Coq Require Import ZArith List Bool Lia.
From Verif Require Import Base TimeModel OpModel OpSpec OpProofs OpProofs2 OpProofs3.
Import ListNotations.
Open Scope Z_scope.

(** A state with [n] steps without time limits, one after the other. *)
Definition plain (n : Z) (em : bool) : sconf :=
  {| n_steps := n; next_n := fun k => if k <? n then k + 1 else -1; dur_par := fun _ => 0; max_par := fun _ => 0; empty := em |}.
(** A state whose steps take 5 s each. *)
Definition timed_steps (n : Z) : sconf :=
  {| n_steps := n; next_n := fun k => if k <? n then k + 1 else -1; dur_par := fun _ => 1; max_par := fun _ => 1; empty := false |}.
Definition at_time (t : Z) : env :=
  {| now := t; par := fun _ => 5000; parmax := fun _ => 7; ok := fun _ => true; auto_off := fun _ => false;
     signal1 := fun _ => false; signal2 := fun _ => false; jump := fun _ => None |}.
(** Running has three steps; PAUSING and UNPAUSING exist if [p], [u]. *)
Definition demo (run : sconf) (p u : bool) : oper :=
  new_oper 1 (fun s => if s =? RUN then run else if s =? PAUSING then plain 1 (negb p)
                       else if s =? UNPAUSING then plain 1 (negb u) else plain 0 true).
Definition at_times (l : list (Z * call)) : list (env * call) := map (fun x => (at_time (fst x), snd x)) l.

(** * C11: states and transitions *)

(** Eight states are reachable. *)
Theorem C11_states : forall h n cf, In (cur (run_calls h (new_oper n cf))) [0; 1; 2; 3; 10; 11; 12; 13].
Proof. intros h n cf. apply (states_run h (new_oper n cf)). cbn. tauto. Qed.
Print Assumptions C11_states.

(** Every change of state is an edge of the diagram. *)
Theorem C11_diagram : forall h n cf e c,
  let o := run_calls h (new_oper n cf) in
  cur (do_call e c o) <> cur o -> edge (cur o) c (cur (do_call e c o)).
Proof. intros h n cf e c o N. apply edges; [|exact N]. apply (C11_states h n cf). Qed.
Print Assumptions C11_diagram.

(** Idle is left only by a start and entered only by a switch-off; a stopped
    operation can only be switched off. *)
Theorem C11_idle : forall h n cf e c,
  let o := run_calls h (new_oper n cf) in let o' := do_call e c o in
  (cur o = IDLE -> cur o' <> IDLE -> exists k, c = CStart k) /\
  (cur o <> IDLE -> cur o' = IDLE -> c = CSwitchOff \/ c = CFinalize) /\
  (cur o <> IDLE -> c = CSwitchOff \/ c = CFinalize -> cur o' = IDLE) /\
  (cur o = STOP -> cur o' <> STOP -> c = CSwitchOff \/ c = CFinalize).
Proof.
  intros h n cf e c o o'. pose proof (C11_diagram h n cf e c) as D. cbv zeta in D. fold o in D. fold o' in D.
  split; [|split; [|split]].
  - intros E N. rewrite E in D. specialize (D N). revert D. generalize (cur o'). intros x D.
    inversion D; subst; eauto; try (cbn in *; intuition discriminate); congruence.
  - intros E N. rewrite N in D. assert (cur o <> IDLE -> edge (cur o) c IDLE) as D' by (intros; apply D; auto).
    specialize (D' E). inversion D'; subst; auto; cbn in *; intuition discriminate.
  - intros E N. pose proof (C11_states h n cf) as S. fold o in S. unfold o'. destruct N as [-> | ->]; cbn [do_call].
    + unfold op_switch_off. destruct (Z.eqb_spec (cur o) IDLE); [contradiction|]. reflexivity.
    + unfold op_finalize. replace (0 <? cur o) with true; [reflexivity|]. symmetry. apply Z.ltb_lt.
      cbn in S. unfold IDLE in E. lia.
  - intros E N. rewrite E in D. specialize (D N). revert D. generalize (cur o'). intros x D.
    inversion D; subst; auto; cbn in *; intuition discriminate.
Qed.
Print Assumptions C11_idle.

(** A command that is refused changes nothing at all. *)
Theorem C11_refused : forall h n cf e c,
  let o := run_calls h (new_oper n cf) in refused (cur o) c = true -> do_call e c o = o.
Proof. intros h n cf e c o. apply refused_same. apply (C11_states h n cf). Qed.
Print Assumptions C11_refused.

Example C11_example :
  let o := demo (plain 3 false) true true in
  map cur [run_calls (at_times [(1, CStart 0)]) o;
           run_calls (at_times [(1, CStart 0); (2, CPause)]) o;
           run_calls (at_times [(1, CStart 0); (2, CPause); (3, CPause)]) o;
           run_calls (at_times [(1, CStart 0); (2, CPause); (3, CPause); (4, CStart 0)]) o;
           run_calls (at_times [(1, CStart 0); (2, CPause); (3, CPause); (4, CStart 0); (5, CStart 0)]) o;
           run_calls (at_times [(1, CStart 0); (2, CStop); (3, CStart 0)]) o;
           run_calls (at_times [(1, CStart 0); (2, CStop); (3, CSwitchOff)]) o]
  = [RUN; PAUSING; PAUSE; UNPAUSING; RUN; STOP; IDLE].
Proof. vm_compute. reflexivity. Qed.

(** * C12: what a state switched on is switched off before another state acts *)

(** Only steps of the current state can be engaged, apart from UNPAUSING. *)
Theorem C12_only_current : forall h n cf s k, tame h ->
  let o := run_calls h (new_oper n cf) in
  engaged (otr o) s k = true -> s = cur o \/ s = UNPAUSING /\ empty (cf UNPAUSING) = false.
Proof.
  intros h n cf s k T o H. destruct (oinv_run h (new_oper n cf) T (oinv_new n cf)) as ((_ & _ & _ & P) & Q & _).
  fold o in P, Q. destruct (Q s k H) as [|E]; [auto|]. right. split; [exact E|]. subst s.
  destruct (empty (cf UNPAUSING)) eqn:M; [|reflexivity]. exfalso.
  replace (conf o) with cf in P by (symmetry; apply (conf_run h (new_oper n cf))). rewrite (P M k) in H. discriminate.
Qed.
Print Assumptions C12_only_current.

(** At every moment of the history, not only after a call: whenever a step is
    switched on or executed, no step of another state is engaged. *)
Theorem C12_order : forall h n cf, tame h -> exclusive UNPAUSING (otr (run_calls h (new_oper n cf))).
Proof. intros h n cf T. apply (oinv_run h (new_oper n cf) T (oinv_new n cf)). Qed.
Print Assumptions C12_order.

(** Without UNPAUSING steps the exception disappears: everything is off when the
    operation is. *)
Theorem C12_all_off : forall h n cf e c, tame h -> empty (cf UNPAUSING) = true ->
  let o := run_calls h (new_oper n cf) in
  cur o <> IDLE -> c = CSwitchOff \/ c = CFinalize ->
  forall s k, s <> IDLE -> engaged (otr (do_call e c o)) s k = false.
Proof.
  intros h n cf e c T M o N C s k S. destruct (engaged _ s k) eqn:E; [|reflexivity]. exfalso.
  assert (T' : tame (h ++ [(e, c)])).
  { intros e' c' I. apply in_app_iff in I as [I|[I|[]]]; [eauto|]. inversion I; subst. destruct C; subst; reflexivity. }
  assert (R : do_call e c o = run_calls (h ++ [(e, c)]) (new_oper n cf)).
  { unfold o. generalize (new_oper n cf). clear. induction h as [|[e' c'] r IH]; intros x; [reflexivity|]. cbn. apply IH. }
  rewrite R in E. destruct (C12_only_current _ n cf s k T' E) as [H|[_ H]]; [|congruence].
  rewrite <- R in H. destruct (C11_idle h n cf e c) as (_ & _ & H3 & _). fold o in H3. rewrite (H3 N C) in H. auto.
Qed.
Print Assumptions C12_all_off.

(** The exception is real: a step of UNPAUSING stays engaged while the operation
    runs and even after it is switched off. *)
Theorem C12_unpausing_refuted : exists h,
  let o := run_calls h (demo (plain 3 false) false true) in
  tame h /\ cur o = IDLE /\ engaged (otr o) UNPAUSING 1 = true /\ active_step o = 0.
Proof.
  exists (at_times [(1, CStart 0); (2, CPause); (3, CStart 0); (4, CStart 0); (5, CSwitchOff)]).
  split; [|vm_compute; auto]. intros e c H. cbn in H. repeat (destruct H as [H|H]; [inversion H; reflexivity|]). destruct H.
Qed.
Print Assumptions C12_unpausing_refuted.

Example C12_example :
  rev (otr (run_calls (at_times [(1, CStart 0); (2, CToStep 3); (3, CSwitchOff)]) (demo (plain 3 false) false false)))
  = [Fin 0 0; Init 1 0; Init 1 1; Eval 1 1; Fin 1 1; Init 1 3; Eval 1 3; Fin 1 0; Fin 1 3; Init 0 0; Eval 0 0].
Proof. vm_compute. reflexivity. Qed.

(** * C13: the main step *)

(** The main step is none or a configured one, every engaged step of the current
    state is shown as active, and no step outside the list is accessed. *)
Theorem C13_main_step : forall h n cf s, tame h ->
  let o := run_calls h (new_oper n cf) in
  (act (sts o s) = 0 \/ configured (cf s) (act (sts o s))) /\
  (s <> UNPAUSING -> forall k, engaged (otr o) s k = true ->
     k = 0 \/ k = act (sts o s) \/ In k (extra (sts o s))) /\
  oub o = false.
Proof.
  intros h n cf s T o. destruct (oinv_run h (new_oper n cf) T (oinv_new n cf)) as ((I & _ & U & _) & _).
  fold o in I, U. specialize (I s). replace (conf o) with cf in I by (symmetry; apply (conf_run h (new_oper n cf))).
  destruct I as [(R1 & _ & _) L]. split; [|split; [|exact U]].
  - destruct R1 as [|R1]; [auto|]. right. apply in_range_spec in R1. exact R1.
  - intros N k H. destruct (L k H) as [|[|[|X]]]; auto. contradiction.
Qed.
Print Assumptions C13_main_step.

(** A request for a step: out of range changes nothing; otherwise the step
    becomes the main one and the previous main step is not engaged any more. *)
Theorem C13_to_step : forall h n cf e k, tame h ->
  let o := run_calls h (new_oper n cf) in let s := cur o in let o' := do_call e (CToStep k) o in
  (~ configured (cf s) k -> act (sts o' s) = act (sts o s) /\ otr o' = otr o) /\
  (configured (cf s) k ->
     act (sts o' s) = k /\ extra (sts o' s) = extra (sts o s) /\
     forall j, engaged (otr o') s j = true -> j = k \/ engaged (otr o) s j = true /\ (0 < act (sts o s) -> j <> act (sts o s))).
Proof.
  intros h n cf e k T o s o'. destruct (oinv_run h (new_oper n cf) T (oinv_new n cf)) as ((I & _) & _).
  fold o in I. specialize (I s). assert (CF : conf o = cf) by apply (conf_run h (new_oper n cf)).
  destruct I as [R _]. destruct (to_step_spec s (conf o s) e k (view s o) R) as (E & _ & A & _ & N & G).
  assert (S1 : sts o' s = dy (to_step s (conf o s) e k (view s o))).
  { unfold o'. cbn [do_call]. unfold op_to_step. fold s. cbn [in_state sts]. rewrite Z.eqb_refl. reflexivity. }
  assert (S2 : otr o' = tr (to_step s (conf o s) e k (view s o))) by reflexivity.
  rewrite S1, S2, CF in *. unfold configured. split.
  - intros K. assert (in_range (cf s) k = false) as F.
    { destruct (in_range (cf s) k) eqn:F; [|reflexivity]. apply in_range_spec in F. contradiction. }
    rewrite (N F). auto.
  - intros K. apply in_range_spec in K. rewrite K in A. rewrite A, E. auto.
Qed.
Print Assumptions C13_to_step.

(** A request for the next step is one for the successor of the main step, or for
    the following one if it has none; without a main step it changes nothing. *)
Theorem C13_to_next : forall h n cf e, tame h ->
  let o := run_calls h (new_oper n cf) in let s := cur o in let a := act (sts o s) in
  let o1 := do_call e CToNext o in
  let o2 := do_call e (CToStep (if next_n (cf s) a =? -1 then a + 1 else next_n (cf s) a)) o in
  (0 < a -> otr o1 = otr o2 /\ forall x, sts o1 x = sts o2 x) /\
  (a <= 0 -> otr o1 = otr o /\ forall x, sts o1 x = sts o x).
Proof.
  intros h n cf e T o s a o1 o2. assert (CF : conf o = cf) by apply (conf_run h (new_oper n cf)).
  unfold o1, o2. cbn [do_call]. unfold op_to_next, op_to_step, to_next_step, in_state. fold s. rewrite CF.
  cbn [dy otr sts]. fold a. split; intros P.
  - rewrite (proj2 (Z.ltb_lt 0 a) P). destruct (next_n (cf s) a =? -1); auto.
  - rewrite (proj2 (Z.ltb_ge 0 a) P). cbn [tr dy]. split; [reflexivity|].
    intros x. destruct (Z.eqb_spec x s) as [->|]; reflexivity.
Qed.
Print Assumptions C13_to_next.

(** A step is not always switched on when it becomes the main step: with a time
    parameter of zero it is passed without being executed. *)
Theorem C13_zero_time_refuted : exists e o,
  let o' := do_call e (CToStep 2) o in
  o = run_calls (at_times [(1, CStart 0)]) (demo (timed_steps 3) false false) /\
  act (sts o' RUN) = 2 /\ engaged (otr o') RUN 2 = false.
Proof.
  exists {| now := 2; par := fun _ => 0; parmax := fun _ => 0; ok := fun _ => true; auto_off := fun _ => false;
            signal1 := fun _ => false; signal2 := fun _ => false; jump := fun _ => None |}.
  eexists. cbv zeta. split; [reflexivity|]. vm_compute. auto.
Qed.
Print Assumptions C13_zero_time_refuted.

Example C13_example :
  let o := run_calls (at_times [(1, CStart 0); (2, CToStep 7); (3, CToNext); (4, CToNext); (5, CToNext)]) (demo (plain 3 false) false false) in
  act (sts o RUN) = 3 /\ engaged (otr o) RUN 3 = true /\ engaged (otr o) RUN 1 = false /\ engaged (otr o) RUN 2 = false.
Proof. vm_compute. auto. Qed.

(** * C14: extra steps *)

(** No extra step is listed twice, unless a step is exchanged for one that is
    listed already; every listed step is a configured one. *)
Theorem C14_no_duplicates : forall h n cf s, tame h -> no_overlap h (new_oper n cf) ->
  let o := run_calls h (new_oper n cf) in
  NoDup (extra (sts o s)) /\ forall k, In k (extra (sts o s)) -> configured (cf s) k.
Proof.
  intros h n cf s T V o. split.
  - apply (ond_calls h (new_oper n cf) V). intros s'. split; constructor.
  - destruct (oinv_run h (new_oper n cf) T (oinv_new n cf)) as ((I & _) & _). fold o in I. specialize (I s).
    replace (conf o) with cf in I by (symmetry; apply (conf_run h (new_oper n cf))).
    intros k K. apply in_range_spec. eapply extra_range; [exact I|exact K].
Qed.
Print Assumptions C14_no_duplicates.

(** Switching an extra step off: it is engaged no more, and the other extra
    steps and the main step are as before. *)
Theorem C14_off : forall h n cf k, tame h -> no_overlap h (new_oper n cf) ->
  let o := run_calls h (new_oper n cf) in let s := cur o in let o' := do_call (at_time 0) (COffExtra k) o in
  In k (extra (sts o s)) ->
  ~ In k (extra (sts o' s)) /\ (forall j, j <> k -> In j (extra (sts o s)) -> In j (extra (sts o' s))) /\
  engaged (otr o') s k = false /\ act (sts o' s) = act (sts o s) /\
  forall j, j <> k -> engaged (otr o') s j = engaged (otr o) s j.
Proof.
  intros h n cf k T V o s o' K. destruct (C14_no_duplicates h n cf s T V) as [D C]. fold o in D, C.
  assert (CF : conf o = cf) by apply (conf_run h (new_oper n cf)).
  pose proof (C k K) as Ck. unfold configured in Ck.
  assert (R : in_range (conf o s) k = true) by (rewrite CF; apply in_range_spec; exact Ck).
  assert (S1 : forall x, x = off_extra_step s (conf o s) k (view s o) -> sts o' s = dy x /\ otr o' = tr x).
  { intros x ->. unfold o'. cbn [do_call]. unfold op_off_extra. fold s. cbn [in_state sts otr]. rewrite Z.eqb_refl. auto. }
  destruct (S1 _ eq_refl) as [E1 E2]. rewrite E1, E2. clear S1 E1 E2. unfold off_extra_step.
  replace ((k <? 0) || (n_steps (conf o s) <? k)) with false by (rewrite CF; lia).
  replace (existsb (Z.eqb k) (extra (dy (view s o)))) with true by (symmetry; apply existsb_In; exact K).
  unfold on_step. rewrite R. cbn [upd dy set_extra extra tr act step_finalize emit set_s_dx view].
  split; [|split; [|split; [|split]]].
  - revert D. generalize (extra (sts o s)). clear. induction l as [|x l IH]; cbn; [auto|].
    intros D. inversion D; subst. destruct (Z.eqb_spec x k) as [->|]; [auto|]. cbn. intuition.
  - intros j N I. apply in_remove_other; auto.
  - cbn [engaged owner stepno ends]. rewrite !Z.eqb_refl. reflexivity.
  - reflexivity.
  - intros j N. cbn [engaged owner stepno ends]. rewrite Z.eqb_refl. replace (k =? j) with false by lia. reflexivity.
Qed.
Print Assumptions C14_off.

(** Exchanging onto an active extra step lists it twice; switching it off once
    then leaves it listed though it is not engaged. *)
Theorem C14_exchange_refuted : exists h,
  let o := run_calls h (demo (plain 3 false) false false) in
  tame h /\ extra (sts o RUN) = [3; 3] /\
  extra (sts (do_call (at_time 9) (COffExtra 3) o) RUN) = [3] /\
  engaged (otr (do_call (at_time 9) (COffExtra 3) o)) RUN 3 = false.
Proof.
  exists (at_times [(1, CStart 0); (2, COnExtra 2); (3, COnExtra 3); (4, CSwitchExtra 2 3)]).
  split; [|vm_compute; auto]. intros e c H. cbn in H. repeat (destruct H as [H|H]; [inversion H; reflexivity|]). destruct H.
Qed.
Print Assumptions C14_exchange_refuted.

(** The main step can become one of the extra steps; leaving it as a main step
    switches it off although it is still listed as an extra step. *)
Theorem C14_main_extra_refuted : exists h,
  let o := run_calls h (demo (plain 3 false) false false) in
  tame h /\ In 2 (extra (sts o RUN)) /\ act (sts o RUN) = 3 /\ engaged (otr o) RUN 2 = false.
Proof.
  exists (at_times [(1, CStart 0); (2, COnExtra 2); (3, CToStep 2); (4, CToStep 3)]).
  split; [|vm_compute; auto]. intros e c H. cbn in H. repeat (destruct H as [H|H]; [inversion H; reflexivity|]). destruct H.
Qed.
Print Assumptions C14_main_extra_refuted.

(** A step refused by its check is listed, and executed from the next cycle on
    without having been switched on. *)
Theorem C14_check_refuted : exists e o,
  ok e 2 = false /\ o = run_calls (at_times [(1, CStart 0)]) (demo (plain 3 false) false false) /\
  let o' := do_call (at_time 3) CEvaluate (do_call e (COnExtra 2) o) in
  engaged (otr o') RUN 2 = true /\ ~ In (Init RUN 2) (otr o').
Proof.
  exists {| now := 2; par := fun _ => 0; parmax := fun _ => 0; ok := fun _ => false; auto_off := fun _ => false;
            signal1 := fun _ => false; signal2 := fun _ => false; jump := fun _ => None |}.
  eexists. split; [reflexivity|]. split; [reflexivity|]. split; [vm_compute; reflexivity|].
  vm_compute. intuition discriminate.
Qed.
Print Assumptions C14_check_refuted.

(** Step number 0, which an operator command can carry, leads outside the list
    of steps. *)
Theorem C14_step_zero_refuted : exists o,
  o = run_calls (at_times [(1, CStart 0); (2, COnExtra 0)]) (demo (plain 3 false) false false) /\ oub o = true.
Proof. eexists. split; [reflexivity|]. vm_compute. reflexivity. Qed.
Print Assumptions C14_step_zero_refuted.

(** When two extra steps lose their signals in the same cycle, the second is
    left on until the next one. *)
Theorem C14_skip_refuted : exists e o,
  (forall k, auto_off e k = true /\ signal1 e k = false) /\
  o = run_calls (at_times [(1, CStart 0); (2, COnExtra 2); (2, COnExtra 3)]) (demo (plain 3 false) false false) /\
  extra (sts (do_call e CEvaluate o) RUN) = [3].
Proof.
  exists {| now := 3; par := fun _ => 0; parmax := fun _ => 0; ok := fun _ => true; auto_off := fun _ => true;
            signal1 := fun _ => false; signal2 := fun _ => false; jump := fun _ => None |}.
  eexists. split; [auto|]. split; [reflexivity|]. vm_compute. reflexivity.
Qed.
Print Assumptions C14_skip_refuted.

Example C14_example :
  let o := run_calls (at_times [(1, CStart 0); (2, COnExtra 2); (3, COnExtra 3); (4, COnExtra 2); (5, COffExtra 2); (6, CSwitchExtra 3 2)])
             (demo (plain 3 false) false false) in
  extra (sts o RUN) = [2] /\ act (sts o RUN) = 1 /\
  map (engaged (otr o) RUN) [1; 2; 3] = [true; true; false].
Proof. vm_compute. auto. Qed.

(** * C56: warning about a step that takes too long *)

(** For the main step the warning is given exactly when the limit is set and
    passed, and it names the step and the limit. *)
Theorem C56_main : forall cf e d,
  configured cf (act d) -> extra d = [] -> 0 <= act_max d <= 4294967 ->
  check_max_step_time cf e d =
    (if (0 <? act_max d) && (1000 * act_max d <=? latest_time e (act d) d)
     then Overrun (act d) (act_max d) else NoOverrun).
Proof.
  intros cf e d [C1 C2] E M. unfold check_max_step_time. replace (n_steps cf <=? 0) with false by lia.
  assert (in_range cf (act d) = true) as R by (apply in_range_spec; lia). rewrite R, E.
  replace (0 <? act d) with true by lia. cbn [andb check_extra_max].
  unfold exceeded, u32. rewrite (Z.mod_small (act_max d)) by lia. rewrite (Z.mod_small (1000 * _)) by lia.
  replace (negb (act_max d =? 0)) with (0 <? act_max d) by lia.
  destruct (_ && _); [|reflexivity]. unfold make_str. replace (act d - 1 + 1) with (act d) by lia. rewrite R. reflexivity.
Qed.
Print Assumptions C56_main.

(** The limit that counts is the one of the step that was on at the last
    evaluation: its own parameter, or none if it has no limit parameter. *)
Lemma max_to_step s cf e k c : act_max (dy (to_step s cf e k c)) = act_max (dy c).
Proof.
  unfold to_step. destruct (negb _); [reflexivity|]. cbv zeta.
  set (c1 := upd _ c).
  assert (E1 : act_max (dy c1) = act_max (dy c)) by reflexivity. rewrite <- E1. clearbody c1. clear E1.
  set (c2 := if 0 <? act (dy c1) then _ else c1).
  assert (E2 : act_max (dy c2) = act_max (dy c1)).
  { unfold c2, on_step. destruct (0 <? _); [|reflexivity]. destruct (in_range _ _); reflexivity. }
  rewrite <- E2. clearbody c2. clear E2. set (c3 := upd _ c2).
  assert (E3 : act_max (dy c3) = act_max (dy c2)) by reflexivity. rewrite <- E3. clearbody c3. clear E3.
  set (c4 := if 0 <? dur_par cf k then _ else c3).
  assert (E4 : act_max (dy c4) = act_max (dy c3)) by (unfold c4; destruct (0 <? _); reflexivity).
  rewrite <- E4. clearbody c4. unfold on_step.
  destruct (_ || _); [|reflexivity]. destruct (in_range cf k); reflexivity.
Qed.
Lemma max_jump s cf e c : act_max (dy (jump_part s cf e c)) = act_max (dy c).
Proof.
  unfold jump_part, on_step. cbv zeta.
  set (c1 := match jump e (act (dy c)) with Some _ => _ | None => _ end).
  assert (E : act_max (dy c1) = act_max (dy c)).
  { unfold c1. destruct (jump e _) as [j|]; [|reflexivity]. destruct (0 <=? j); [apply max_to_step|reflexivity]. }
  destruct (in_range _ _); exact E.
Qed.

Theorem C56_limit : forall h n cf e, tame h -> 0 < n ->
  let o := run_calls h (new_oper n cf) in let s := cur o in
  let a := act (sts o s) in
  let o' := do_call e CEvaluate o in let d := sts o' s in
  let limit := if 0 <? max_par (cf s) a then parmax e (max_par (cf s) a) else 0 in
  0 < a -> ~ In a (extra (sts o s)) -> 0 <= limit <= 2147483 ->
  act_max d = limit /\
  forall e', configured (cf s) a -> act d = a -> extra d = [] ->
    check_max_step_time (cf s) e' d =
      (if (0 <? limit) && (1000 * limit <=? latest_time e' a d) then Overrun a limit else NoOverrun).
Proof.
  intros h n cf e T N o s a o' d limit Pa Na Hl.
  assert (CF : conf o = cf) by apply (conf_run h (new_oper n cf)).
  assert (NM : num o = n) by apply (conf_run h (new_oper n cf)).
  assert (M : act_max d = limit).
  { unfold d, o'. cbn [do_call]. unfold op_evaluate_state. fold s. cbn [eval_st fst in_state sts].
    rewrite Z.eqb_refl, CF, NM. unfold state_evaluate. cbv zeta.
    fold (view s o). set (c := view s o).
    set (c1 := step_evaluate s 0 c). set (c2 := extra_loop s (cf s) e _ 0 c1). set (c3 := enable_loop s (cf s) e c2).
    assert (A : act (dy c3) = a).
    { assert (F1 : frame (dy c) (dy c2)) by (apply (frame_loop s (cf s) e (length (extra (dy c1))) 0 c1 Na Pa)).
      destruct F1 as (A1 & A2 & A3 & A4 & A5).
      assert (F2 : frame (dy c2) (dy c3)) by (apply frame_enable; rewrite A1; exact A5).
      destruct F2 as (B1 & _). rewrite B1. exact A1. }
    rewrite A. destruct (Z.leb_spec a 0); [lia|].
    assert (L : s32 limit = limit) by (unfold s32; rewrite Z.mod_small by lia; lia).
    assert (X : (if 0 <? max_par (cf s) a then s32 (parmax e (max_par (cf s) a)) else 0) = limit).
    { rewrite <- L. unfold limit. destruct (0 <? max_par (cf s) a); reflexivity. }
    rewrite X. clearbody limit. clear X.
    destruct (0 <? dur_par (cf s) a); [|cbn [fst]; rewrite max_jump; reflexivity].
    destruct (_ || _); [|cbn [fst]; rewrite max_jump; reflexivity].
    destruct (_ =? -1); [|cbn [fst]; rewrite max_to_step; reflexivity].
    replace (0 <? n) with true by lia. reflexivity. }
  split; [exact M|]. intros e' C A E.
  rewrite <- A, <- M. apply C56_main; rewrite ?A; auto. rewrite M. lia.
Qed.
Print Assumptions C56_limit.

(** For an extra step the two numbers are exchanged: the warning names the step
    whose number is the limit plus one, and from a limit of as many seconds as
    there are steps on, memory outside the list of steps is read. *)
Theorem C56_extra : forall cf e d a r,
  extra d = a :: r -> Forall (configured cf) (extra d) -> act_max d = 0 ->
  let limit := parmax e (max_par cf a) in
  0 < max_par cf a -> 0 < limit <= 4294967 -> 1000 * limit <= latest_time e a d ->
  check_max_step_time cf e d = (if limit <? n_steps cf then Overrun (limit + 1) (a - 1) else Outside).
Proof.
  intros cf e d a r E F M limit P L T. rewrite E in F. inversion F as [|x y [C1 C2] F2]; subst.
  unfold check_max_step_time. replace (n_steps cf <=? 0) with false by lia.
  rewrite M. change (exceeded e d (act d) 0) with false. rewrite andb_false_r, E. cbn [check_extra_max].
  assert (in_range cf a = true) as -> by (apply in_range_spec; lia). cbn [negb]. cbv zeta. fold limit.
  replace (0 <? max_par cf a) with true by lia. unfold exceeded, u32.
  rewrite (Z.mod_small limit) by lia. rewrite (Z.mod_small (1000 * _)) by lia.
  replace (limit =? 0) with false by lia. replace (1000 * limit <=? latest_time e a d) with true by lia. cbn [negb andb].
  unfold make_str. destruct (Z.ltb_spec limit (n_steps cf)).
  - assert (in_range cf (limit + 1) = true) as -> by (apply in_range_spec; lia). reflexivity.
  - destruct (in_range cf (limit + 1)) eqn:R; [apply in_range_spec in R; lia|reflexivity].
Qed.
Print Assumptions C56_extra.

(** A reachable case. *)
Theorem C56_outside_refuted : exists h,
  let o := run_calls h (demo (timed_steps 3) false false) in
  tame h /\ check_max_step_time (timed_steps 3) (at_time 8000) (sts o RUN) = Outside.
Proof.
  exists (at_times [(1, CStart 0); (2, COnExtra 2); (4000, CTurnOff)]).
  split; [|vm_compute; reflexivity]. intros e c H. cbn in H. repeat (destruct H as [H|H]; [inversion H; reflexivity|]). destruct H.
Qed.
Print Assumptions C56_outside_refuted.

Example C56_example :
  let o := run_calls (at_times [(1, CStart 0); (2, CEvaluate)]) (demo (timed_steps 3) false false) in
  check_max_step_time (timed_steps 3) (at_time 7000) (sts o RUN) = NoOverrun /\
  check_max_step_time (timed_steps 3) (at_time 7001) (sts o RUN) = Overrun 1 7.
Proof. vm_compute. auto. Qed.

(** * C57: the sequence of steps and their times *)

(** At every evaluation the next main step is the one the configuration demands:
    the successor once the time of the step is over (or zero), else the target of
    a jump condition, else the same step; the operation asks to be switched off
    exactly when the time of a step without successor is over. *)
Theorem C57_next_step : forall h n cf e, tame h -> 0 < n ->
  let o := run_calls h (new_oper n cf) in let s := cur o in
  let a := act (sts o s) in
  let elapsed := u32 (get_delta_millisec 32 (now e) (s_start (sts o s) a) + s_dx (sts o s) a) in
  let limit := fun k => par e (dur_par (cf s) k) in
  0 < a -> ~ In a (extra (sts o s)) -> 0 <= limit a < 2 ^ 32 ->
  act (sts (do_call e CEvaluate o) s) = next_step (cf s) limit (jump e a) (next_n (cf s) a) a elapsed /\
  snd (op_evaluate_state e o) =
    (0 <? dur_par (cf s) a) && ((limit a =? 0) || (limit a <? elapsed)) && (next_n (cf s) a =? -1).
Proof.
  intros h n cf e T N o s a elapsed limit Pa Na Hl.
  assert (CF : conf o = cf) by apply (conf_run h (new_oper n cf)).
  assert (NM : num o = n) by apply (conf_run h (new_oper n cf)).
  pose proof (onext_calls h (new_oper n cf) N (onext_new n cf) s) as X. fold o in X. rewrite CF in X. specialize (X Pa).
  destruct (act_evaluate s (cf s) e n (view s o) Na Pa N Hl) as [A B].
  change (act_next (dy (view s o))) with (act_next (sts o s)) in *. rewrite X in A, B. split.
  - cbn [do_call]. unfold op_evaluate_state. fold s. cbn [eval_st fst in_state sts]. rewrite Z.eqb_refl, CF, NM. exact A.
  - unfold op_evaluate_state. fold s. cbn [eval_st snd]. rewrite CF, NM. exact B.
Qed.
Print Assumptions C57_next_step.

(** A pause of any length does not count: on resuming, the step goes on with the
    time it had when it was paused. *)
Theorem C57_pause : forall h n cf e1 hp e2 k, tame h -> 0 < n ->
  let o := run_calls h (new_oper n cf) in
  let a := act (sts o RUN) in
  let elapsed := u32 (get_delta_millisec 32 (now e1) (s_start (sts o RUN) a) + s_dx (sts o RUN) a) in
  let limit := fun k => par e2 (dur_par (cf RUN) k) in
  cur o = RUN -> empty (cf PAUSING) = true -> empty (cf UNPAUSING) = true ->
  0 < a -> ~ In a (extra (sts o RUN)) -> (forall e c, In (e, c) hp -> in_pause c = true) ->
  k <= 0 \/ k = a -> 0 <= now e2 < 2 ^ 32 ->
  dur_par (cf RUN) a <= 0 \/ 0 < limit a < 2 ^ 31 -> 0 <= limit a < 2 ^ 32 ->
  act (sts (do_call e2 (CStart k) (run_calls hp (do_call e1 CPause o))) RUN) =
  next_step (cf RUN) limit (jump e2 a) (next_n (cf RUN) a) a elapsed.
Proof.
  intros h n cf e1 hp e2 k T N o a elapsed limit C Ep Eu Pa Na Hh Hk Ht Hd Hl.
  assert (CF : conf o = cf) by apply (conf_run h (new_oper n cf)).
  assert (NM : num o = n) by apply (conf_run h (new_oper n cf)).
  destruct (oinv_run h (new_oper n cf) T (oinv_new n cf)) as (Bo & _). fold o in Bo.
  pose proof (onext_calls h (new_oper n cf) N (onext_new n cf)) as On. fold o in On.
  pose proof (resume e1 hp e2 k o Bo On) as R. rewrite CF, NM in R. cbv zeta in R. apply R; auto.
Qed.
Print Assumptions C57_pause.

(** A successor that is not in the list of steps keeps the step on for ever. *)
Theorem C57_bad_next_refuted : exists cf h,
  let o := run_calls h (new_oper 1 (fun s => if s =? RUN then cf else plain 0 true)) in
  next_n cf 1 = 7 /\ act (sts o RUN) = 1 /\
  (forall m, (forall e c, In (e, c) m -> exists t, e = at_time t /\ c = CEvaluate) ->
     act (sts (run_calls m o) RUN) = 1).
Proof.
  exists {| n_steps := 3; next_n := fun _ => 7; dur_par := fun _ => 1; max_par := fun _ => 0; empty := false |}.
  exists (at_times [(1, CStart 0)]). cbv zeta. split; [reflexivity|]. split; [reflexivity|].
  intros m H.
  cut (forall m o, (forall e c, In (e, c) m -> exists t, e = at_time t /\ c = CEvaluate) ->
    cur o = RUN -> act (sts o RUN) = 1 -> act_next (sts o RUN) = 7 -> extra (sts o RUN) = [] -> num o = 1 ->
    conf o RUN = {| n_steps := 3; next_n := fun _ => 7; dur_par := fun _ => 1; max_par := fun _ => 0; empty := false |} ->
    act (sts (run_calls m o) RUN) = 1).
  { intros X. apply (X m _ H); reflexivity. }
  clear. induction m as [|[e c] m IH]; intros o H C A Nx E Nm Cf; [exact A|]. cbn [run_calls].
  destruct (H e c (or_introl eq_refl)) as (t & -> & ->).
  set (c' := fst (state_evaluate RUN (conf o RUN) (at_time t) (num o) (view RUN o))).
  assert (S : sts (do_call (at_time t) CEvaluate o) RUN = dy c').
  { cbn [do_call]. unfold op_evaluate_state. rewrite C. reflexivity. }
  assert (Y : act (dy c') = 1 /\ act_next (dy c') = 7 /\ extra (dy c') = []).
  { unfold c', state_evaluate. cbv zeta. rewrite Cf. set (cf := {| n_steps := 3 |}).
    assert (L : extra_loop RUN cf (at_time t) (length (extra (dy (step_evaluate RUN 0 (view RUN o))))) 0 (step_evaluate RUN 0 (view RUN o))
                = step_evaluate RUN 0 (view RUN o)).
    { change (extra (dy (step_evaluate RUN 0 (view RUN o)))) with (extra (sts o RUN)). rewrite E. reflexivity. }
    rewrite L. clear L.
    assert (L : forall c, enable_loop RUN cf (at_time t) c = c).
    { intros c. unfold enable_loop. generalize (seq 1 (Z.to_nat (n_steps cf))). intros l. revert c.
      induction l as [|x l IHl]; intros c; cbn [fold_left]; [reflexivity|]. cbv zeta.
      transitivity (fold_left (fun c i => if existsb (Z.eqb (Z.of_nat i)) (extra (dy c)) then c
        else if signal2 (at_time t) (Z.of_nat i) then on_extra_step RUN cf (at_time t) (Z.of_nat i) c else c) l c); [|apply IHl].
      f_equal. destruct (existsb _ _); reflexivity. }
    rewrite L. clear L.
    change (act (dy (step_evaluate RUN 0 (view RUN o)))) with (act (sts o RUN)). rewrite A.
    cbn [Z.leb Z.compare dur_par Z.ltb max_par cf upd dy set_time act_time set_max par at_time].
    change (s32 5000) with 5000. destruct (_ || _).
    - match goal with |- context[if act_next ?d =? -1 then _ else _] => change (act_next d) with (act_next (sts o RUN)) end.
      rewrite Nx. cbn [Z.eqb fst]. unfold to_step. cbn. auto.
    - unfold jump_part, on_step. cbn [jump at_time fst upd dy set_time set_max act step_evaluate emit view]. rewrite A. cbn. auto. }
  destruct Y as (Y1 & Y2 & Y3). apply IH.
  - intros e c I. apply (H e c). cbn. auto.
  - cbn [do_call]. unfold op_evaluate_state. exact C.
  - rewrite S. exact Y1.
  - rewrite S. exact Y2.
  - rewrite S. exact Y3.
  - exact Nm.
  - exact Cf.
Qed.
Print Assumptions C57_bad_next_refuted.

(** 5 s per step; 3 s before the pause and 2 s after it. *)
Example C57_example :
  let o := demo (timed_steps 3) false false in
  let p := [(1000, CStart 0); (4000, CPause); (5000, CEvaluate); (90000, CStart 0)] in
  act (sts (run_calls (at_times (p ++ [(92000, CEvaluate)])) o) RUN) = 1 /\
  act (sts (run_calls (at_times (p ++ [(92001, CEvaluate)])) o) RUN) = 2.
Proof. vm_compute. auto. Qed.

(** * C58: running time of an operation *)

(** The running time shown is the sum of the running stretches since the
    operation was started from idle; a stretch that ended with a stop is not
    counted. *)
Theorem C58_running_time : forall h n cf e, 0 < n ->
  let o := run_calls h (new_oper n cf) in
  op_evaluation_time e o =
  shows (watch_calls h (new_oper n cf) {| total := 0; since := 0 |}) (cur o) (now e).
Proof.
  intros h n cf e N o.
  destruct (timed_calls h (new_oper n cf) {| total := 0; since := 0 |} N) as [A B]; [cbn; auto|split; [reflexivity|discriminate]|].
  fold o in A, B. unfold op_evaluation_time, evaluation_time, shows.
  destruct (Z.eqb_spec (cur o) RUN) as [E|_]; [rewrite A, (B E); reflexivity|exact A].
Qed.
Print Assumptions C58_running_time.

(** After a stop the last stretch is missing. *)
Theorem C58_stop_refuted : exists h,
  let o := run_calls h (demo (plain 3 false) false false) in
  h = at_times [(1000, CStart 0); (4000, CPause); (6000, CStart 0); (16000, CStop)] /\
  op_evaluation_time (at_time 17000) o = 3000.
Proof. eexists. cbv zeta. split; [reflexivity|]. vm_compute. reflexivity. Qed.
Print Assumptions C58_stop_refuted.

Example C58_example :
  op_evaluation_time (at_time 17000)
    (run_calls (at_times [(1000, CStart 0); (4000, CPause); (6000, CStart 0)]) (demo (plain 3 false) false false)) = 14000.
Proof. vm_compute. reflexivity. Qed.
