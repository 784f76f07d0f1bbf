(** Properties C07-C10, C47, C48: errors, alarms, messages, siren. *)
From Coq Require Import ZArith List Bool Lia Sorted.
From Verif Require Import Base TimeModel ErrModel ErrSpec ErrProofs ErrProofs2.
Import ListNotations.
Open Scope Z_scope.

(** * C07 *)

(** Listed exactly when the last operation on the error was a raise. *)
Theorem C07_listed_iff_last_op_raise : forall ops e,
  In e (cm_errors (crit_run ops)) <-> raised (rev ops) (key_of e) = true.
Proof. intros ops e. apply (crit_inv_run ops). Qed.
Print Assumptions C07_listed_iff_last_op_raise.

(** Listed once, in order of raising. *)
Theorem C07_listed_once_in_order : forall ops,
  NoDup (cm_errors (crit_run ops)) /\
  StronglySorted (fun a b => (raised_at (rev ops) (key_of a) < raised_at (rev ops) (key_of b))%nat)
    (cm_errors (crit_run ops)).
Proof.
  intros ops. destruct (crit_inv_run ops) as (_ & H1 & H2 & _). split; [exact H1|exact H2].
Qed.
Print Assumptions C07_listed_once_in_order.

(** The change counter counts the effective operations modulo 65536. *)
Theorem C07_counter : forall ops,
  cm_id (crit_run ops) = changes (rev ops) mod 65536.
Proof. intros ops. apply (crit_inv_run ops). Qed.
Print Assumptions C07_counter.

Example C07_example :
  let ops := [CRaise 1 2 3; CRaise 1 2 4; CRaise 1 2 3; CClear 1 2 3; CClear 9 9 9;
              CRaise 1 2 (3 + 2 ^ 32)] in
  cm_errors (crit_run ops) = [ {| ce_class := 1; ce_sub := 2; ce_param := 4 |};
                               {| ce_class := 1; ce_sub := 2; ce_param := 3 |} ] /\
  cm_id (crit_run ops) = 4.
Proof. vm_compute. auto. Qed.

(** * C08 *)

(** For every history of evaluations, operator commands and messages of the
    whole system, the alarm state of a device addressed uniquely is the one the
    table [shown_state] gives for the device's own samples and
    acknowledgements. *)
Theorem C08_alarm_life_cycle : forall m i d ops,
  nth_error (em_entries m) i = Some (EDev d) -> de_state d = AS_NORMAL ->
  first_at (em_entries m) i (u8 (de_type d)) (de_n d) ->
  exists d', nth_error (em_entries (em_run m ops)) i = Some (EDev d') /\
    de_type d' = de_type d /\ de_n d' = de_n d /\
    de_state d' = shown_state (dev_history i (u8 (de_type d)) (de_n d) ops).
Proof. exact dev_cycle. Qed.
Print Assumptions C08_alarm_life_cycle.

(** Acknowledging never hides a device that is still faulty. *)
Theorem C08_faulty_is_shown : forall m i d ops,
  nth_error (em_entries m) i = Some (EDev d) -> de_state d = AS_NORMAL ->
  first_at (em_entries m) i (u8 (de_type d)) (de_n d) ->
  faulty_now (dev_history i (u8 (de_type d)) (de_n d) ops) = true ->
  exists d', nth_error (em_entries (em_run m ops)) i = Some (EDev d') /\
    (de_state d' = AS_ALARM \/ de_state d' = AS_ACCEPT) /\
    In (ShDev (de_type d) (de_n d) (de_state d') (suppressed d')) (view (em_run m ops)).
Proof.
  intros m i d ops Hd Hs Hf Hfaulty.
  destruct (dev_cycle m i d ops Hd Hs Hf) as (d' & Hd' & Ht & Hn & Hst).
  exists d'. split; auto.
  assert (Hor : de_state d' = AS_ALARM \/ de_state d' = AS_ACCEPT).
  { rewrite Hst. unfold shown_state. rewrite Hfaulty. destruct (unacked _); auto. }
  split; auto. unfold view. apply in_flat_map. exists (EDev d').
  split; [eapply nth_error_In; eauto|]. cbn [view_entry]. rewrite Ht, Hn.
  destruct Hor as [-> | ->]; left; reflexivity.
Qed.
Print Assumptions C08_faulty_is_shown.

Definition ex_dev (ty n par : Z) : entry :=
  EDev {| de_type := ty; de_n := n; de_state := AS_NORMAL; de_par := par |}.
Definition ex_obj (ty n : Z) : entry :=
  EObj {| oe_type := ty; oe_n := n; oe_msgs := []; oe_prev := 0; oe_cmd := false |}.
Definition ex_mgr (es : list entry) : emgr :=
  {| em_entries := es; em_id := 0; em_flags := no_flags; em_counter := 0 |}.

Example C08_example :
  let m := ex_mgr [ex_dev 0 1 0; ex_obj 1 1; ex_dev 2 1 0] in
  let ops := [OEval (fun i => (i =? 2)%nat); OCmd 100 2 1 0; OEval (fun i => (i =? 2)%nat);
              OEval (fun _ => false); OEval (fun i => (i =? 2)%nat); OEval (fun _ => false)] in
  first_at (em_entries m) 2 2 1 /\
  shown_state (dev_history 2 2 1 (firstn 1 ops)) = AS_ALARM /\
  shown_state (dev_history 2 2 1 (firstn 3 ops)) = AS_ACCEPT /\
  shown_state (dev_history 2 2 1 (firstn 4 ops)) = AS_NORMAL /\
  shown_state (dev_history 2 2 1 ops) = AS_RETURN.
Proof.
  cbn zeta. split; [|vm_compute; auto]. split.
  - eexists. repeat split; reflexivity.
  - intros [|[|j]] e Hj Hn; [| |lia]; injection Hn as <-; cbn; lia.
Qed.

(** * C09 *)

(** The three device flags and the message flag after one pass. *)
Theorem C09_one_pass : forall fl m,
  let f := em_flags (em_evaluate fl m) in
  let es := em_entries m in
  (f_any f = true <-> exists i d, indicated fl es i d) /\
  (f_noack f = true <-> exists i d, indicated fl es i d /\ de_state d <> AS_ACCEPT) /\
  (f_new f = true <-> exists i d, indicated fl es i d /\
        (de_state d = AS_NORMAL \/ de_state d = AS_RETURN)) /\
  (f_msg f = true <-> exists i o, nth_error es i = Some (EObj o) /\ oe_msgs o <> []).
Proof. exact one_pass. Qed.
Print Assumptions C09_one_pass.

(** Without the proviso the claim is false: a suppressed faulty device hides
    the faulty device before it. *)
Theorem C09_suppressed_hides_others_refuted :
  ~ (forall fl m i d, nth_error (em_entries m) i = Some (EDev d) -> fl i = true ->
       suppressed d = false -> f_any (em_flags (em_evaluate fl m)) = true).
Proof.
  intros H.
  specialize (H (fun _ => true) (ex_mgr [ex_dev 0 1 0; ex_dev 0 2 4]) 0%nat _ eq_refl eq_refl eq_refl).
  vm_compute in H. discriminate.
Qed.
Print Assumptions C09_suppressed_hides_others_refuted.

Example C09_example :
  let m := ex_mgr [ex_dev 0 1 4; ex_dev 0 2 0] in
  indicated (fun _ => true) (em_entries m) 1 {| de_type := 0; de_n := 2; de_state := AS_NORMAL; de_par := 0 |} /\
  f_new (em_flags (em_evaluate (fun _ => true) m)) = true.
Proof.
  cbn zeta. split; [|vm_compute; auto].
  split; [reflexivity|split; [reflexivity|split; [reflexivity|]]].
  intros [|[|j]] d' Hj Hn; try lia. destruct j; discriminate.
Qed.

(** * C10 *)

(** The siren sounds exactly when some evaluation (after the start-up delay)
    saw a new device alarm or a change of the critical-error list - or it was
    sounding already - and ever since there was a critical error or an
    unacknowledged device alarm at each evaluation. *)
Theorem C10_siren : forall l s, s_present s = true /\ s_manual s = 0 ->
  s_srn (siren_run s l) = true <->
  (exists k i, nth_error l k = Some i /\ ready (s_st_time s) i = true /\
      trigger (s_crit_n s) l k /\ alarm_since (s_st_time s) l k)
  \/ (s_srn s = true /\ alarm_since (s_st_time s) l 0).
Proof. exact siren_sounds. Qed.
Print Assumptions C10_siren.

Theorem C10_lamps : forall s i, s_present s = true /\ s_manual s = 0 ->
  ready (s_st_time s) i = true ->
  let s' := siren_eval s i in
  s_green s' = i_important i /\
  (s_red s' = true -> crit_any (i_crit i) || f_any (i_flags i) = true) /\
  (s_yellow s' = true -> f_msg (i_flags i) = true) /\
  (s_builtin s <> 0 -> s_red s' = (crit_any (i_crit i) || f_any (i_flags i))).
Proof. exact lamps. Qed.
Print Assumptions C10_lamps.

(** The software blinking of the red lamp does not get stuck off. *)
Theorem C10_red_blinks : forall s i1 i2 i3,
  s_present s = true /\ s_manual s = 0 -> s_builtin s = 0 ->
  (forall i, In i [i1; i2; i3] -> ready (s_st_time s) i = true /\
     crit_any (i_crit i) || f_any (i_flags i) = true /\
     (forall t, t <= i_now i -> i_delta i t = i_now i - t)) ->
  (b_step (s_rb s) = 0 \/ b_step (s_rb s) = 1) /\ b_wait (s_rb s) <= i_now i1 ->
  i_now i1 + 250 < i_now i2 -> i_now i2 <= i_now i3 ->
  s_red (siren_run s [i1]) = true \/ s_red (siren_run s [i1; i2]) = true \/
  s_red (siren_run s [i1; i2; i3]) = true.
Proof. exact red_blinks. Qed.
Print Assumptions C10_red_blinks.

(** Blinking, exactly.  A lamp that went on (off) at time [t] stays on (off) at
    all evaluations up to one period after [t] and at the first evaluation after
    that, which begins the opposite phase.  The period is 250 ms for the red and
    1 s for the yellow lamp. *)
Definition phase (b : blink) (on : bool) (t : Z) : Prop :=
  if on then b_step b = 0 /\ b_blink b = t else b_step b = 1 /\ b_wait b = t.

(** [i] is an evaluation with a running clock at which lamp [yellow] (else the
    red one) is to blink. *)
Definition to_blink (yellow : bool) (s : siren) (i : siren_in) : Prop :=
  ready (s_st_time s) i = true /\
  (forall t, t <= i_now i -> i_delta i t = i_now i - t) /\
  (if yellow then f_msg (i_flags i) else crit_any (i_crit i) || f_any (i_flags i)) = true.

Lemma blink_once (yellow on : bool) t s i : s_present s = true /\ s_manual s = 0 -> s_builtin s = 0 ->
  to_blink yellow s i -> t <= i_now i ->
  phase (if yellow then s_yb s else s_rb s) on t ->
  let s' := siren_eval s i in let p := if yellow then 1000 else 250 in
  (s_present s' = true /\ s_manual s' = 0) /\ s_builtin s' = 0 /\ s_st_time s' = s_st_time s /\
  (if yellow then s_yellow s' else s_red s') = on /\
  phase (if yellow then s_yb s' else s_rb s') (if i_now i <=? t + p then on else negb on)
    (if i_now i <=? t + p then t else i_now i).
Proof.
  intros A B (R & D & F) T P. destruct (siren_eval_const s i A) as (A' & T' & B' & _).
  cbv zeta. split; [exact A'|]. split; [congruence|]. split; [congruence|]. clear A' T' B'.
  destruct A as [Hp Hm]. unfold siren_eval, ready in *. rewrite Hp, Hm, B.
  change (0 =? 0) with true. cbn [negb]. rewrite orb_false_r.
  replace (i_delta i (s_st_time s) <? 5000) with false by lia.
  destruct yellow.
  - rewrite F.
    destruct (if crit_any (i_crit i) || f_any (i_flags i) then _ else _) as [r rb].
    unfold blink_step, phase in *. destruct on; destruct P as [P1 P2]; rewrite P1, P2, (D t T).
    + change (0 =? 0) with true. cbv iota. destruct (Z.leb_spec (i_now i) (t + 1000)).
      * replace (i_now i - t >? 1000) with false by lia. cbn. auto.
      * replace (i_now i - t >? 1000) with true by lia. cbn. auto.
    + change (1 =? 0) with false. change (1 =? 1) with true. cbv iota. destruct (Z.leb_spec (i_now i) (t + 1000)).
      * replace (i_now i - t >? 1000) with false by lia. cbn. auto.
      * replace (i_now i - t >? 1000) with true by lia. cbn. auto.
  - rewrite F. destruct (if f_msg (i_flags i) then _ else _) as [r rb].
    unfold blink_step, phase in *. destruct on; destruct P as [P1 P2]; rewrite P1, P2, (D t T).
    + change (0 =? 0) with true. cbv iota. destruct (Z.leb_spec (i_now i) (t + 250)).
      * replace (i_now i - t >? 250) with false by lia. cbn. auto.
      * replace (i_now i - t >? 250) with true by lia. cbn. auto.
    + change (1 =? 0) with false. change (1 =? 1) with true. cbv iota. destruct (Z.leb_spec (i_now i) (t + 250)).
      * replace (i_now i - t >? 250) with false by lia. cbn. auto.
      * replace (i_now i - t >? 250) with true by lia. cbn. auto.
Qed.

Theorem C10_blinks : forall (yellow on : bool) t l s i,
  s_present s = true /\ s_manual s = 0 -> s_builtin s = 0 ->
  let p := if yellow then 1000 else 250 in
  let lamp := fun s => if yellow then s_yellow s else s_red s in
  phase (if yellow then s_yb s else s_rb s) on t ->
  (forall j, In j (l ++ [i]) -> to_blink yellow s j) ->
  (forall j, In j l -> t <= i_now j <= t + p) -> t + p < i_now i ->
  (forall k, (0 < k <= S (length l))%nat -> lamp (siren_run s (firstn k (l ++ [i]))) = on) /\
  let s' := siren_run s (l ++ [i]) in
  phase (if yellow then s_yb s' else s_rb s') (negb on) (i_now i).
Proof.
  intros yellow on t l. induction l as [|j l IH]; intros s i A B p lamp P F T1 T2.
  - destruct (blink_once yellow on t s i A B (F i (or_introl eq_refl)) ltac:(unfold p in T2; destruct yellow; lia) P)
      as (_ & _ & _ & L & Q).
    fold p in Q. rewrite (proj2 (Z.leb_gt (i_now i) (t + p)) T2) in Q. split; [|exact Q].
    intros k K. cbn [length] in K. assert (k = 1%nat) as -> by lia. exact L.
  - destruct (blink_once yellow on t s j A B (F j (or_introl eq_refl)) (proj1 (T1 j (or_introl eq_refl))) P)
      as (A' & B' & S' & L & Q).
    fold p in Q. rewrite (proj2 (Z.leb_le (i_now j) (t + p)) (proj2 (T1 j (or_introl eq_refl)))) in Q.
    destruct (IH (siren_eval s j) i A' B' Q) as [X Y].
    + intros k K. destruct (F k (or_intror K)) as (F1 & F2 & F3). unfold to_blink. rewrite S'. auto.
    + intros k K. apply T1. right. exact K.
    + exact T2.
    + split; [|exact Y]. intros k K. destruct k as [|[|k]]; [lia|exact L|].
      exact (X (S k) ltac:(cbn [length] in K; lia)).
Qed.
Print Assumptions C10_blinks.

(** In manual mode the lamps and the siren are left alone. *)
Theorem C10_manual_mode : forall s i, s_manual s <> 0 ->
  s_red (siren_eval s i) = s_red s /\ s_yellow (siren_eval s i) = s_yellow s /\
  s_green (siren_eval s i) = s_green s /\ s_srn (siren_eval s i) = s_srn s.
Proof.
  intros s i Hm. unfold siren_eval. destruct (s_present s); cbn [negb]; auto.
  replace (s_manual s =? 0) with false by lia. cbn [negb]. rewrite orb_true_r. cbn. auto.
Qed.
Print Assumptions C10_manual_mode.

Definition ex_siren : siren :=
  {| s_present := true; s_st_time := 0; s_manual := 0; s_builtin := 0; s_crit_n := 0;
     s_red := false; s_yellow := false; s_green := false; s_srn := false;
     s_rb := {| b_step := 0; b_blink := 0; b_wait := 0 |};
     s_yb := {| b_step := 0; b_blink := 0; b_wait := 0 |} |}.
Definition ex_in (t : Z) (c : crit_mgr) (f : flags) : siren_in :=
  {| i_now := t; i_delta := fun t1 => t - t1; i_crit := c; i_flags := f; i_important := true |}.

(** A critical error raised during the first 5 s never sounds the siren; one
    raised later does, until it is cleared. *)
Example C10_example :
  let c := crit_run [CRaise 1 1 1] in
  let c2 := crit_run [CRaise 1 1 1; CRaise 1 1 2] in
  let c3 := crit_run [CRaise 1 1 1; CRaise 1 1 2; CClear 1 1 1; CClear 1 1 2] in
  s_srn (siren_run ex_siren [ex_in 4000 c no_flags; ex_in 6000 c no_flags]) = false /\
  s_srn (siren_run ex_siren [ex_in 4000 c no_flags; ex_in 6000 c2 no_flags; ex_in 7000 c2 no_flags]) = true /\
  s_srn (siren_run ex_siren [ex_in 4000 c no_flags; ex_in 6000 c2 no_flags; ex_in 7000 c3 no_flags]) = false.
Proof. vm_compute. auto. Qed.

(** A message at 6 s: the yellow lamp is on until 7 s, then off, then on again. *)
Example C10_blinks_example :
  let f := {| f_any := false; f_noack := false; f_new := false; f_msg := true |} in
  let c := crit_run [] in
  let s := siren_run ex_siren [ex_in 6000 c f] in
  phase (s_yb s) false 6000 /\
  map (fun ts => s_yellow (siren_run s (map (fun t => ex_in t c f) ts)))
    [[6500]; [6500; 7000]; [6500; 7000; 7001]; [6500; 7000; 7001; 8001]; [6500; 7000; 7001; 8002; 8003]]
  = [false; false; false; true; false].
Proof. vm_compute. auto. Qed.

(** * C47 *)

(** Two evaluations with fewer than 65535 operations in between and the same
    change counter show the same list to the server. *)
Theorem C47_unchanged_counter_means_unchanged_view : forall m f0 ops f1,
  0 <= em_id m < 65536 -> Z.of_nat (length ops) < 65535 ->
  let m0 := em_run m [OEval f0] in
  let m1 := em_run m0 (ops ++ [OEval f1]) in
  em_id m1 = em_id m0 -> view m1 = view m0.
Proof. exact counter_detects. Qed.
Print Assumptions C47_unchanged_counter_means_unchanged_view.

Example C47_example :
  let m := ex_mgr [ex_obj 1 1; ex_dev 0 1 0] in
  let m0 := em_run m [OMsg 0 1 77; OEval (fun _ => true)] in
  (* a message posted and another deleted: same number of messages, counter moves *)
  let m1 := em_run m0 [OMsg 0 1 78; OCmd 100 101 1 1; OEval (fun _ => true)] in
  em_id m0 = 1 /\ em_id m1 = 3 /\ view m0 <> view m1.
Proof. vm_compute. repeat split; auto. discriminate. Qed.

(** * C48 *)

(** The messages of an object are a queue of at most ten, numbered by a global
    counter and removed only by their number. *)
Theorem C48_message_queue : forall ops m i o ty n,
  NoDup (map m_n (all_msgs (em_entries m))) /\
  (forall x, In x (all_msgs (em_entries m)) -> m_n x <= em_counter m) ->
  nth_error (em_entries m) i = Some (EObj o) ->
  first_at (em_entries m) i ty n ->
  exists o', nth_error (em_entries (em_run m ops)) i = Some (EObj o') /\
    oe_msgs o' = fold_left q_step
      (q_events (is_obj (em_entries m)) i ty n (em_counter m) ops) (oe_msgs o).
Proof. exact queue_refines. Qed.
Print Assumptions C48_message_queue.

(** No two messages of the whole system ever carry the same number. *)
Theorem C48_numbers_unique : forall ops es,
  (forall i o, nth_error es i = Some (EObj o) -> oe_msgs o = []) ->
  NoDup (map m_n (all_msgs (em_entries (em_run (ex_mgr es) ops)))).
Proof.
  intros ops es H.
  assert (E : all_msgs es = []).
  { induction es as [|e es IH]; auto. cbn [all_msgs flat_map].
    fold (all_msgs es). rewrite IH.
    - destruct e as [|o]; auto. cbn. rewrite (H 0%nat o eq_refl). reflexivity.
    - intros i o Hi. apply (H (S i) o Hi). }
  apply (fresh_run ops (ex_mgr es)). split; cbn [ex_mgr em_entries]; rewrite E.
  - constructor.
  - intros x [].
Qed.
Print Assumptions C48_numbers_unique.

Example C48_example :
  let m := ex_mgr [ex_obj 1 1; ex_obj 1 2] in
  first_at (em_entries m) 1 101 2 /\
  map m_n (all_msgs (em_entries (em_run m [OMsg 1 0 5; OMsg 0 0 6; OMsg 1 0 7; OCmd 100 101 2 1])))
  = [2; 3].
Proof.
  cbn zeta. split; [|vm_compute; reflexivity]. split.
  - eexists. repeat split; reflexivity.
  - intros [|j] e Hj Hn; [|lia]. injection Hn as <-. cbn. lia.
Qed.
