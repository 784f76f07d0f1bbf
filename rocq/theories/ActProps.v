(** Properties C74, C75: what the actions of a step do to devices. *)
From Coq Require Import ZArith List Bool Lia QArith.
From Verif Require Import Base FTextModel FloatModel FloatProofs TimeModel OpModel OpSpec OpProofs OpProofs2 OpProofs3 OpProps ActModel ActSpec ActProofs ActProofs2 ActProofs3 ActProofs4 ActProofs5.
Import ListNotations.
Open Scope Z_scope.

(** Groups with one list. *)
Definition one (l : list Z) : groups := [[l]].
Definition no_acts : acts :=
  {| a_on := []; a_rev := []; a_off := []; a_upper := []; a_lower := []; a_dido := []; a_inv := []; a_aiao := [];
     a_wash := []; a_wash_par := []; a_enable := []; a_don := []; a_don_par := []; a_doff := []; a_doff_par := []; a_mode := false |}.
Definition calm (t : Z) : inputs :=
  {| i_now := t; i_active := fun x => x =? 50; i_value := fun x => if x =? 60 then 1092616192 else 0; i_failed := fun _ => false;
     i_held := fun _ => false; i_par := fun p => if p =? 1 then 1148846080 else if p =? 2 then 2143289344 else 0;
     i_set_time := 10000; i_period := 60; i_upper := 2000; i_lower := 1000 |}.
Definition off_devices : Z -> dstate := fun _ => {| d_state := 0; d_value := 0; d_seat := false |}.
Definition off_world : world := {| devs := off_devices; dyns := fun _ _ => new_dyn 0 |}.

(** * C74: one evaluation of a step *)

Theorem C74_state : forall w kind a i D y d,
  0 <= y_phase y <= 2 -> 0 <= y_cycle y <= i_now i -> 0 <= y_don y <= i_now i -> 0 <= y_doff y <= i_now i ->
  i_now i - y_don y < 2 ^ 24 -> i_now i - y_doff y < 2 ^ 24 -> i_held i d = false ->
  d_state (fst (step_evaluate w kind a i D y) d) = heard (d_state (D d)) (state_order kind a i y (d_seat (D d)) d).
Proof. intros. apply evaluate_state; try assumption. unfold phase_ok. lia. Qed.
Print Assumptions C74_state.

Theorem C74_value : forall w kind a i D y d,
  0 <= y_phase y <= 2 -> 0 <= y_cycle y <= i_now i ->
  (forall x, 0 <= i_value i x < 2 ^ 32) -> (forall x, 0 <= i_par i x < 2 ^ 32) -> i_held i d = false ->
  d_value (fst (step_evaluate w kind a i D y) d) = heard (d_value (D d)) (value_order kind a i y (d_seat (D d)) d).
Proof. intros. apply evaluate_value; try assumption; [unfold phase_ok; lia|split; assumption]. Qed.
Print Assumptions C74_value.

Theorem C74_seat : forall w kind a i D y d, 0 <= y_phase y <= 2 -> 0 <= y_cycle y <= i_now i ->
  d_seat (fst (step_evaluate w kind a i D y) d) = flag_after kind a i y (d_seat (D d)) d.
Proof. intros. apply evaluate_seat; [unfold phase_ok; lia|assumption]. Qed.
Print Assumptions C74_seat.

(** A device in manual mode hears nothing. *)
Theorem C74_manual : forall w kind a i D y d, i_held i d = true ->
  d_state (fst (step_evaluate w kind a i D y) d) = d_state (D d) /\ d_value (fst (step_evaluate w kind a i D y) d) = d_value (D d).
Proof. intros. apply evaluate_held. assumption. Qed.
Print Assumptions C74_manual.

(** Two consequences. A device listed only for on and off is off; one that no
    list of the step mentions keeps its state and value. *)
Theorem C74_untouched : forall w kind a i D y d,
  0 <= y_phase y <= 2 -> 0 <= y_cycle y <= i_now i -> 0 <= y_don y <= i_now i -> 0 <= y_doff y <= i_now i ->
  i_now i - y_don y < 2 ^ 24 -> i_now i - y_doff y < 2 ^ 24 ->
  (forall x, 0 <= i_value i x < 2 ^ 32) -> (forall x, 0 <= i_par i x < 2 ^ 32) ->
  ~ named a d -> ~ seated a d -> ~ In d (col 0 (row (a_off a))) ->
  let x := fst (step_evaluate w kind a i D y) d in d_state x = d_state (D d) /\ d_value x = d_value (D d).
Proof.
  intros w kind a i D y d P C1 C2 C3 B2 B3 V1 V2 N S O x. unfold x. clear x.
  destruct (i_held i d) eqn:H; [apply C74_manual; exact H|].
  assert (PO : phase_ok y) by (unfold phase_ok; lia).
  assert (E : forall l, ~ In d l -> has d l = false).
  { intros l F. destruct (has d l) eqn:G; [|reflexivity]. unfold has in G. apply existsb_exists in G as (z & I & Q). apply Z.eqb_eq in Q. subst. contradiction. }
  assert (SG : forall l, In l (a_upper a ++ a_lower a) -> has d l = false).
  { intros l I. apply E. intros J. apply S. exists l. auto. }
  assert (G : has d (seat_group a y) = false).
  { unfold seat_group, col. destruct (le_lt_dec (length (if y_phase y =? 1 then a_upper a else a_lower a)) (Z.to_nat (y_group y))) as [L|L].
    - rewrite nth_overflow by exact L. reflexivity.
    - apply SG, in_app_iff. pose proof (nth_In _ [] L) as I. destruct (y_phase y =? 1); [left|right]; exact I. }
  assert (TOLD : forall sig l, (In l (row (a_dido a)) \/ In l (row (a_inv a)) \/ In l (row (a_aiao a))) -> told d sig l = None).
  { intros sig l I. unfold told. destruct l as [|z r]; [reflexivity|]. rewrite E; [reflexivity|].
    intros J. apply N. right. right. left. exists (z :: r). auto. }
  assert (LN : forall (A : Type) (f : A -> option Z) l, (forall z, In z l -> f z = None) -> latest f l = None).
  { intros A f l. induction l as [|z r IH]; intros F; [reflexivity|]. cbn [latest]. rewrite (F z) by (left; reflexivity). rewrite IH; [reflexivity|]. intros; apply F; right; assumption. }
  assert (LA : forall (A : Type) (f : nat -> A -> option Z) l n, (forall z n, In z l -> f n z = None) -> latest_at f n l = None).
  { intros A f l. induction l as [|z r IH]; intros n F; [reflexivity|]. cbn [latest_at]. rewrite (F z) by (left; reflexivity). rewrite IH; [reflexivity|]. intros; apply F; right; assumption. }
  assert (S1 : s_on a d = None).
  { unfold s_on. rewrite E; [reflexivity|]. intros J. apply N. left. exact J. }
  assert (S2 : s_reverse a d = None).
  { unfold s_reverse. rewrite E; [reflexivity|]. intros J. apply N. right. left. exact J. }
  assert (S3 : s_off kind a (d_seat (D d)) d = None) by (unfold s_off; rewrite E; auto).
  assert (S4 : s_seat kind a i y (d_seat (D d)) d = None).
  { unfold s_seat, s_wait, s_open, s_close. rewrite G. replace (existsb (has d) (a_upper a ++ a_lower a)) with false.
    - destruct (y_phase y =? 0); [reflexivity|]. destruct (seat_open_now i y); reflexivity.
    - symmetry. apply not_true_is_false. intros F. apply existsb_exists in F as (l & I & J). rewrite (SG l I) in J. discriminate. }
  assert (W : forall g, In g (a_wash a) -> has d (col 1 g) = false /\ has d (col 2 g) = false /\ has d (col 3 g) = false).
  { intros g I. repeat split; apply E; intros J; apply N; do 3 right; left; exists g; auto. }
  split.
  - rewrite C74_state by assumption. unfold state_order. cbn [fold_left]. rewrite S1, S2, S3, S4.
    unfold s_dido, s_inverted. rewrite !LN by (intros; apply TOLD; auto).
    rewrite (LN _ _ (a_wash a)). 2: { intros g I. destruct (W g I) as (W1 & W2 & W3). unfold s_wash. rewrite W1, W2, W3, andb_false_r. reflexivity. }
    rewrite !LA. { reflexivity. }
    + intros l n I. unfold s_delay_off. rewrite E; [reflexivity|]. intros J. apply N. do 4 right. exists l. auto.
    + intros l n I. unfold s_delay_on. rewrite E; [reflexivity|]. intros J. apply N. do 4 right. exists l. auto.
  - rewrite C74_value by assumption. unfold value_order. cbn [fold_left]. rewrite S3, S4. cbn [zeroed over].
    unfold v_dido, v_aiao. rewrite !LN by (intros; rewrite TOLD by auto; reflexivity).
    rewrite LA. { reflexivity. }
    intros g n I. destruct (W g I) as (W1 & W2 & W3). unfold v_wash. rewrite W1, W2, W3, andb_false_r. cbn.
    destruct (wash_setting a i n g); reflexivity.
Qed.
Print Assumptions C74_untouched.

(** Not so: a delay whose parameter is not a number has not passed at the start. *)
Theorem C74_delay_refuted : exists w kind a i y d,
  i_par i (nth 0 (a_don_par a) 0) = 2143289344 /\ y_don y = i_now i /\
  d_state (fst (step_evaluate w kind a i off_devices y) d) = 1.
Proof.
  exists 32, (fun _ => 2), {| a_on := []; a_rev := []; a_off := []; a_upper := []; a_lower := []; a_dido := []; a_inv := []; a_aiao := [];
     a_wash := []; a_wash_par := []; a_enable := []; a_don := one [7]; a_don_par := [2]; a_doff := []; a_doff_par := []; a_mode := false |},
    (calm 1000), (new_dyn 1000), 7. vm_compute. auto.
Qed.
Print Assumptions C74_delay_refuted.

(** Not so: a device switched off by the end of its delay has no value left. *)
Theorem C74_value_refuted : exists w kind a i D y d,
  d_value (D d) <> 0 /\
  let x := fst (step_evaluate w kind a i D y) d in d_state x = 0 /\ d_value x = d_value (D d).
Proof.
  exists 32, (fun _ => 2), {| a_on := []; a_rev := []; a_off := []; a_upper := []; a_lower := []; a_dido := []; a_inv := []; a_aiao := [];
     a_wash := []; a_wash_par := []; a_enable := []; a_don := []; a_don_par := []; a_doff := one [7]; a_doff_par := [1]; a_mode := false |},
    (calm 9000), (fun _ => {| d_state := 1; d_value := 1092616192; d_seat := false |}), (new_dyn 1000), 7.
  vm_compute. split; [discriminate|auto].
Qed.
Print Assumptions C74_value_refuted.

(** Device 1 is listed for on and off; 2 for reverse; 3 follows signal 50, 4 opposes
    it; motor 5 is washed with the setting of device 60; 6 waits for its delay. *)
Example C74_example :
  let a := {| a_on := one [1; 2; 8]; a_rev := one [2]; a_off := one [1]; a_upper := []; a_lower := []; a_dido := one [50; 3]; a_inv := one [50; 4];
              a_aiao := []; a_wash := [[[50]; []; [5]; []; [60]]]; a_wash_par := []; a_enable := []; a_don := one [6]; a_don_par := [1];
              a_doff := []; a_doff_par := []; a_mode := false |} in
  let D t := fst (step_evaluate 32 (fun _ => 2) a (calm t) off_devices (new_dyn 1000)) in
  map (fun d => d_state (D 2000 d)) [1; 2; 3; 4; 5; 6; 8] = [0; 2; 1; 0; 1; 0; 1] /\ d_state (D 2001 6) = 1 /\ d_value (D 2000 5) = 1092616192.
Proof. vm_compute. auto. Qed.

(** * C75: the end of a step and of an operation *)

Lemma listed_ended a d y : listed a d -> In d (ended a y).
Proof.
  intros [H|(g & l & I & J & K)]; [apply named_ended; exact H|]. unfold ended. rewrite !in_app_iff in *.
  assert (C : forall G, In g G -> In d (concat (concat G))).
  { intros G X. apply in_concat. exists l. split; [|exact K]. apply in_concat. exists g. auto. }
  destruct I as [I|[I|[I|[I|[I|I]]]]]; apply C in I; auto 12.
Qed.
Lemma ended_listed a d y : In d (ended a y) -> listed a d \/ y_phase y <> 0 /\ In d (seat_group a y).
Proof.
  unfold ended. rewrite !in_app_iff.
  assert (C : forall G, In d (concat (concat G)) -> exists g l, In g G /\ In l g /\ In d l).
  { intros G X. apply in_concat in X as (l & X & K). apply in_concat in X as (g & X & J). eauto. }
  assert (T : forall G, In d (flat_map (fun l => tl l) G) -> exists l, In l G /\ In d (tl l)).
  { intros G X. apply in_flat_map in X. exact X. }
  intros [H|[H|[H|[H|[H|[H|[H|[H|[H|[H|H]]]]]]]]]].
  - left. right. apply C in H as (g & l & I & J). exists g, l. rewrite !in_app_iff. auto.
  - left. right. apply C in H as (g & l & I & J). exists g, l. rewrite !in_app_iff. auto.
  - left. right. apply C in H as (g & l & I & J). exists g, l. rewrite !in_app_iff. auto.
  - destruct (Z.eqb_spec (y_phase y) 0); [destruct H|auto].
  - left. left. right. right. left. apply T in H as (l & I & J). exists l. auto.
  - left. left. right. right. left. apply T in H as (l & I & J). exists l. auto.
  - left. left. right. right. left. apply T in H as (l & I & J). exists l. auto.
  - left. left. do 3 right. left. apply in_flat_map in H as (g & I & J). rewrite !in_app_iff in J. exists g. auto.
  - left. right. apply C in H as (g & l & I & J). exists g, l. rewrite !in_app_iff. auto 8.
  - left. right. apply C in H as (g & l & I & J). exists g, l. rewrite !in_app_iff. auto 9.
  - left. right. apply C in H as (g & l & I & J). exists g, l. rewrite !in_app_iff. auto 10.
Qed.

(** The end of a step switches off exactly the devices its actions list and the
    seats that are open. *)
Theorem C75_end : forall kind a i D y d, 0 <= y_phase y <= 2 -> i_held i d = false ->
  let x := step_finalize kind a i D y d in
  (listed a d \/ y_phase y <> 0 /\ In d (seat_group a y) -> d_state x = 0 /\ d_value x = 0) /\
  (~ (listed a d \/ y_phase y <> 0 /\ In d (seat_group a y)) -> d_state x = d_state (D d) /\ d_value x = d_value (D d)) /\
  (kind d = VALVE -> y_phase y <> 0 -> In d (seat_group a y) -> d_seat x = false).
Proof.
  intros kind a i D y d P H x. assert (PO : phase_ok y) by (unfold phase_ok; lia). unfold x. split; [|split].
  - intros L. apply finalize_off; auto. destruct L as [L|L]; [apply listed_ended; exact L|apply open_ended; exact L].
  - intros L. apply finalize_same; auto. intros I. apply L. eapply ended_listed. exact I.
  - intros K N I. rewrite finalize_flag by exact PO. rewrite K. replace (y_phase y =? 0) with false by lia.
    replace (has d (seat_group a y)) with true. { cbn. apply andb_false_r. }
    symmetry. apply existsb_exists. exists d. split; [exact I|apply Z.eqb_refl].
Qed.
Print Assumptions C75_end.

Lemma resting_rest d W : resting d W -> at_rest d W.
Proof.
  intros (R1 & R2 & R3 & R4). repeat split; auto; destruct (R4 s k) as (t & ->); unfold phase_ok; cbn; auto.
Qed.

(** A device that is on is listed by a step that is engaged. *)
Theorem C75_engaged : forall w kind A d t W, resting d W ->
  (forall x, In x t -> i_held (snd x) d = false) ->
  (no_restart (map fst t) \/ forall s k, ~ seated (A s k) d) ->
  let x := devs (play w kind A t W) d in
  (d_state x <> 0 \/ d_value x <> 0 -> exists s k, engaged (map fst t) s k = true /\ (named (A s k) d \/ seated (A s k) d)) /\
  (d_seat x = true -> kind d = VALVE /\ exists s k, engaged (map fst t) s k = true /\ seated (A s k) d).
Proof.
  intros w kind A d t W R H N x. pose proof (inv_play w kind A d t W (resting_rest d W R) H N) as (I1 & I2 & I3 & I4).
  assert (B : (exists s k, blamed A d (map fst t) (play w kind A t W) s k) ->
              exists s k, engaged (map fst t) s k = true /\ (named (A s k) d \/ seated (A s k) d)).
  { intros (s & k & E & [L|L]); exists s, k; split; auto. right. eapply open_seated; [apply I1|exact L]. }
  split.
  - intros [L|L]; apply B; auto.
  - intros F. destruct (I4 F) as (K & s & k & E & O). split; [exact K|]. exists s, k. split; [exact E|].
    eapply open_seated; [apply I1|exact O].
Qed.
Print Assumptions C75_engaged.

(** After an operation has been switched off, every device that its steps have used
    is off, unless a step of the idle state lists it. *)
Theorem C75_operation : forall w kind A d h n cf e c, tame h -> empty (cf UNPAUSING) = true ->
  let o := run_calls h (new_oper n cf) in
  cur o <> IDLE -> c = CSwitchOff \/ c = CFinalize ->
  forall t W, map fst t = otr (do_call e c o) -> resting d W ->
  (forall x, In x t -> i_held (snd x) d = false) ->
  (no_restart (map fst t) \/ forall s k, ~ seated (A s k) d) ->
  (forall k, ~ named (A IDLE k) d /\ ~ seated (A IDLE k) d) ->
  devs (play w kind A t W) d = {| d_state := 0; d_value := 0; d_seat := false |}.
Proof.
  intros w kind A d h n cf e c T M o N C t W E R H Q I.
  destruct (C75_engaged w kind A d t W R H Q) as [E1 E2].
  assert (NO : forall s k, engaged (map fst t) s k = true -> s = IDLE).
  { intros s k G. destruct (Z.eq_dec s IDLE) as [|F]; [assumption|]. exfalso. rewrite E in G.
    pose proof (C12_all_off h n cf e c T M N C s k F) as Z0. fold o in Z0. congruence. }
  destruct (devs (play w kind A t W) d) as [st v f]. cbn [d_state d_value d_seat] in *.
  assert (st = 0 /\ v = 0) as [-> ->].
  { destruct (Z.eq_dec st 0) as [X|X], (Z.eq_dec v 0) as [Y|Y]; auto;
      (destruct E1 as (s & k & G & L); [auto|]; rewrite (NO s k G) in L; destruct (I k); tauto). }
  destruct f; [|reflexivity]. destruct (E2 eq_refl) as (_ & s & k & G & L). rewrite (NO s k G) in L. destruct (I k). tauto.
Qed.
Print Assumptions C75_operation.

(** Inputs for the events of a history, oldest first. *)
Definition with_times (tr : list event) (ts : list Z) : list (event * inputs) := rev (combine (rev tr) (map calm ts)).

(** Not so: a device listed by the step of the whole operation stays on while steps
    change.  The end of a step that lists it too switches it off until the next
    evaluation. *)
Theorem C75_gap_refuted : exists w kind A d h t1 t2,
  let o h := run_calls h (demo (plain 3 false) false false) in
  let W t := devs (play w kind A t off_world) d in
  map fst t1 = otr (o h) /\ engaged (otr (o h)) RUN 0 = true /\ In d (col 0 (row (a_on (A RUN 0)))) /\ d_state (W t1) = 1 /\
  map fst t2 = otr (o (h ++ at_times [(2, CToStep 2)])) /\ engaged (map fst t2) RUN 0 = true /\ d_state (W t2) = 0.
Proof.
  exists 32, (fun _ => 2), (fun s k => if (s =? RUN) && (k <=? 1)
    then {| a_on := one [7]; a_rev := []; a_off := []; a_upper := []; a_lower := []; a_dido := []; a_inv := []; a_aiao := [];
     a_wash := []; a_wash_par := []; a_enable := []; a_don := []; a_don_par := []; a_doff := []; a_doff_par := []; a_mode := false |} else no_acts),
    7, (at_times [(1, CStart 0); (1, CEvaluate)]),
    (with_times (otr (run_calls (at_times [(1, CStart 0); (1, CEvaluate)]) (demo (plain 3 false) false false))) (repeat 1 20)),
    (with_times (otr (run_calls (at_times [(1, CStart 0); (1, CEvaluate); (2, CToStep 2)]) (demo (plain 3 false) false false))) (repeat 1 20)).
  vm_compute. auto 12.
Qed.
Print Assumptions C75_gap_refuted.

(** Not so without the condition on restarts: a step engaged as an additional one
    becomes the main one while a seat is open; the end of the operation leaves the
    seat open. *)
Theorem C75_restart_refuted : exists w kind A d h t,
  let o := run_calls h (demo (plain 3 false) false false) in
  tame h /\ cur o = IDLE /\ map fst t = otr o /\ (forall s k, engaged (otr o) s k = true -> s = IDLE) /\
  (forall k, ~ named (A IDLE k) d /\ ~ seated (A IDLE k) d) /\
  devs (play w kind A t off_world) d = {| d_state := 2; d_value := 0; d_seat := true |}.
Proof.
  set (h := at_times [(1, CStart 0); (2, COnExtra 2); (3, CEvaluate); (4, CEvaluate); (5, CToStep 2); (6, CEvaluate); (7, CSwitchOff)]).
  exists 32, (fun _ => 0), (fun s k => if (s =? RUN) && (k =? 2)
    then {| a_on := []; a_rev := []; a_off := []; a_upper := [[7]]; a_lower := []; a_dido := []; a_inv := []; a_aiao := [];
     a_wash := []; a_wash_par := []; a_enable := []; a_don := []; a_don_par := []; a_doff := []; a_doff_par := []; a_mode := false |} else no_acts),
    7, h, (with_times (otr (run_calls h (demo (plain 3 false) false false)))
             (repeat 1000 7 ++ repeat 6000 3 ++ repeat 6500 3 ++ repeat 7000 2 ++ repeat 8000 3 ++ repeat 9000 10)).
  assert (T : tame h).
  { intros e c H. cbn in H. repeat (destruct H as [H|H]; [inversion H; reflexivity|]). destruct H. }
  assert (R : cur (run_calls h (demo (plain 3 false) false false)) = IDLE) by (vm_compute; reflexivity).
  cbv zeta. split; [exact T|]. split; [exact R|]. split; [vm_compute; reflexivity|]. split; [|split; [|vm_compute; reflexivity]].
  - intros s k G. destruct (C12_only_current h 1 _ s k T G) as [F|[_ F]].
    + rewrite F. exact R.
    + vm_compute in F. discriminate.
  - intros k. unfold IDLE. cbn [Z.eqb andb RUN]. split.
    + unfold named, no_acts. cbn. intros [X|[X|[(l & X & _)|[(l & X & _)|(l & X & _)]]]]; tauto.
    + intros (l & X & _). destruct X.
Qed.
Print Assumptions C75_restart_refuted.

(** Start, three evaluations, end: device 7 is on while step 1 runs. *)
Example C75_example :
  let A s k := if (s =? RUN) && (k =? 1)
    then {| a_on := one [7]; a_rev := []; a_off := []; a_upper := []; a_lower := []; a_dido := []; a_inv := []; a_aiao := [];
     a_wash := []; a_wash_par := []; a_enable := []; a_don := []; a_don_par := []; a_doff := []; a_doff_par := []; a_mode := false |} else no_acts in
  let W h := d_state (devs (play 32 (fun _ => 2) A (with_times (otr (run_calls (at_times h) (demo (plain 3 false) false false))) (repeat 1 30)) off_world) 7) in
  [W []; W [(1, CStart 0)]; W [(1, CStart 0); (2, CEvaluate)]; W [(1, CStart 0); (2, CToStep 2)]; W [(1, CStart 0); (2, CSwitchOff)]] = [0; 1; 1; 0; 0].
Proof. vm_compute. reflexivity. Qed.
