(** Properties C76-C80: washing of seats, jumps, names of devices, places of devices,
    checks before a start. *)
From Coq Require Import ZArith List Bool Lia.
From Verif Require Import Base FTextModel FloatModel TimeModel OpModel OpSpec ActModel ActSpec ActProofs ActProofs2 ActProofs3 ActProofs4 ActProofs5 ActProofs6 ActProofs7 ActProps.
Import ListNotations.
Open Scope Z_scope.

Definition seats (up low : list (list Z)) : acts :=
  {| a_on := []; a_rev := []; a_off := []; a_upper := up; a_lower := low; a_dido := []; a_inv := []; a_aiao := [];
     a_wash := []; a_wash_par := []; a_enable := []; a_don := []; a_don_par := []; a_doff := []; a_doff_par := []; a_mode := false |}.

(** * C76: washing of seats *)

Lemma seats_some a : round_groups a <> [] -> no_seats a = false.
Proof. unfold round_groups, no_seats. destruct (a_upper a), (a_lower a); try reflexivity. cbn. congruence. Qed.
Lemma init_cycle w a i y : round_groups a <> [] -> 0 <= i_now i < 2 ^ 32 -> y_cycle (step_init w a i y) = i_now i.
Proof. intros R T. unfold step_init, seat_init. rewrite seats_some by exact R. cbn. unfold u32. apply Z.mod_small. exact T. Qed.

(** After the start of a step and any number of evaluations: the group that is open is
    the one whose turn it is by the number of openings finished so far, in the order
    upper groups, lower groups, again; and no other valve has an open seat. *)
Theorem C76_order : forall w kind a i l D y, round_groups a <> [] -> 0 <= i_now i -> i_now i < 2 ^ 32 -> forward (i_now i) l ->
  0 <= y_phase y <= 2 -> 1 <= y_next y <= 2 -> (forall d, d_seat (D d) = false) ->
  let r := washing w kind a l D (step_init w a i y) 0 in
  let y' := snd (fst r) in let turn := (snd r mod length (round_groups a))%nat in
  (y_phase y' <> 0 -> seat_group a y' <> [] ->
     seat_group a y' = nth turn (round_groups a) [] /\ (y_phase y' = 1 <-> (turn < length (a_upper a))%nat)) /\
  (forall d, d_seat (fst (fst r) d) = true -> kind d = VALVE /\ y_phase y' <> 0 /\ In d (nth turn (round_groups a) [])).
Proof.
  intros w kind a i l D y R T0 T1 F P Q Z0 r y' turn. pose proof (seats_some a R) as N.
  assert (L : length (round_groups a) = (length (a_upper a) + length (a_lower a))%nat) by (unfold round_groups; apply app_length).
  assert (PL : at_place a y' (snd r)).
  { apply place_run; [exact N| | |apply place_init; exact N]; rewrite init_cycle by (auto; lia); [lia|exact F]. }
  assert (G : y_phase y' <> 0 -> seat_group a y' <> [] ->
     seat_group a y' = nth turn (round_groups a) [] /\ (y_phase y' = 1 <-> (turn < length (a_upper a))%nat)).
  { intros E0 NE. destruct (place_group w kind a y' (snd r) N E0 PL NE) as (_ & G1 & G2). unfold turn. rewrite L. auto. }
  split; [exact G|]. intros d S.
  assert (K : dyn_ok (step_init w a i y)).
  { unfold step_init, seat_init. rewrite N. split; unfold phase_ok; cbn; auto. }
  destruct (flags_run w kind a l D (step_init w a i y) 0 d K) as [V [O I]].
  - intros C. rewrite Z0 in C. discriminate.
  - exact S.
  - split; [exact V|]. split; [exact O|]. destruct (G O) as [<- _]; [|exact I]. intros C. fold r y' in I. rewrite C in I. destruct I.
Qed.
Print Assumptions C76_order.

(** When an opening starts and ends: a pause lasts more than the waiting time, an
    opening at least the time set for the kind of seats; the waiting time is the one
    computed at the start. *)
Theorem C76_times : forall w kind a i D y, round_groups a <> [] -> 0 <= y_phase y <= 2 -> 1 <= y_next y <= 2 ->
  0 <= y_cycle y <= i_now i -> i_now i < 2 ^ 32 ->
  let y' := snd (step_evaluate w kind a i D y) in
  (y_phase y = 0 -> (y_phase y' <> 0 <-> y_wait y < i_now i - y_cycle y)) /\
  (y_phase y <> 0 -> (y_phase y' = 0 <-> closes a i y = true)) /\
  (closes a i y = true -> (if y_phase y =? 1 then i_upper i else i_lower i) <= i_now i - y_cycle y) /\
  y_cycle y' = (if (y_phase y =? 0) && (y_wait y <? i_now i - y_cycle y) || closes a i y then i_now i else y_cycle y) /\
  y_wait y' = y_wait y.
Proof.
  intros w kind a i D y R P Q C T y'. pose proof (seats_some a R) as N.
  assert (K : dyn_ok y) by (split; unfold phase_ok; lia).
  destruct (turn_step w kind a D i y N K C T) as (T1 & T2 & T3 & T4). fold y' in T1, T2, T3, T4.
  assert (C0 : y_phase y = 0 -> closes a i y = false) by (intros E; unfold closes; rewrite E; reflexivity).
  split; [|split; [|split; [|split; [|exact T4]]]].
  - intros E. destruct (T1 E) as [A B]. destruct (Z.lt_ge_cases (y_wait y) (i_now i - y_cycle y)) as [L|L].
    + destruct (A L) as [-> _]. split; [auto|lia].
    + destruct (B L) as [-> _]. split; [congruence|lia].
  - intros E. destruct (closes a i y) eqn:X.
    + destruct (T2 eq_refl) as [-> _]. tauto.
    + destruct (T3 E eq_refl) as [A _]. split; [contradiction|discriminate].
  - unfold closes, seat_open_now. intros X. destruct (Z.eqb_spec (y_phase y) 0); [discriminate|]. cbn [negb andb] in X.
    destruct (Z.ltb_spec (i_now i - y_cycle y) (if y_phase y =? 1 then i_upper i else i_lower i)); [discriminate|assumption].
  - destruct (Z.eqb_spec (y_phase y) 0) as [E|E]; cbn [andb].
    + rewrite (C0 E), orb_false_r. destruct (T1 E) as [A B]. destruct (Z.ltb_spec (y_wait y) (i_now i - y_cycle y)) as [L|L].
      * apply A. exact L.
      * apply B. lia.
    + cbn [orb]. destruct (closes a i y) eqn:X; [apply T2; reflexivity|apply T3; auto].
Qed.
Print Assumptions C76_times.

(** The pauses share what the openings leave of the time of the step (of the period
    of a state): one pause before each opening and one after the last, equal parts
    rounded down to a millisecond. *)
Theorem C76_share : forall w a i y, round_groups a <> [] -> 32 <= w -> 0 <= i_upper i -> 0 <= i_lower i ->
  let g := Z.of_nat (length (round_groups a)) in let longest := Z.max (i_upper i) (i_lower i) in
  let span := if a_mode a then i_period i * 1000 else i_set_time i in
  0 <= span < 2 ^ 32 -> g * longest <= span ->
  let pause := y_wait (step_init w a i y) in
  (g + 1) * pause + g * longest <= span < (g + 1) * (pause + 1) + g * longest.
Proof.
  intros w a i y R W U L g longest span B F pause. pose proof (wait_share w a i y (seats_some a R) W U L) as H.
  unfold pause, g, longest, span in *. unfold round_groups in *. rewrite app_length in *. apply H; assumption.
Qed.
Print Assumptions C76_share.

(** Not so: in a step without a time limit seats are washed.  The pause becomes
    several weeks. *)
Theorem C76_no_time_refuted : exists a i y, i_set_time i = 0 /\ length (round_groups a) = 1%nat /\
  y_wait (step_init 32 a i y) = 2147482648 /\ 3 * 7 * 24 * 3600 * 1000 < y_wait (step_init 32 a i y).
Proof.
  exists (seats [[7]] []), {| i_now := 0; i_active := fun _ => false; i_value := fun _ => 0; i_failed := fun _ => false;
     i_held := fun _ => false; i_par := fun _ => 0; i_set_time := 0; i_period := 60; i_upper := 2000; i_lower := 1000 |}, (new_dyn 0).
  vm_compute. auto.
Qed.
Print Assumptions C76_no_time_refuted.

(** Not so: a kind of seats without groups costs no evaluation.  With upper groups only
    one evaluation passes between the end of a pause and the next opening. *)
Theorem C76_skip_refuted : exists w kind a i y d,
  y_phase y = 2 /\ closes a i y = false /\ seated a d /\
  let r := step_evaluate w kind a i off_devices y in d_state (fst r d) = 0 /\ y_phase (snd r) = 1.
Proof.
  exists 32, (fun _ => 0), (seats [[7]] []), (calm 5000),
    {| y_phase := 2; y_next := 2; y_group := 0; y_wait := 4000; y_cycle := 5000; y_don := 0; y_doff := 0 |}, 7.
  split; [reflexivity|]. split; [reflexivity|]. split; [exists [7]; cbn; auto|]. vm_compute. auto.
Qed.
Print Assumptions C76_skip_refuted.

(** Two upper groups and a lower one, evaluations twice a second: the
    groups open one after the other. *)
Example C76_example :
  let a := seats [[1; 2]; [3]] [[1]] in
  let run n := washing 32 (fun _ => 0) a (map (fun k => calm (Z.of_nat k * 500)) (seq 1 n)) off_devices
                 (step_init 32 a (calm 0) (new_dyn 0)) 0 in
  map (fun n => (map (fun d => d_state (fst (fst (run n)) d)) [1; 2; 3], snd (run n))) [2; 4; 7; 11; 14; 18; 19; 23]%nat
  = [([0; 0; 0], 0%nat); ([2; 2; 0], 0%nat); ([0; 0; 0], 1%nat); ([0; 0; 2], 1%nat); ([0; 0; 0], 2%nat); ([3; 0; 0], 2%nat); ([0; 0; 0], 3%nat); ([2; 2; 0], 3%nat)].
Proof. vm_compute. reflexivity. Qed.

(** * C77: jumps *)

(** The first satisfied group decides; the number is the one set for the group, else
    the last one set. *)
Theorem C77_jump : forall kind active opened closed next_n g n,
  is_jump kind active opened closed next_n g = Some n <->
  next_n <> [] /\ exists k x, nth_error g k = Some x /\ group_ok kind active opened closed x /\
    (forall j y, (j < k)%nat -> nth_error g j = Some y -> ~ group_ok kind active opened closed y) /\
    n = nth k next_n (last next_n (-1)).
Proof.
  intros. unfold is_jump. destruct next_n as [|x r].
  - split; [discriminate|]. intros [H _]. congruence.
  - rewrite jump_spec. split; [intros H; split; [discriminate|exact H]|intros [_ H]; exact H].
Qed.
Print Assumptions C77_jump.
Theorem C77_no_jump : forall kind active opened closed next_n g,
  is_jump kind active opened closed next_n g = None <->
  next_n = [] \/ forall x, In x g -> ~ group_ok kind active opened closed x.
Proof.
  intros. unfold is_jump. destruct next_n as [|x r]; [tauto|]. rewrite jump_none. split; [auto|]. intros [H|H]; [discriminate|exact H].
Qed.
Print Assumptions C77_no_jump.

(** Setting the number of group [k] changes no other number; groups in between get -1. *)
Theorem C77_setting : forall k l v j, nth j (set_at (-1) k l v) (-1) = (if (j =? k)%nat then v else nth j l (-1)) /\
  length (set_at (-1) k l v) = Nat.max (length l) (S k).
Proof. intros. split; [apply set_at_get|apply set_at_length]. Qed.
Print Assumptions C77_setting.

(** A step is enabled if all devices of some list are on. *)
Theorem C77_enabled : forall active g, any_group_active active g = true <->
  (exists x l d, In x g /\ In l x /\ In d l) /\ exists l, In l (row g) /\ forall d, In d l -> active d = true.
Proof.
  intros active g. unfold any_group_active.
  assert (E : is_empty g = false <-> exists x l d, In x g /\ In l x /\ In d l).
  { unfold is_empty. split.
    - intros H. destruct (existsb (existsb (fun l => negb (no_dev l))) g) eqn:X.
      + apply existsb_exists in X as (x & I & X). apply existsb_exists in X as (l & J & X). destruct l as [|d r]; [discriminate|]. exists x, (d :: r), d. cbn. auto.
      + exfalso. rewrite <- not_true_iff_false in H. apply H. rewrite forallb_forall. intros x I. rewrite forallb_forall. intros l J.
        destruct (no_dev l) eqn:Y; [reflexivity|]. rewrite <- not_true_iff_false in X. exfalso. apply X. apply existsb_exists. exists x. split; [exact I|].
        apply existsb_exists. exists l. rewrite Y. auto.
    - intros (x & l & d & I & J & K). rewrite <- not_true_iff_false. rewrite forallb_forall. intros H. specialize (H x I).
      rewrite forallb_forall in H. specialize (H l J). destruct l; [destruct K|discriminate]. }
  assert (M : main g = row g) by (destruct g; reflexivity). destruct (is_empty g) eqn:Z0.
  - split; [discriminate|]. intros [H _]. apply E in H. discriminate.
  - rewrite M, existsb_exists. split.
    + intros (l & I & H). split; [apply E; reflexivity|]. exists l. split; [exact I|]. apply forallb_forall. exact H.
    + intros (_ & l & I & H). exists l. split; [exact I|]. apply forallb_forall. exact H.
Qed.
Print Assumptions C77_enabled.

(** Not so: without devices there is no jump. *)
Theorem C77_empty_refuted : exists kind active opened closed next_n g,
  (forall x l, In x g -> In l x -> l = []) /\ is_jump kind active opened closed next_n g = Some 3.
Proof.
  exists (fun _ => 0), (fun _ => false), (fun _ => false), (fun _ => false), [3], [[[]; []]].
  split; [|reflexivity]. intros x l [<-|[]] [<-|[<-|[]]]; reflexivity.
Qed.
Print Assumptions C77_empty_refuted.
(** Not so: an enabling signal that is off keeps the step from starting.  A signal put in
    the second list leaves the first one empty, and the empty list counts as on. *)
Theorem C77_enabled_refuted : exists active d, active d = false /\
  any_group_active active (add_dev 1 [[[]]] d 0 1) = true.
Proof. exists (fun _ => false), 7. vm_compute. auto. Qed.
Print Assumptions C77_enabled_refuted.

(** Valve 1 open and signal 2 off: step 5; else signal 3: step 5 again, as no number was set. *)
Example C77_example :
  let kind d := if d =? 1 then 0 else 13 in
  let g := [[[1]; [2]]; [[3]; []]] in
  [is_jump kind (fun d => d =? 2) (fun _ => true) (fun _ => false) [5] g;
   is_jump kind (fun d => d =? 3) (fun _ => false) (fun _ => true) [5] g;
   is_jump kind (fun _ => false) (fun _ => true) (fun _ => false) [4; 6] g;
   is_jump kind (fun d => d <? 4) (fun _ => true) (fun _ => false) [4; 6] g] = [None; Some 5; Some 4; Some 6].
Proof. vm_compute. reflexivity. Qed.

(** * C78: names of devices with errors *)

(** The text fits: all names. *)
Theorem C78_whole : forall size g, let bad := bad_names (concat (concat g)) in
  Z.of_nat (length (joined bad)) + 3 <= size ->
  check_devices size g = (joined bad ++ [0], if (length bad =? 0)%nat then 0 else Z.of_nat (length (joined bad)) + 1).
Proof.
  intros size g bad B. assert (S : 1 <= size) by lia. destruct bad as [|x r] eqn:E.
  - destruct (all_fit size g S) as (T1 & T2 & T3); [fold bad; rewrite E; cbn; lia|]. fold bad in T1, T2. rewrite E in T1, T2.
    unfold check_devices. cbv zeta. rewrite T1, T2. reflexivity.
  - rewrite <- E in *. assert (NE : bad <> []) by congruence. pose proof (joined_quoted bad NE) as Q.
    assert (LQ : Z.of_nat (length (quoted bad)) = Z.of_nat (length (joined bad)) + 2) by (rewrite Q, app_length; cbn [length]; lia).
    destruct (all_fit size g S) as (T1 & T2 & T3); [fold bad; lia|]. fold bad in T1, T2.
    assert (P : 0 < Z.of_nat (length (joined bad))) by (rewrite E; destruct r; cbn [joined length]; lia).
    unfold check_devices. cbv zeta. rewrite T3, T2, LQ.
    replace (2 <? _) with true by lia. replace (_ <? 0) with false by lia. rewrite T1, Q. f_equal.
    + f_equal. rewrite app_length. cbn [length]. replace (length (joined bad) + 2 - 2)%nat with (length (joined bad)) by lia.
      rewrite firstn_app, firstn_all, Nat.sub_diag, app_nil_r. reflexivity.
    + replace (length bad =? 0)%nat with false by (rewrite E; reflexivity). lia.
Qed.
Print Assumptions C78_whole.

(** It does not fit, and the devices after the list in which the buffer ends have no
    errors: the beginning and three dots, filling the buffer exactly. *)
Theorem C78_cut : forall size g pre l post, 4 <= size -> concat g = pre ++ l :: post ->
  let bad := bad_names (concat (concat g)) in
  let first := bad_names (concat pre) in
  (first = [] \/ Z.of_nat (length (joined first)) + 3 <= size) -> size < Z.of_nat (length (joined bad)) + 3 -> bad_names (concat post) = [] ->
  check_devices size g = (firstn (Z.to_nat (size - 4)) (joined bad) ++ [46; 46; 46; 0], size).
Proof.
  intros size g pre l post S E bad first F B N.
  assert (EB : bad = first ++ bad_names l).
  { unfold bad. rewrite E, concat_app. cbn [concat]. rewrite !bad_app, N, app_nil_r. reflexivity. }
  assert (FQ : Z.of_nat (length (quoted first)) <= size - 1).
  { destruct F as [->|F]; [cbn; lia|]. destruct first as [|x r] eqn:X; [cbn; lia|]. rewrite joined_quoted by discriminate. rewrite app_length. cbn [length]. lia. }
  assert (NE : bad <> []) by (intros X; rewrite X in B; cbn in B; lia).
  pose proof (joined_quoted bad NE) as Q.
  assert (LQ : Z.of_nat (length (quoted bad)) = Z.of_nat (length (joined bad)) + 2) by (rewrite Q, app_length; cbn [length]; lia).
  set (s0 := fold_left (fun s l => add_subgroup l s) pre {| text := []; free := size - 1; total := 0 |}).
  assert (N0 : names_at size first s0).
  { apply (subs_fit size pre []); [|exact FQ]. unfold names_at. cbn. repeat split. lia. }
  assert (F0 : 0 <= free s0) by (destruct N0 as (_ & A2 & A3); lia).
  destruct (sub_over size l first s0 N0 F0) as (T1 & T2 & T3); [rewrite <- EB; lia|]. rewrite <- EB in T1.
  assert (AN : all_names size g = add_subgroup l s0).
  { unfold all_names. rewrite fold_concat, E, fold_left_app. cbn [fold_left]. fold s0. apply subs_none. exact N. }
  unfold check_devices. cbv zeta. rewrite AN. replace (2 <? _) with true by lia. replace (_ <? 0) with true by lia.
  rewrite T1, firstn_length, firstn_firstn. f_equal. f_equal.
  replace (Nat.min _ (Z.to_nat (size - 1))) with (Z.to_nat (size - 4)) by lia.
  rewrite Q, firstn_app. replace (Z.to_nat (size - 4) - length (joined bad))%nat with 0%nat by lia. cbn [firstn]. apply app_nil_r.
Qed.
Print Assumptions C78_cut.

(** Not so: the text always fits into the buffer.  Names of a later list are written
    behind its end. *)
Theorem C78_overflow_refuted : exists size g, 4 <= size /\ size < Z.of_nat (length (text (all_names size g))).
Proof.
  exists 10, [[[([86; 49; 48; 48; 49; 48; 50], true)]; [([86; 50], true)]]]. vm_compute. split; [discriminate|reflexivity].
Qed.
Print Assumptions C78_overflow_refuted.

(** V1 and V3 have errors: 'V1', 'V3'; in 10 bytes: 'V1', ... *)
Example C78_example :
  let g := [[[([86; 49], true); ([86; 50], false)]; [([86; 51], true)]]] in
  check_devices 40 g = ([39; 86; 49; 39; 44; 32; 39; 86; 51; 39; 0], 11) /\
  check_devices 10 g = ([39; 86; 49; 39; 44; 32; 46; 46; 46; 0], 10).
Proof. vm_compute. auto. Qed.

(** * C79: places of devices *)

Theorem C79_cells : forall cnt l g n k,
  cell (fold_left (fun g x => add_dev cnt g (fst (fst x)) (snd (fst x)) (snd x)) l g) n k = cell g n k ++ placed n k l.
Proof. exact all_cells. Qed.
Print Assumptions C79_cells.

(** Seats: the same as long as the groups are numbered without gaps. *)
Theorem C79_seats : forall l d n, (n <= length l)%nat ->
  (forall k, nth k (add_seat l d n) [] = nth k l [] ++ (if (k =? n)%nat then [d] else [])) /\
  length (add_seat l d n) = Nat.max (length l) (S n).
Proof. intros l d n H. split; [intros k; apply add_seat_get; exact H|apply add_seat_length; exact H]. Qed.
Print Assumptions C79_seats.
Theorem C79_gap : forall l d n k, (length l < n)%nat -> nth k (add_seat l d n) [] = nth k l [].
Proof. intros. apply add_seat_gap. assumption. Qed.
Print Assumptions C79_gap.
Theorem C79_seats_refuted : exists d n, forall k, ~ In d (nth k (add_seat [] d n) []).
Proof. exists 7, 1%nat. intros k. rewrite add_seat_gap by (cbn; lia). destruct k; intros []. Qed.
Print Assumptions C79_seats_refuted.

Example C79_example :
  fold_left (fun g x => add_dev 2 g (fst (fst x)) (snd (fst x)) (snd x)) [(1, 0%nat, 0%nat); (2, 2%nat, 1%nat); (3, 0%nat, 0%nat); (4, 0%nat, 3%nat)] [[[]; []]]
  = [[[1; 3]; []; []; [4]]; [[]; []]; [[]; [2]]] /\ add_seat (add_seat [[5]] 6 1) 7 0 = [[5; 7]; [6]].
Proof. vm_compute. auto. Qed.

(** * C80: checks before a start *)

(** A step may start iff the first device of every list of its signal actions gives a
    signal of the right kind and, for a whole state, the required signals are on. *)
Theorem C80_check : forall kind active a req,
  step_check kind active a req = 0 <->
  (forall l x r, (In l (row (a_dido a)) \/ In l (row (a_inv a))) -> l = x :: r -> In (kind x) [3; 5; 6; 12; 13]) /\
  (forall l x r, In l (row (a_aiao a)) -> l = x :: r -> In (kind x) [4; 7; 8; 9; 15; 18]) /\
  (a_mode a = true -> forall d, In d (col 0 (row req)) -> active d = true).
Proof.
  intros kind active a req. unfold step_check.
  assert (P : forall z, In z [DT_DI; DT_SB; DT_GS; DT_LS; DT_FS] <-> In z [3; 5; 6; 12; 13]) by (intros z; cbn; unfold DT_DI, DT_SB, DT_GS, DT_LS, DT_FS; tauto).
  assert (Q : forall z, In z [DT_AI; DT_PT; DT_LT; DT_FQT; DT_QT; DT_TE] <-> In z [4; 7; 8; 9; 15; 18]) by (intros z; cbn; unfold DT_AI, DT_PT, DT_LT, DT_FQT, DT_QT, DT_TE; tauto).
  destruct (check_first kind _ (a_dido a)) eqn:C1; cbn [negb].
  2: { split; [discriminate|]. intros (H & _ & _). rewrite <- not_true_iff_false in C1. exfalso. apply C1. apply check_first_spec. intros l x r I E. apply P. eapply H; eauto. }
  destruct (check_first kind _ (a_aiao a)) eqn:C2; cbn [negb].
  2: { split; [discriminate|]. intros (_ & H & _). rewrite <- not_true_iff_false in C2. exfalso. apply C2. apply check_first_spec. intros l x r I E. apply Q. eapply H; eauto. }
  destruct (check_first kind _ (a_inv a)) eqn:C3; cbn [negb].
  2: { split; [discriminate|]. intros (H & _ & _). rewrite <- not_true_iff_false in C3. exfalso. apply C3. apply check_first_spec. intros l x r I E. apply P. eapply H; eauto. }
  rewrite check_first_spec in C1, C2, C3.
  assert (R1 : forall l x r, (In l (row (a_dido a)) \/ In l (row (a_inv a))) -> l = x :: r -> In (kind x) [3; 5; 6; 12; 13]).
  { intros l x r [I|I] E; apply P; [eapply C1|eapply C3]; eauto. }
  assert (R2 : forall l x r, In l (row (a_aiao a)) -> l = x :: r -> In (kind x) [4; 7; 8; 9; 15; 18]).
  { intros l x r I E. apply Q. eapply C2; eauto. }
  destruct (a_mode a).
  - destruct (check_required active req) eqn:C4.
    + rewrite check_required_spec in C4. tauto.
    + split; [discriminate|]. intros (_ & _ & H). rewrite <- not_true_iff_false in C4. exfalso. apply C4. apply check_required_spec. auto.
  - split; [|reflexivity]. intros _. split; [exact R1|]. split; [exact R2|]. discriminate.
Qed.
Print Assumptions C80_check.

(** Not so: every device used as a signal is checked.  A list whose first device gives a
    signal may hold anything behind it, also a device that cannot be switched. *)
Theorem C80_only_first_refuted : exists kind active a req d,
  step_check kind active a req = 0 /\ In d (tl (col 0 (row (a_dido a)))) /\ kind d = 13.
Proof.
  exists (fun _ => 13), (fun _ => false), {| a_on := []; a_rev := []; a_off := []; a_upper := []; a_lower := []; a_dido := one [1; 2]; a_inv := []; a_aiao := [];
     a_wash := []; a_wash_par := []; a_enable := []; a_don := []; a_don_par := []; a_doff := []; a_doff_par := []; a_mode := false |}, [], 2.
  vm_compute. auto.
Qed.
Print Assumptions C80_only_first_refuted.

Example C80_example :
  let a k m := {| a_on := []; a_rev := []; a_off := []; a_upper := []; a_lower := []; a_dido := one [k; 2]; a_inv := []; a_aiao := [];
     a_wash := []; a_wash_par := []; a_enable := []; a_don := []; a_don_par := []; a_doff := []; a_doff_par := []; a_mode := m |} in
  let kind d := if d =? 1 then 13 else 2 in
  [step_check kind (fun _ => false) (a 1 false) (one [1]); step_check kind (fun _ => false) (a 2 false) (one [1]);
   step_check kind (fun _ => false) (a 1 true) (one [1]); step_check kind (fun _ => true) (a 1 true) (one [1])] = [0; 1; 1; 0].
Proof. vm_compute. reflexivity. Qed.
