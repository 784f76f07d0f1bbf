(** C118 and C119: timers of a program and threshold regulators. *)
From Coq Require Import ZArith List Bool Lia QArith Qabs.
From Verif Require Import Base TimeModel FTextModel FloatModel TmrModel TmrSpec TmrProofs TmrProofs2.
Import ListNotations.
Open Scope Z_scope.

(** * C118: timers *)

(** The time of work is the number of milliseconds since the last reset in which the timer ran. *)
Theorem C118_work : forall w l now, 0 < w -> timely w 0 l -> latest 0 l <= now < 2 ^ w -> work_time w now (t_run w new_tmr l) = elapsed l now.
Proof. exact work_spec. Qed.
Print Assumptions C118_work.
(** Time is up exactly while the timer runs and has run for longer than the limit (below 2^32 ms, 49.7 days). *)
Theorem C118_up : forall w l now, 32 <= w -> timely w 0 l -> latest 0 l <= now < 2 ^ w -> elapsed l now < 2 ^ 32 -> 0 <= limit l < 2 ^ w ->
  time_up w now (t_run w new_tmr l) = true <-> running l now = true /\ limit l < elapsed l now.
Proof.
  intros w l now W T N E L. rewrite up_spec by (assumption || lia). rewrite (Z.mod_small (limit l)) by lia.
  pose proof (timer_inv w l ltac:(lia) T) as V. pose proof (elapsed_range l now ltac:(pose proof (v_reset _ _ _ _ V); lia)) as R.
  rewrite Z.mod_small by lia. rewrite andb_true_iff. lia.
Qed.
Print Assumptions C118_up.
(** In general the time of work is cut to 32 bits before. *)
Theorem C118_up_cut : forall w l now, 0 < w -> timely w 0 l -> latest 0 l <= now < 2 ^ w ->
  time_up w now (t_run w new_tmr l) = running l now && (limit l mod 2 ^ w <? elapsed l now mod 2 ^ 32).
Proof. exact up_spec. Qed.
Print Assumptions C118_up_cut.
(** Timers of a group do not influence each other. *)
Theorem C118_group : forall w cnt l i, 0 <= cnt < 2 ^ 32 -> 1 <= i <= cnt -> (forall c, In c l -> 0 <= fst c < 2 ^ 32) ->
  m_get w cnt l i = t_run w new_tmr (calls i l).
Proof.
  intros w cnt l i C I H. unfold m_get, m_run. rewrite many. unfold calls. f_equal. f_equal.
  apply filter_ext_in. intros c IN. specialize (H c IN). unfold pick.
  rewrite (Z.mod_small (i - 1)) by lia. replace (i - 1 <? cnt) with true by lia. cbn [same].
  destruct (Z.eq_dec (fst c) 0) as [Z0|NZ].
  - rewrite Z0. replace ((0 - 1) mod 2 ^ 32) with (2 ^ 32 - 1) by reflexivity. replace (2 ^ 32 - 1 <? cnt) with false by lia. lia.
  - rewrite (Z.mod_small (fst c - 1)) by lia. destruct (fst c - 1 <? cnt) eqn:D; lia.
Qed.
Print Assumptions C118_group.

Example C118_ex : work_time 32 1000 (t_run 32 new_tmr [Count 5 300; Start 100; Hold 250; Start 600; Start 700]) = 550.
Proof. reflexivity. Qed.
Example C118_ex_spec : elapsed [Count 5 300; Start 100; Hold 250; Start 600; Start 700] 1000 = 550.
Proof. vm_compute. reflexivity. Qed.
Example C118_ex_up : map (fun n => time_up 32 n (t_run 32 new_tmr [Count 5 300; Start 100; Hold 250; Start 600; Start 700])) [700; 750; 751] = [false; false; true].
Proof. reflexivity. Qed.

(** A timer that is up stays so until it is paused or reset or its limit changed: not after 2^32 ms. *)
Theorem C118_stays_refuted : ~ (forall w l now later, 32 <= w -> timely w 0 l -> latest 0 l <= now <= later -> later < 2 ^ w ->
  time_up w now (t_run w new_tmr l) = true -> time_up w later (t_run w new_tmr l) = true).
Proof.
  intros H. specialize (H 64 [Count 0 1000; Start 0] 2000 (2 ^ 32) ltac:(lia)). cbn [timely time_of latest] in H.
  assert (F : time_up 64 (2 ^ 32) (t_run 64 new_tmr [Count 0 1000; Start 0]) = true) by (apply H; [lia|lia|reflexivity|reflexivity]). vm_compute in F. discriminate.
Qed.
Print Assumptions C118_stays_refuted.
(** Time is up once the limit has passed: not for limits of 2^32 - 1 ms or more. *)
Theorem C118_long_refuted : forall l now, timely 64 0 l -> latest 0 l <= now < 2 ^ 64 -> 2 ^ 32 - 1 <= limit l < 2 ^ 64 -> time_up 64 now (t_run 64 new_tmr l) = false.
Proof.
  intros l now T N L. rewrite up_spec by (assumption || lia). rewrite (Z.mod_small (limit l)) by lia.
  pose proof (Z.mod_pos_bound (elapsed l now) (2 ^ 32) ltac:(lia)). destruct (running l now); [cbn [andb]; lia|reflexivity].
Qed.
Print Assumptions C118_long_refuted.
(** A paused timer that ran for longer than its limit is up: not so. *)
Theorem C118_paused_refuted : ~ (forall w l now, 32 <= w -> timely w 0 l -> latest 0 l <= now < 2 ^ w -> limit l < elapsed l now -> elapsed l now < 2 ^ 32 -> time_up w now (t_run w new_tmr l) = true).
Proof.
  intros H. specialize (H 32 [Count 0 100; Start 0; Hold 300] 400 ltac:(lia)). cbn [timely time_of latest] in H.
  assert (F : time_up 32 400 (t_run 32 new_tmr [Count 0 100; Start 0; Hold 300]) = true) by (apply H; [lia|lia|reflexivity|reflexivity]). vm_compute in F. discriminate.
Qed.
Print Assumptions C118_paused_refuted.
(** Calls to timers with different numbers do not influence each other: they do if the numbers do not exist. *)
Theorem C118_wrong_refuted : ~ (forall w cnt l i, 0 <= cnt < 2 ^ 32 -> 0 <= i < 2 ^ 32 -> (forall c, In c l -> 0 <= fst c < 2 ^ 32) -> m_get w cnt l i = t_run w new_tmr (calls i l)).
Proof.
  intros H. specialize (H 32 3 [(4, Start 10)] 0 ltac:(lia) ltac:(lia)). assert (F : m_get 32 3 [(4, Start 10)] 0 = new_tmr).
  { apply H. intros c [<-|[]]. cbn. lia. } vm_compute in F. discriminate.
Qed.
Print Assumptions C118_wrong_refuted.

(** * C119: threshold regulators *)

(** A call of a regulator that is on, with the sensor above the set value by more than the band: output 0 (reversed 1);
    below it by more than the band: 1 (reversed 0); the output and what the actuator was last told stay the same while
    the sensor is within the band and the regulator is not switched off, whatever the set values then are. *)
Theorem C119_above : forall h e v x l, r_state (r_run h) = 1 -> regulate (manual h) e = Some (v, x) ->
  small v (band h) -> f_finite x = true -> above v (band h) x -> Forall (quiet (band h)) l ->
  let s := r_run (h ++ e :: l) in let n := if f_lt 0 (reverse h) then 1 else 0 in
  r_value s = f_of_Z n /\ r_state s = 1 /\ exists r, told s = AState n :: r.
Proof.
  intros h e v x l N R S X A Q s n. subst s. unfold r_run. rewrite fold_left_app. cbn [fold_left]. fold (r_run h).
  destruct (reg_inv h) as [M D V]. rewrite <- M in R. rewrite (step_reg _ e v x R). rewrite <- D in *.
  assert (O : on (r_run h) = true) by (unfold r_state in N; destruct (on (r_run h)); [reflexivity|discriminate]).
  assert (E : r_set_value v x (r_run h) = tell (AState n) (set_out n (r_run h))).
  { unfold r_set_value. rewrite O. cbn [negb]. rewrite is_above by assumption. rewrite V. reflexivity. }
  rewrite E. destruct (quiet_run (delta (r_run h)) l (tell (AState n) (set_out n (r_run h))) Q eq_refl O (ex_intro _ _ eq_refl)) as (P1 & P2 & P3).
  unfold r_value, r_state. rewrite P1, P2. auto.
Qed.
Print Assumptions C119_above.
Theorem C119_below : forall h e v x l, r_state (r_run h) = 1 -> regulate (manual h) e = Some (v, x) ->
  small v (band h) -> f_finite x = true -> below v (band h) x -> (f_val x <= f_val v + f_val (band h) - slack (f_val v + f_val (band h)))%Q -> Forall (quiet (band h)) l ->
  let s := r_run (h ++ e :: l) in let n := if f_lt 0 (reverse h) then 0 else 1 in
  r_value s = f_of_Z n /\ r_state s = 1 /\ exists r, told s = AState n :: r.
Proof.
  intros h e v x l N R S X A A2 Q s n. subst s. unfold r_run. rewrite fold_left_app. cbn [fold_left]. fold (r_run h).
  destruct (reg_inv h) as [M D V]. rewrite <- M in R. rewrite (step_reg _ e v x R). rewrite <- D in *.
  assert (O : on (r_run h) = true) by (unfold r_state in N; destruct (on (r_run h)); [reflexivity|discriminate]).
  assert (E : r_set_value v x (r_run h) = tell (AState n) (set_out n (r_run h))).
  { unfold r_set_value. rewrite O. cbn [negb]. rewrite not_above, is_below by assumption. rewrite V. reflexivity. }
  rewrite E. destruct (quiet_run (delta (r_run h)) l (tell (AState n) (set_out n (r_run h))) Q eq_refl O (ex_intro _ _ eq_refl)) as (P1 & P2 & P3).
  unfold r_value, r_state. rewrite P1, P2. auto.
Qed.
Print Assumptions C119_below.
(** A sensor that gives no number leaves the output as it is. *)
Theorem C119_nan : forall h e v x, r_state (r_run h) = 1 -> regulate (manual h) e = Some (v, x) -> f_isnan x = true ->
  r_value (r_run (h ++ [e])) = r_value (r_run h).
Proof.
  intros h e v x N R X. unfold r_run. rewrite fold_left_app. cbn [fold_left]. fold (r_run h).
  destruct (reg_inv h) as [M D V]. rewrite <- M in R. rewrite (step_reg _ e v x R).
  assert (O : on (r_run h) = true) by (unfold r_state in N; destruct (on (r_run h)); [reflexivity|discriminate]).
  unfold r_set_value. rewrite O. unfold f_lt. rewrite X. cbn [negb andb]. rewrite andb_false_r. reflexivity.
Qed.
Print Assumptions C119_nan.
(** Switching off tells the actuator; every call of a regulator that is off does so again, and its output is then 0. *)
Theorem C119_off : forall h e, r_state (r_run h) = 1 -> (e = CmdSt 0 \/ (manual h = false /\ (e = Off \/ e = Set_ 0))) ->
  r_state (r_run (h ++ [e])) = 0 /\ exists r, told (r_run (h ++ [e])) = AOff :: r.
Proof.
  intros h e N E. unfold r_run. rewrite fold_left_app. cbn [fold_left]. fold (r_run h). destruct (reg_inv h) as [M _ _].
  assert (O : on (r_run h) = true) by (unfold r_state in N; destruct (on (r_run h)); [reflexivity|discriminate]).
  assert (K : r_step (r_run h) e = r_off (r_run h)) by (destruct E as [->|(E1 & [->| ->])]; [reflexivity|cbn [r_step]; rewrite M, E1; reflexivity..]).
  rewrite K. unfold r_off. rewrite O. split; [reflexivity|eexists; reflexivity].
Qed.
Print Assumptions C119_off.
Theorem C119_off_call : forall h e v x, r_state (r_run h) = 0 -> regulate (manual h) e = Some (v, x) ->
  r_value (r_run (h ++ [e])) = f_of_Z 0 /\ exists r, told (r_run (h ++ [e])) = AState 0 :: AOff :: r.
Proof.
  intros h e v x N R. unfold r_run. rewrite fold_left_app. cbn [fold_left]. fold (r_run h). destruct (reg_inv h) as [M _ _].
  rewrite <- M in R. rewrite (step_reg _ e v x R).
  assert (O : on (r_run h) = false) by (unfold r_state in N; destruct (on (r_run h)); [discriminate|reflexivity]).
  unfold r_set_value. rewrite O. split; [reflexivity|eexists; reflexivity].
Qed.
Print Assumptions C119_off_call.

(** 5 degrees, band 1: with 3 on, with 5.5 still on, with 6.5 off. *)
Definition fl (q : Q) : Z := f_lit q.
Example C119_ex : map (fun l => (r_value (r_run ([ParDelta (fl 1); On] ++ l)), hd AOff (told (r_run ([ParDelta (fl 1); On] ++ l)))))
  [[Val (fl 5) (fl 3)]; [Val (fl 5) (fl 3); Val (fl 5) (fl (11 # 2))]; [Val (fl 5) (fl 3); Val (fl 5) (fl (13 # 2))]; [Val (fl 5) (fl 3); Off; Val (fl 5) (fl 3)]]
  = [(f_of_Z 1, AState 1); (f_of_Z 1, AState 1); (0, AState 0); (0, AState 0)].
Proof. vm_compute. reflexivity. Qed.

(** The value of a regulator that is off is 0: not before the next call. *)
Theorem C119_value_refuted : ~ (forall h, r_state (r_run h) = 0 -> r_value (r_run h) = 0).
Proof. intros H. specialize (H [ParDelta (fl 1); On; Val (fl 5) (fl 3); Off] eq_refl). vm_compute in H. discriminate. Qed.
Print Assumptions C119_value_refuted.
(** A regulator switched off and on again begins with output 0 while the sensor is within the band: not if it was not called
    in between. *)
Theorem C119_restart_refuted : ~ (forall h v x, manual h = false -> small v (band h) -> f_finite x = true -> inside v (band h) x ->
  r_value (r_run (h ++ [Off; On; Val v x])) = 0).
Proof.
  intros H. specialize (H [ParDelta (fl 1); On; Val (fl 5) (fl 3)] (fl 5) (fl 5) eq_refl).
  assert (F : r_value (r_run ([ParDelta (fl 1); On; Val (fl 5) (fl 3)] ++ [Off; On; Val (fl 5) (fl 5)])) = 0).
  { apply H; [repeat split; try reflexivity; vm_compute; discriminate|reflexivity|split; vm_compute; discriminate]. }
  vm_compute in F. discriminate.
Qed.
Print Assumptions C119_restart_refuted.
