(** Properties C41, C42, C67: running time, restrictions mode, couplers taken out
    of service. *)
From Coq Require Import ZArith QArith List Bool Lia.
From Verif Require Import Base TimeModel ErrModel PacModel PacSpec PacProofs PacProofs2.
Import ListNotations.
Open Scope Z_scope.

(** * C41 *)

(** The time shown is the time from the start to the last renewal, less the
    milliseconds that pass between two readings of the clock in each renewal,
    plus one for each restart of a 32-bit clock. *)
Theorem C41_exact : forall w t0 h, w = 32 \/ w = 64 -> 0 <= t0 -> paced t0 t0 h ->
  let u := up_run w t0 h in
  let s := acc_run w t0 h in
  let shown := ac_last s - t0 - ac_missed s + ac_added s in
  up_days u = shown / 86400000 /\
  up_hours u = (shown / 3600000) mod 24 /\
  up_mins u = (shown / 60000) mod 60 /\
  up_secs u = (shown / 1000) mod 60.
Proof.
  intros w t0 h Hw H0 P u s shown.
  destruct (up_run_good w t0 h Hw H0 P) as (_ & _ & G3 & G4 & G5 & _ & _ & _ & G9 & G10 & G11).
  fold u in G3, G4, G5, G9, G10, G11. fold s in G5. fold shown in G5.
  unfold MSEC_IN_DAY in *. change (24 * 60 * 60 * 1000) with 86400000 in *.
  set (d := up_days u) in *. set (m := up_msec u) in *. clearbody d m.
  rewrite G9, G10, G11, <- G5.
  split. { apply Z.div_unique with (r := m); [left; lia|lia]. }
  split.
  { replace (d * 86400000 + m) with (m + (d * 24) * 3600000) by lia.
    rewrite Z.div_add by lia. rewrite Z.mod_add by lia. symmetry. apply Z.mod_small.
    split; [apply Z.div_pos; lia|]. apply Z.div_lt_upper_bound; lia. }
  split.
  { replace (d * 86400000 + m) with (m + (d * 24 * 60) * 60000) by lia.
    rewrite Z.div_add by lia.
    replace (m / 60000 + d * 24 * 60) with (m / 60000 + (d * 24) * 60) by lia.
    rewrite Z.mod_add by lia. reflexivity. }
  replace (d * 86400000 + m) with (m + (d * 24 * 60 * 60) * 1000) by lia.
  rewrite Z.div_add by lia.
  replace (m / 1000 + d * 24 * 60 * 60) with (m / 1000 + (d * 24 * 60) * 60) by lia.
  rewrite Z.mod_add by lia. reflexivity.
Qed.
Print Assumptions C41_exact.

(** It lags behind the true time by at most a second and what is missed in the
    cycles, and is ahead by at most a millisecond per 49.7 days. *)
Theorem C41_bounds : forall w t0 h, w = 32 \/ w = 64 -> 0 <= t0 -> paced t0 t0 h ->
  let u := up_run w t0 h in
  let (a, c) := last_cycle t0 h in
  let shown := ((up_days u * 24 + up_hours u) * 60 + up_mins u) * 60 + up_secs u in
  a - t0 - 1000 - all_missed h < (shown + 1) * 1000 /\
  shown * 1000 <= c - t0 + (c / 2 ^ 32 - t0 / 2 ^ 32).
Proof.
  intros w t0 h Hw H0 P u.
  destruct (up_run_good w t0 h Hw H0 P) as (_ & _ & G3 & G4 & G5 & _ & _ & _ & G9 & G10 & G11).
  fold u in G3, G4, G5, G9, G10, G11.
  assert (F : fair w t0 t0 t0 {| ac_last := t0; ac_missed := 0; ac_added := 0 |} 0).
  { unfold fair. cbn [ac_last ac_missed ac_added]. destruct (w =? 32); lia. }
  destruct (fair_run w t0 h t0 t0 _ 0 Hw F ltac:(cbn; lia) ltac:(lia) P) as (a & c & A1 & A2 & A3).
  assert (E : last_cycle t0 h = (a, c)).
  { destruct h as [|r h]; [destruct (A1 eq_refl) as (-> & ->); reflexivity|].
    symmetry. apply A2. discriminate. }
  rewrite E. change (fold_left (acc_cycle w) h _) with (acc_run w t0 h) in A3.
  destruct A3 as (F1 & F2 & F3). set (s := acc_run w t0 h) in *.
  assert (F4 : ac_added s <= c / 2 ^ 32 - t0 / 2 ^ 32).
  { pose proof (Z.div_le_mono (ac_last s) c (2 ^ 32) eq_refl ltac:(lia)).
    destruct Hw as [-> | ->]; cbn [Z.eqb Pos.eqb] in F3; [lia|].
    assert (t0 <= c).
    { destruct h as [|((x, y), z) h]; [destruct (A1 eq_refl) as (-> & ->); lia|].
      destruct (up_run_good 64 t0 _ (or_intror eq_refl) H0 P) as (_ & L & _). fold s in L. lia. }
    pose proof (Z.div_le_mono t0 c (2 ^ 32) eq_refl ltac:(lia)). lia. }
  rewrite G9, G10, G11. unfold MSEC_IN_DAY in *. change (24 * 60 * 60 * 1000) with 86400000 in *.
  set (d := up_days u) in *. set (m := up_msec u) in *. clearbody d m.
  assert (K : ((d * 24 + m / 3600000) * 60 + (m / 60000) mod 60) * 60 + (m / 1000) mod 60
              = d * 86400 + m / 1000).
  { pose proof (Z.div_mod (m / 60000) 60 ltac:(lia)) as X1.
    pose proof (Z.div_mod (m / 1000) 60 ltac:(lia)) as X2.
    rewrite Z.div_div in X1, X2 by lia.
    change (60000 * 60) with 3600000 in X1. change (1000 * 60) with 60000 in X2. lia. }
  rewrite K.
  pose proof (Z.div_mod m 1000 ltac:(lia)). pose proof (Z.mod_pos_bound m 1000 ltac:(lia)).
  lia.
Qed.
Print Assumptions C41_bounds.

(** When the controller is busy for two days a day is lost. *)
Theorem C41_long_cycle_refuted : exists w t0 h, let u := up_run w t0 h in
  let (a, c) := last_cycle t0 h in
  a - t0 = 2 * 86400000 /\ c = a /\ up_days u = 1 /\ up_hours u = 0 /\ up_mins u = 0 /\
  up_secs u = 0.
Proof.
  exists 32, 5, [(172800005, 172800005, 172800005)]. vm_compute. repeat split.
Qed.
Print Assumptions C41_long_cycle_refuted.

(** The milliseconds missed add up without bound: for every lag of [n] ms (up to
    2^40) some run of cycles a second apart shows [n] ms less than the true time. *)
Theorem C41_drift_refuted : forall n, (0 < n)%nat -> Z.of_nat n < 2 ^ 40 ->
  exists h, paced 0 0 h /\ length h = n /\
  let u := up_run 64 0 h in
  let shown := ((up_days u * 24 + up_hours u) * 60 + up_mins u) * 60 + up_secs u in
  snd (last_cycle 0 h) = 1002 * Z.of_nat n /\
  shown * 1000 + Z.of_nat n <= snd (last_cycle 0 h).
Proof.
  intros n Hpos Hn.
  set (cyc k := let t := 1002 * Z.of_nat k in (t + 1001, t + 1001, t + 1002)).
  assert (A : forall k, acc_run 64 0 (map cyc (seq 0 k)) =
     {| ac_last := 1002 * Z.of_nat k; ac_missed := Z.of_nat k; ac_added := 0 |}).
  { induction k as [|k IH]; [reflexivity|].
    rewrite seq_S, map_app. unfold acc_run in *. rewrite fold_left_app, IH.
    cbn [map fold_left plus]. unfold cyc, acc_cycle. cbn [ac_last].
    replace (renewed 64 (1002 * Z.of_nat k) (1002 * Z.of_nat k + 1001)) with true.
    2:{ unfold renewed. cbn [Z.eqb Pos.eqb].
        replace (1002 * Z.of_nat k + 1001 - 1002 * Z.of_nat k) with 1001 by lia. reflexivity. }
    cbn [ac_missed ac_added Z.eqb Pos.eqb andb one_if]. f_equal; lia. }
  assert (P : forall l i prev, prev <= 1002 * Z.of_nat i -> 1002 * Z.of_nat i - prev <= 1 ->
     1002 * Z.of_nat (i + l) < 2 ^ 50 -> paced prev (1002 * Z.of_nat i) (map cyc (seq i l))).
  { induction l as [|l IH]; intros i prev P1 P2 P3; [exact I|].
    cbn [seq map]. unfold cyc at 1. cbn [paced]. repeat (split; [lia|]).
    replace (1002 * Z.of_nat i + 1002) with (1002 * Z.of_nat (S i)) by lia.
    apply IH; lia. }
  assert (P0 : paced 0 0 (map cyc (seq 0 n))).
  { apply (P n 0%nat 0); lia. }
  exists (map cyc (seq 0 n)). split; [exact P0|]. split; [rewrite map_length, seq_length; reflexivity|].
  assert (L : snd (last_cycle 0 (map cyc (seq 0 n))) = 1002 * Z.of_nat n).
  { destruct n as [|k]; [lia|]. rewrite seq_S, map_app. unfold last_cycle.
    rewrite rev_app_distr. cbn [map rev app plus]. unfold cyc. cbn [snd]. lia. }
  cbv zeta. split; [exact L|]. rewrite L.
  pose proof (C41_exact 64 0 _ (or_intror eq_refl) ltac:(lia) P0) as E. cbv zeta in E.
  rewrite A in E. cbn [ac_last ac_missed ac_added] in E.
  replace (1002 * Z.of_nat n - 0 - Z.of_nat n + 0) with (1001 * Z.of_nat n) in E by lia.
  destruct E as (-> & -> & -> & ->). set (m := 1001 * Z.of_nat n).
  assert (K : ((m / 86400000 * 24 + (m / 3600000) mod 24) * 60 + (m / 60000) mod 60) * 60
              + (m / 1000) mod 60 = m / 1000).
  { pose proof (Z.div_mod (m / 3600000) 24 ltac:(lia)) as X0.
    pose proof (Z.div_mod (m / 60000) 60 ltac:(lia)) as X1.
    pose proof (Z.div_mod (m / 1000) 60 ltac:(lia)) as X2.
    rewrite Z.div_div in X0, X1, X2 by lia.
    change (60000 * 60) with 3600000 in X1. change (1000 * 60) with 60000 in X2.
    change (3600000 * 24) with 86400000 in X0. lia. }
  rewrite K. pose proof (Z.mul_div_le m 1000 ltac:(lia)). unfold m in *. lia.
Qed.
Print Assumptions C41_drift_refuted.

(** A run over midnight of the first day, 32-bit clock about to start anew. *)
Example C41_example :
  let t0 := 2 ^ 32 - 1000 in
  let h := [(t0 + 500, t0 + 500, t0 + 500); (t0 + 43200000, t0 + 43200000, t0 + 43200003);
            (t0 + 86399000, t0 + 86399000, t0 + 86399000);
            (t0 + 86403002, t0 + 86403003, t0 + 86403004)] in
  let u := up_run 32 t0 h in
  paced t0 t0 h /\
  (up_days u, up_hours u, up_mins u, up_secs u, up_msec u) = (1, 0, 0, 3, 3001).
Proof. vm_compute. repeat split; discriminate. Qed.

(** * C42 *)

(** The temporary mode ends at the first cycle in which the measured time since
    the command exceeds the period then in force, and not before. *)
Theorem C42_expires : forall w h v t es r,
  (v == 2)%Q -> forallb quiet es = true -> Forall (in_range t) es ->
  (w = 32 /\ 0 <= t /\ t mod 2 ^ 32 <> 0 \/
   w = 64 /\ 0 < t < 2 ^ 32 /\ (forall x, In (REval x) es -> x < 2 ^ 32)) ->
  restr_run w restr_init (h ++ RMode v t :: es) = Some r ->
  (restr_checked r = true <->
   exists a x b, es = a ++ REval x :: b /\ measured w t x > period 120000 (h ++ a)) /\
  (restr_checked r = false -> rs_mode r = 2).
Proof.
  intros w h v t es r V Q F W H.
  rewrite restr_run_app in H.
  destruct (restr_run w restr_init h) as [r1|] eqn:H1; [|discriminate].
  cbn [restr_run restr_step] in H. unfold restr_set_mode in H.
  apply Qeq_bool_iff in V. rewrite (to_u32_two v V), V in H.
  pose proof (run_saved w h _ _ H1) as (_ & T1). specialize (T1 eq_refl). destruct T1 as (T1 & T2).
  change (rs_time restr_init) with 120000 in T1.
  assert (M : measurable w t es).
  { destruct W as [(-> & ? & ?)|(-> & ? & ?)]; [apply measurable_32|apply measurable_64]; auto; lia. }
  edestruct (quiet_counts w t es) as (I1 & I2); [exact Q| | | |exact M|exact H|]; cbn; auto.
  assert (PA : forall a m, period m (h ++ a) = period (period m h) a).
  { clear. induction h as [|e h IH]; intros a m; [reflexivity|].
    destruct e; cbn [app period]; apply IH. }
  unfold restr_checked. split.
  - rewrite Z.eqb_eq, I2. cbn [rs_time]. rewrite T1.
    split; intros (a & x & b & X & Y); exists a, x, b; rewrite PA in *; auto.
  - intros X. apply Z.eqb_neq in X. destruct I1; congruence.
Qed.
Print Assumptions C42_expires.

(** Every other mode lasts until the next command, over restarts. *)
Theorem C42_lasting : forall w h v t es r,
  ~ (v == 2)%Q -> forallb quiet es = true ->
  restr_run w restr_init (h ++ RMode v t :: es) = Some r ->
  whole v = Some (rs_mode r) /\ rs_saved_mode r = rs_mode r.
Proof.
  intros w h v t es r. rewrite <- to_u32_whole. revert w h v t es r.
  intros w h v t es r V Q H. eapply lasting_run; eauto.
  destruct (Qeq_bool v 2) eqn:E; [|reflexivity]. apply Qeq_bool_iff in E. contradiction.
Qed.
Print Assumptions C42_lasting.

(** A command is carried out exactly if its number is above -1 and below 2^32;
    otherwise the conversion is undefined. *)
Theorem C42_defined : forall w r v t,
  ((-1 < v)%Q /\ (v < inject_Z (2 ^ 32))%Q <-> restr_step w r (RMode v t) <> None) /\
  ((-1 < v)%Q /\ (v < inject_Z (2 ^ 32))%Q <-> restr_step w r (RTime v) <> None).
Proof.
  intros w r v t.
  assert (E : (-1 < v)%Q /\ (v < inject_Z (2 ^ 32))%Q <-> whole v <> None).
  { unfold whole. destruct (Qle_bool v (-1)) eqn:A; [apply Qle_bool_iff in A|].
    - cbn [orb]. split; [|congruence]. intros (B & _). exfalso. apply (Qlt_not_le _ _ B A).
    - assert (A' : (-1 < v)%Q) by (apply Qnot_le_lt; intros C; apply Qle_bool_iff in C; congruence). cbn [orb].
      destruct (Qle_bool (inject_Z (2 ^ 32)) v) eqn:B; [apply Qle_bool_iff in B|].
      + split; [|congruence]. intros (_ & C). exfalso. apply (Qlt_not_le _ _ C B).
      + assert (B' : (v < inject_Z (2 ^ 32))%Q) by (apply Qnot_le_lt; intros C; apply Qle_bool_iff in C; congruence).
        split; [intros _; congruence|intros _; auto]. }
  cbn [restr_step]. unfold restr_set_mode, restr_set_time. rewrite to_u32_whole. rewrite E.
  destruct (whole v); split; split; congruence.
Qed.
Print Assumptions C42_defined.

(** A reset puts the restrictions in force with a period of two minutes, and a
    restart does not change that. *)
Theorem C42_reset : forall w h es r, forallb quiet es = true ->
  restr_run w restr_init (h ++ [RReset]) = Some r ->
  restr_checked r = true /\ rs_time r = 2 * 60 * 1000 /\
  forall r', restr_run w r (RBoot :: es) = Some r' -> restr_checked r' = true.
Proof.
  intros w h es r Q H. pose proof (run_time w _ _ H) as T. rewrite restr_run_app in H.
  destruct (restr_run w restr_init h) as [r1|] eqn:H1; [|discriminate]. cbn [restr_run restr_step] in H. injection H as <-.
  split; [reflexivity|]. split; [reflexivity|].
  intros r' H'. cbn [restr_run restr_step] in H'. apply quiet_still in H'; [|exact Q|reflexivity].
  destruct H' as (H' & _). unfold restr_checked. rewrite H'. reflexivity.
Qed.
Print Assumptions C42_reset.

(** After a start the mode is the one last commanded and does not expire, even
    when it was the temporary one and had already expired before the start. *)
Theorem C42_restart : forall w h es r, forallb quiet es = true ->
  restr_run w restr_init (h ++ RBoot :: es) = Some r ->
  rs_mode r = commanded 0 h.
Proof. exact boot_run. Qed.
Print Assumptions C42_restart.

(** A command given when the 32-bit reading of the clock is 0 is never followed
    by a return. *)
Theorem C42_clock_zero : forall w h v t es r,
  (v == 2)%Q -> u32 (clock w t) = 0 -> forallb quiet es = true ->
  restr_run w restr_init (h ++ RMode v t :: es) = Some r -> rs_mode r = 2.
Proof.
  intros w h v t es r V C Q H. rewrite restr_run_app in H.
  destruct (restr_run w restr_init h) as [r1|] eqn:H1; [|discriminate].
  cbn [restr_run restr_step] in H. unfold restr_set_mode in H.
  apply Qeq_bool_iff in V. rewrite (to_u32_two v V), V, C in H.
  apply quiet_still in H; [|exact Q|reflexivity]. apply H.
Qed.
Print Assumptions C42_clock_zero.

(** With a 64-bit clock running for 2^32 ms or more the temporary mode ends in the
    very next cycle (any period below 2^32 - 1 ms is at once over). *)
Theorem C42_64bit : forall h v t x r r1,
  (v == 2)%Q -> 2 ^ 32 <= t -> t mod 2 ^ 32 <> 0 -> t <= x < 2 ^ 50 ->
  restr_run 64 restr_init h = Some r1 -> period 120000 h < 2 ^ 32 ->
  restr_run 64 restr_init (h ++ [RMode v t; REval x]) = Some r -> restr_checked r = true.
Proof.
  intros h v t x r r1 V T0 T1 X H1 P H. rewrite restr_run_app, H1 in H.
  cbn [restr_run restr_step] in H. unfold restr_set_mode in H.
  apply Qeq_bool_iff in V. rewrite (to_u32_two v V), V in H. injection H as <-.
  unfold restr_eval. cbn [rs_off rs_time].
  assert (E : u32 (clock 64 t) = t mod 2 ^ 32).
  { unfold u32, clock. rewrite (Z.mod_small t (2 ^ 64)); [reflexivity|].
    split; [lia|]. eapply Z.le_lt_trans; [|exact (eq_refl : 2 ^ 50 < 2 ^ 64)]. lia. }
  rewrite delta_64 by lia.
  assert (1 <= t / 2 ^ 32) by (apply Z.div_le_lower_bound; lia).
  rewrite E. destruct (Z.eqb_spec (t mod 2 ^ 32) 0); [contradiction|].
  cbn [negb andb]. rewrite (run_time 64 h r1 H1).
  replace (x - t + 2 ^ 32 * (t / 2 ^ 32) >? period 120000 h) with true; [reflexivity|].
  symmetry. apply Z.gtb_lt. nia.
Qed.
Print Assumptions C42_64bit.

(** A mode commanded as 2.5 is stored as 2 but never expires (instance of
    [C42_lasting]); a mode that expired is back after a restart. *)
Example C42_example :
  let run := restr_run 32 restr_init in
  let show o := match o with Some r => [rs_mode r; rs_saved_mode r] | None => [] end in
  show (run [RTime 5000; RMode 2 1000; REval 2000; REval 6000]) = [2; 2] /\
  show (run [RTime 5000; RMode 2 1000; REval 2000; REval 6001]) = [0; 2] /\
  show (run [RTime 5000; RMode 2 1000; REval 6001; RBoot; REval 9999999]) = [2; 2] /\
  show (run [RMode (5 # 2) 1000; REval 9999999]) = [2; 2] /\
  show (run [RMode (-1) 1000]) = [] /\
  show (run [RMode 2 (2 ^ 32 - 5); REval (2 ^ 32 + 119994)]) = [2; 2] /\
  show (run [RMode 2 (2 ^ 32 - 5); REval (2 ^ 32 + 119995)]) = [0; 2].
Proof. vm_compute. repeat split. Qed.

(** * C67 *)

(** For couplers with different numbers: what each coupler and its two alarms
    are after any history of commands and polls. *)
Theorem C67_state : forall ks hs s,
  NoDup ks -> Forall (fun k => 0 <= k < 2 ^ 32) ks ->
  node_run (node_start ks) hs = Some s ->
  forall i k, nth_error ks i = Some k ->
  exists n, nth_error (fst s) i = Some n /\ sn_number n = k /\
    sn_active n = in_service (rev hs) i /\
    (In (service_error k) (cm_errors (snd s)) <-> service_alarm (rev hs) i = true) /\
    (In (link_error k) (cm_errors (snd s)) <-> link_alarm (rev hs) i = true).
Proof.
  intros ks hs s N F H i k K.
  pose proof (node_run_inv ks hs _ _ _ N F (node_start_inv ks) H) as (_ & I).
  specialize (I i). rewrite K, app_nil_r in I.
  destruct (nth_error (fst s) i) as [n|]; [|contradiction]. exists n. tauto.
Qed.
Print Assumptions C67_state.

(** Nothing else is ever listed by these means. *)
Lemma only_these ks hs : forall s s', Forall (fun k => 0 <= k < 2 ^ 32) ks ->
  map sn_number (fst s) = ks -> NoDup (cm_errors (snd s)) ->
  node_run s hs = Some s' ->
  forall e, In e (cm_errors (snd s')) ->
  In e (cm_errors (snd s)) \/ exists k, In k ks /\ (e = service_error k \/ e = link_error k).
Proof.
  induction hs as [|v hs IH]; intros s s' F M N H e E; cbn [node_run] in H.
  - injection H as <-. auto.
  - destruct (node_step s v) as [s1|] eqn:S1; [|discriminate].
    assert (UN : forall l i n x, nth_error l i = Some n -> sn_number x = sn_number n ->
                 map sn_number (upd_node l i x) = map sn_number l).
    { clear. induction l as [|y l IHl]; intros [|i] n x A B; try discriminate; cbn in *.
      - injection A as ->. congruence.
      - f_equal. eauto. }
    assert (K : map sn_number (fst s1) = ks /\ NoDup (cm_errors (snd s1)) /\
       forall e, In e (cm_errors (snd s1)) -> In e (cm_errors (snd s)) \/
         exists k, In k ks /\ (e = service_error k \/ e = link_error k)).
    { destruct s as (ns, m). cbn [fst snd] in *.
      assert (KN : forall i n, nth_error ns i = Some n -> In (sn_number n) ks /\ 0 <= sn_number n < 2 ^ 32).
      { intros i n A. assert (B : In (sn_number n) ks).
        { rewrite <- M. apply in_map. eapply nth_error_In; eauto. }
        split; [exact B|]. rewrite Forall_forall in F. auto. }
      destruct v as [idx q|j b]; cbn [node_step fst snd] in S1.
      - unfold node_enabled in S1. destruct (idx <=? length ns)%nat; [|injection S1 as <-; auto].
        destruct idx as [|j]; [discriminate|].
        destruct (nth_error ns j) as [n|] eqn:Hn; [|discriminate].
        destruct (KN _ _ Hn) as (K1 & K2).
        destruct (Qeq_bool q 1); [|destruct (Qeq_bool q 0); [|destruct (Qeq_bool q 100)]];
          injection S1 as <-; cbn [fst snd]; auto.
        all: split; [rewrite (UN _ _ n) by (auto; reflexivity); exact M|].
        all: split; [auto using nodup_set, nodup_reset|]; intros x.
        all: rewrite ?in_reset by auto using nodup_set, nodup_reset.
        all: rewrite ?in_set, ?ce_service, ?ce_link by assumption.
        all: intuition eauto.
      - injection S1 as <-. unfold node_poll. destruct (nth_error ns j) as [n|] eqn:Hn; [|auto].
        destruct (KN _ _ Hn) as (K1 & K2).
        destruct (sn_active n), b, (sn_err n); cbn [negb fst snd]; auto.
        all: split; [rewrite (UN _ _ n) by (auto; reflexivity); exact M|].
        all: split; [auto using nodup_set, nodup_reset|]; intros x.
        all: rewrite ?in_reset by auto using nodup_set, nodup_reset.
        all: rewrite ?in_set, ?ce_service, ?ce_link by assumption.
        all: intuition eauto. }
    destruct K as (K1 & K2 & K3).
    destruct (IH _ _ F K1 K2 H e E) as [A|A]; [apply K3; exact A|auto].
Qed.

Theorem C67_nothing_else : forall ks hs s,
  Forall (fun k => 0 <= k < 2 ^ 32) ks ->
  node_run (node_start ks) hs = Some s ->
  forall e, In e (cm_errors (snd s)) ->
  exists k, In k ks /\ (e = service_error k \/ e = link_error k).
Proof.
  intros ks hs s F H e E.
  destruct (only_these ks hs (node_start ks) s F) with (e := e) as [[]|A]; auto.
  - cbn. rewrite map_map. apply map_id.
  - constructor.
Qed.
Print Assumptions C67_nothing_else.

(** The program keeps its head exactly if no command names coupler 0. *)
Theorem C67_defined : forall ks hs,
  node_run (node_start ks) hs <> None <-> ~ exists v, In (NCmd 0 v) hs.
Proof. intros. apply node_run_defined. Qed.
Print Assumptions C67_defined.

(** A coupler can be out of service without any alarm telling so. *)
Theorem C67_silent_refuted : exists ks hs s n,
  node_run (node_start ks) hs = Some s /\ nth_error (fst s) 0 = Some n /\
  sn_active n = false /\ cm_errors (snd s) = [].
Proof.
  exists [1], [NCmd 1 0; NCmd 1 100; NPoll 0 true]. eexists. eexists.
  split; [vm_compute; reflexivity|]. vm_compute. auto.
Qed.
Print Assumptions C67_silent_refuted.

Example C67_example :
  let hs := [NPoll 0 true; NPoll 1 true; NCmd 2 0; NPoll 1 true; NCmd 3 0; NCmd 1 1;
             NCmd 9 0; NCmd 1 7] in
  match node_run (node_start [1; 2; 5]) hs with
  | Some (ns, m) => map sn_active ns = [true; false; false] /\
      cm_errors m = [link_error 1; service_error 2; service_error 5]
  | None => False
  end.
Proof. vm_compute. auto. Qed.
