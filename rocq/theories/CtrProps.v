(** Properties of filtered inputs, level switches and counters. *)
From Coq Require Import ZArith List Bool Lia QArith.
From Verif Require Import Base TimeModel FTextModel FloatModel CtrModel CtrSpec CtrProofs CtrProofs2 CtrProofs3 CtrProofs4.
From Verif Require AioModel.
Import ListNotations.
Open Scope Z_scope.

(** * C87: the filter of discrete inputs *)

(** A change is reported only if the input has shown the new value in every reading of the
    last [dt] milliseconds. *)
Theorem C87_no_short_signal : forall w t init t0 l r, init = 0 \/ init = 1 -> 0 <= t0 <= t -> t0 < 2 ^ 32 ->
  ordered t (l ++ [r]) -> Forall (fun q => 0 < r_dt q /\ binary q) (l ++ [r]) ->
  f_cur (di_run w (l ++ [r]) (new_filt init t0)) <> f_cur (di_run w l (new_filt init t0)) ->
  f_cur (di_run w (l ++ [r]) (new_filt init t0)) = r_raw r /\
  forall q, In q l -> r_now r - r_now q <= r_dt r -> r_raw q = r_raw r.
Proof.
  intros w t init t0 l r I T U OR P C. apply (no_glitch w t (new_filt init t0) l r); try assumption.
  unfold new_filt. cbn [f_time]. rewrite (u32_small t0) by lia. exact T.
Qed.
(** A value that lasts longer than [dt] is reported. *)
Theorem C87_lasting_signal : forall w t init t0 v l q l' r, 0 <= t0 <= t -> t0 < 2 ^ 32 ->
  ordered t (l ++ q :: l' ++ [r]) -> Forall (fun x => r_raw x = v) (q :: l' ++ [r]) -> 0 <= r_dt r ->
  r_dt r < r_now r - r_now q -> f_cur (di_run w (l ++ q :: l' ++ [r]) (new_filt init t0)) = v.
Proof.
  intros w t init t0 v l q l' r T U OR P D0 D. unfold di_run. rewrite fold_left_app. fold (di_run w l (new_filt init t0)).
  destruct (ordered_app t l q (l' ++ [r]) OR) as (O1 & O2 & O3 & _).
  assert (O4 : ordered t (l ++ [q])).
  { clear - O1 O3 OR. revert t O1 O3 OR. induction l as [|x l IH]; intros t O1 O3 OR; cbn [app ordered] in *; [split; [lia|exact I]|].
    destruct O1 as (A & B). destruct OR as (_ & OR). split; [exact A|]. destruct (ordered_app (r_now x) l q (l' ++ [r]) OR) as (_ & _ & O5 & _). apply IH; assumption. }
  apply (follows w v l' (r_now q) (di_run w l (new_filt init t0)) r q); [|split; [lia|exact O2]|exact P|exact D0|exact D].
  apply (run_time w l t (new_filt init t0)); [|exact O1|exact O4]. unfold new_filt. cbn [f_time]. rewrite (u32_small t0) by lia. exact T.
Qed.
(** The filter ends with the 32 bit time: on a controller with a 64 bit clock every signal
    passes at once after [2 ^ 32] ms. *)
Theorem C87_filter_forever_refuted : forall w init t0 l r, 0 <= r_dt r -> 2 ^ 32 + r_dt r <= r_now r ->
  f_cur (di_run w (l ++ [r]) (new_filt init t0)) = r_raw r.
Proof.
  intros w init t0 l r D T. rewrite run_snoc. apply late; [|exact D|exact T]. apply time_range. unfold new_filt. cbn [f_time].
  pose proof (u32_range t0). lia.
Qed.
Print Assumptions C87_no_short_signal.
Print Assumptions C87_lasting_signal.
Print Assumptions C87_filter_forever_refuted.
Definition r3 n x := {| r_now := n; r_raw := x; r_dt := 100 |}.
Example C87_example : map (fun n => f_cur (di_run 64 (firstn n [r3 1000 0; r3 1050 1; r3 1090 0; r3 1130 1; r3 1180 1; r3 1240 1; r3 1250 0]) (new_filt 0 0))) (seq 1 7)
  = [0; 0; 0; 0; 0; 1; 1].
Proof. vm_compute. reflexivity. Qed.
Example C87_late : map (fun n => f_cur (di_run 64 (firstn n [r3 4294968000 0; r3 4294968001 1; r3 4294968002 0]) (new_filt 0 0))) (seq 1 3) = [0; 1; 0].
Proof. vm_compute. reflexivity. Qed.

(** * C88: level switches *)

(** A lost link makes an upper switch active and a lower one inactive, whatever came before;
    readings during the loss leave no trace. *)
Theorem C88_lost_link : forall w max l ok r s,
  fst (ls_run w max (l ++ [(ok, r)]) s) =
  (if ok then f_cur (di_run w (map snd (filter fst l) ++ [r]) s) else if max then 1 else 0) /\
  ls_active w max false r (snd (ls_run w max l s)) = max.
Proof.
  intros w max l ok r s. rewrite ls_run_snoc. cbn [fst snd]. unfold ls_active, ls_read. rewrite run_snoc, <- (ls_filter w max). split.
  - destruct ok; reflexivity.
  - destruct max; reflexivity.
Qed.
(** A switch on a wire that stays without signal longer than the filter time: the upper one
    reports that the level is reached, the lower one that it is not. *)
Theorem C88_broken_wire : forall w t max l q l' r, 0 <= t ->
  ordered t (l ++ q :: l' ++ [r]) -> Forall (fun x => r_raw x = 0) (q :: l' ++ [r]) -> 0 <= r_dt r ->
  r_dt r < r_now r - r_now q ->
  level_active max (f_cur (di_run w (l ++ q :: l' ++ [r]) (new_filt (if max then 1 else 0) 0))) = max.
Proof.
  intros w t max l q l' r T OR P D0 D. rewrite (C87_lasting_signal w t _ 0 0 l q l' r); try assumption; try lia. destruct max; reflexivity.
Qed.
Print Assumptions C88_lost_link.
Print Assumptions C88_broken_wire.
Example C88_example : map (fun n => fst (ls_run 64 true (firstn n [(true, r3 1000 0); (true, r3 1200 0); (false, r3 1210 0); (true, r3 1220 0)]) (new_filt 1 900))) (seq 1 4)
  = [1; 0; 1; 0].
Proof. vm_compute. reflexivity. Qed.

(** * C89: counting *)

(** The total is exact but for one pulse lost each time the meter passes zero. *)
Theorem C89_total : forall w k y l0 i p l q c, k <> Iol -> Forall keeps_total (l0 ++ Cycle i :: l) -> Forall reads_zero l0 ->
  i_raw i = shown p -> p mod 65536 <> 0 -> fed 301 p l q -> counted p q < 2 ^ 24 ->
  ctr_run w k (new_ctr y) (l0 ++ Cycle i :: l) = Some c -> abs_quantity k c = Some (counted p q).
Proof. intros w k y l0 i p l q c K. exact (total_new w k K y l0 i p l q c). Qed.
(** The value of the plain counter over periods of work: pulses in pauses are not counted;
    the orders are always carried out. *)
Theorem C89_value : forall w y i0 l, (exists p, i_raw i0 = shown p /\ p mod 65536 <> 0) ->
  Forall (fun x => reads (at_start x) (work x)) l -> total l < 2 ^ 24 ->
  exists c, ctr_run w Pulses (new_ctr y) (Cycle i0 :: concat (map calls_of l)) = Some c /\ quantity Pulses c = Some (total l).
Proof. exact periods_new. Qed.
(** What a counter missed in cycles that reported an error is counted later. *)
Theorem C89_catches_up : forall w k p q l1 l2 c c1 c2 v, k <> Iol -> c_val c = f_of_Z v -> c_last c = shown p -> c_first c = false -> 0 <= v ->
  reporting w k (fun st => st <> S_WORK) c l1 -> ctr_run w k c l1 = Some c1 ->
  fed 301 p l2 q -> reporting w k (fun st => st = S_WORK) c1 l2 -> ctr_run w k c1 l2 = Some c2 ->
  v + counted p q < 2 ^ 24 -> c_val c1 = f_of_Z v /\ quantity k c2 = Some (v + counted p q).
Proof.
  intros w k p q l1 l2 c c1 c2 v K V L F P R1 H1 FD R2 H2 U. pose proof (resting w k l1 c c1 R1 H1) as E.
  assert (A : val_part c1 = (f_of_Z v, shown p, false)) by (rewrite E; unfold val_part; rewrite V, L, F; reflexivity).
  pose proof (working w k K p l2 q FD c1 c2 v R2 H2 A P U) as B. unfold val_part in A, B. injection A as A _ _. injection B as B _ _.
  split; [exact A|]. unfold quantity. pose proof (counted_pos p q (fed_le _ _ _ _ FD)).
  destruct k; try congruence; rewrite B; apply to_u32_int; lia.
Qed.
(** Not guaranteed: a meter that steps back by one pulse adds its whole reading. *)
Theorem C89_monotone_refuted : forall w k i c c' a v, k <> Iol -> a_first c = false -> a_last c = f_of_Z a -> a_val c = f_of_Z v ->
  0 < a < 65535 -> i_raw i = f_of_Z (a - 1) -> 0 <= v < 2 ^ 24 -> cycle w k i c = Some c' -> a_val c' = f_of_Z (v + (a - 1)).
Proof.
  intros w k i c c' a v K F L V A I U Y. destruct (cycle_parts w k i c c' Y) as (st & c0 & _ & P & _). cbv zeta in P.
  rewrite F, L, V, I, calc_back in P by (try assumption; lia). unfold abs_part in P. injection P as P _ _. exact P.
Qed.
(** Not guaranteed: pulses after a first reading of zero are lost up to the next reading. *)
Theorem C89_from_zero_refuted : forall w k y i1 i2 c p, k <> Iol -> i_raw i1 = shown 0 -> i_raw i2 = shown p -> 0 < p < 65536 ->
  ctr_run w k (new_ctr y) [Cycle i1; Cycle i2] = Some c -> abs_quantity k c = Some 0.
Proof.
  intros w k y i1 i2 c p K I1 I2 P H. assert (Z0 := counted_refl p).
  rewrite <- Z0. apply (C89_total w k y [Cycle i1] i2 p [] p c K); try assumption.
  - repeat constructor.
  - constructor; [exact I1|constructor].
  - rewrite Z.mod_small by lia. lia.
  - constructor.
  - rewrite counted_refl. lia.
Qed.
Print Assumptions C89_total.
Print Assumptions C89_value.
Print Assumptions C89_catches_up.
Print Assumptions C89_monotone_refuted.
Print Assumptions C89_from_zero_refuted.
Definition ci n p := {| i_now := n; i_raw := shown p; i_flow := f_of_Z 5; i_min := 0; i_motors := [1]; i_dt := 1000; i_yday := 7; i_link := 0 |}.
Example C89_example : match ctr_run 64 Flow (new_ctr 7) (map Cycle [ci 10 65500; ci 20 65530; ci 30 65540; ci 40 65840]) with
  | Some c => abs_quantity Flow c | None => None end = Some (65840 - 65500 - 1).
Proof. vm_compute. reflexivity. Qed.
Example C89_example2 :
  let x a b := {| idle := [ci 50 a]; at_start := a; work := [(ci 60 b, b)] |} in
  option_map (quantity Pulses) (ctr_run 64 Pulses (new_ctr 7) (Cycle (ci 10 5) :: concat (map calls_of [x 10 20; x 100 130]))) = Some (Some 40).
Proof. vm_compute. reflexivity. Qed.

(** * C90: the ceiling of the total *)

(** With at most one pulse per cycle the total stops at [2 ^ 24] for ever. *)
Theorem C90_ceiling : forall w k p l q c c' v, k <> Iol -> fed 1 p l q -> Forall keeps_total l ->
  a_val c = f_of_Z v -> a_last c = shown p -> a_first c = false -> 0 <= v <= 2 ^ 24 ->
  ctr_run w k c l = Some c' -> abs_quantity k c' = Some (Z.min (2 ^ 24) (v + counted p q)).
Proof.
  intros w k p l q c c' v K F T V L FR R H.
  assert (A : abs_part c = (f_of_Z v, shown p, false)) by (unfold abs_part; rewrite V, L, FR; reflexivity).
  pose proof (slow_run w k K p l q F T c c' v A R H) as E. unfold abs_part in E. injection E as E _ _.
  pose proof (counted_pos p q (fed_le _ _ _ _ F)). apply slow_quantity; [exact K|lia|exact E].
Qed.
(** So the claim that each pulse moves the total is false. *)
Theorem C90_keeps_counting_refuted : ~ (forall w p p' i c c', p' = p + 1 -> p' mod 65536 <> 0 -> a_first c = false -> a_last c = shown p ->
  i_raw i = shown p' -> cycle w Pulses i c = Some c' -> abs_quantity Pulses c' <> abs_quantity Pulses c).
Proof.
  intros H. set (c := set_abs (f_of_Z (2 ^ 24)) (shown 5) false (new_ctr 7)).
  destruct (cycle 64 Pulses (ci 10 6) c) as [c'|] eqn:E; [|vm_compute in E; discriminate].
  apply (H 64 5 6 (ci 10 6) c c' eq_refl ltac:(discriminate) eq_refl eq_refl eq_refl E).
  assert (X : option_map (abs_quantity Pulses) (cycle 64 Pulses (ci 10 6) c) = Some (abs_quantity Pulses c)) by (vm_compute; reflexivity).
  rewrite E in X. exact (f_equal (fun o => match o with Some z => z | None => None end) X).
Qed.
Print Assumptions C90_ceiling.
Print Assumptions C90_keeps_counting_refuted.
Example C90_example :
  option_map (abs_quantity Flow) (ctr_run 64 Flow (set_abs (f_of_Z (2 ^ 24 - 1)) (shown 5) false (new_ctr 7)) (map Cycle [ci 10 6; ci 20 7; ci 30 8]))
  = Some (Some 16777216).
Proof. vm_compute. reflexivity. Qed.

(** * C91: supervision of counting *)

(** A counter with a flow channel or a link that worked and saw no flow in a cycle; then liquid flows from
    [t0] on and the meter shows the same number: an error is reported exactly when the
    waiting time has passed. *)
Theorem C91_error_time : forall w k ix c0 cx st c q t0 i0 l t i u dt, k <> Pulses ->
  i_link ix = 0 -> f_le 0 (i_flow ix) = true -> f_le (i_flow ix) (i_min ix) = true -> f_eq (i_raw ix) 0 = false -> f_finite (i_raw ix) = true ->
  get_state w k ix c0 = Some (st, cx) -> st = S_WORK -> ctr_step w k c0 (Cycle ix) = Some c -> abs_quantity k c = Some q ->
  0 < t0 < 2 ^ 32 -> flows t0 i0 -> i_link i0 = 0 -> f_lt 0 (i_flow i0) = true ->
  steady (i_raw ix) dt t0 l t -> t <= u < 2 ^ 32 -> flows u i -> i_dt i = dt -> i_link i = 0 -> f_lt 0 (i_flow i) = true ->
  exists c1 c2, ctr_run w k c (State i0 :: l) = Some c1 /\
    get_state w k i c1 = Some ((if dt <=? u - t0 then S_ERROR else S_WORK), c2).
Proof.
  intros w k ix c0 cx st c q t0 i0 l t i u dt K L1 P1 N1 NZ FR G ST Y Q T0 F0 L0 P0 S U F D L P.
  destruct (quiet_cycle w k ix c0 c st cx K L1 P1 N1 NZ G ST Y) as (E1 & E2 & v & E3).
  exact (supervised w k K (i_raw ix) v q t0 dt i0 l t i u c T0 F0 L0 P0 FR E3 Q E1 E2 S U F D L P).
Qed.
(** Pulses that arrive bring the counter back to work at the next reading. *)
Theorem C91_recovers : forall w ix c0 cx st c p v t0 i0 l t dt p' t1 i1 t2 i2, i_raw ix = shown p -> p mod 65536 <> 0 ->
  i_link ix = 0 -> f_le 0 (i_flow ix) = true -> f_le (i_flow ix) (i_min ix) = true ->
  get_state w Flow ix c0 = Some (st, cx) -> st = S_WORK -> ctr_step w Flow c0 (Cycle ix) = Some c -> a_val c = f_of_Z v ->
  0 < t0 < 2 ^ 32 -> flows t0 i0 -> i_link i0 = 0 -> f_lt 0 (i_flow i0) = true -> steady (shown p) dt t0 l t ->
  p <= p' <= p + 301 -> 0 < counted p p' -> 0 <= v -> v + counted p p' < 2 ^ 24 ->
  flows t1 i1 -> i_link i1 = 0 -> f_lt 0 (i_flow i1) = true -> i_raw i1 = shown p' ->
  flows t2 i2 -> i_link i2 = 0 -> f_lt 0 (i_flow i2) = true ->
  exists c1 c2, ctr_run w Flow c (State i0 :: l ++ [Cycle i1]) = Some c1 /\ get_state w Flow i2 c1 = Some (S_WORK, c2).
Proof.
  intros w ix c0 cx st c p v t0 i0 l t dt p' t1 i1 t2 i2 I NP L1 P1 N1 G ST Y AV T0 F0 L0 P0 S R C V U F1 L1' P1' I1 F2 L2 P2.
  assert (M : - 2 ^ 24 < p mod 65536 < 2 ^ 24) by apply small_mod.
  assert (NZ : f_eq (i_raw ix) 0 = false).
  { rewrite I. unfold shown. change 0 with (f_of_Z 0) at 1. rewrite (FloatProofs3.of_Z_eq (p mod 65536) 0 M ltac:(lia)). exact (proj2 (Z.eqb_neq _ _) NP). }
  destruct (quiet_cycle w Flow ix c0 c st cx ltac:(discriminate) L1 P1 N1 NZ G ST Y) as (E1 & E2 & v0 & E3). rewrite I in E3.
  assert (E4 : v0 = f_of_Z v) by (unfold abs_part in E3; injection E3 as X _ _; congruence). subst v0.
  assert (Q : abs_quantity Flow c = Some v) by (unfold abs_quantity; rewrite AV; apply to_u32_int; lia).
  assert (FR : f_finite (shown p) = true) by (apply FloatProofs3.of_Z_exact; exact M).
  destruct (watch_first w Flow ltac:(discriminate) (shown p) (f_of_Z v) v t0 dt i0 c T0 F0 L0 P0 E3 Q E1 E2) as (d0 & G0 & W0).
  destruct (watch_run w Flow ltac:(discriminate) (shown p) dt t0 l t S (f_of_Z v) v t0 d0 FR ltac:(lia) W0) as (d1 & R1 & W1).
  destruct W1 as (A1 & Q1 & TP & PQ & SS).
  assert (Y1 : exists d2, cycle w Flow i1 d1 = Some d2).
  { destruct (get_state w Flow i1 d1) as [[s d]|] eqn:G1; [apply (cycle_def w Flow i1 d1 s d G1)|].
    exfalso. rewrite (read_step w Flow ltac:(discriminate) t1 i1 d1 v F1 L1' P1' Q1) in G1.
    repeat match type of G1 with context [if ?x then _ else _] => destruct x end; discriminate. }
  destruct Y1 as (d2 & Y1).
  assert (NS : c_st d1 <> S_PAUSE) by (destruct SS as [X|(X & _)]; rewrite X; discriminate).
  destruct (recovers w p p' t1 t2 i1 i2 d1 d2 v R C V U A1 NS ltac:(lia) PQ F1 L1' P1' I1 Y1 F2 L2 P2) as (c2 & G2).
  exists d2, c2. split; [|exact G2]. cbn [ctr_run ctr_step]. rewrite G0, run_app, R1. cbn [ctr_run ctr_step]. rewrite Y1. reflexivity.
Qed.
(** An error outlasts the flow: no reading or cycle without flow ends it. *)
Theorem C91_latched : forall w k l c, k <> Pulses -> Forall no_flow l -> exists c', ctr_run w k c l = Some c' /\ c_st c' = c_st c.
Proof. intros w k l c K. exact (latched w k K l c). Qed.
(** Not guaranteed: after [2 ^ 32] ms a 64 bit clock makes the second reading with flow an
    error, however long the waiting time. *)
Theorem C91_waits_refuted : forall w k t0 t i0 i c c1 q, k <> Pulses -> 2 ^ 32 <= t0 -> t0 mod 2 ^ 32 <> 0 -> t0 <= t -> i_dt i <= 2 ^ 32 ->
  flows t0 i0 -> i_link i0 = 0 -> f_lt 0 (i_flow i0) = true -> flows t i -> i_link i = 0 -> f_lt 0 (i_flow i) = true ->
  c_st c = S_WORK -> t_pump c = 0 -> abs_quantity k c = Some q -> ctr_step w k c (State i0) = Some c1 ->
  exists c2, get_state w k i c1 = Some (S_ERROR, c2).
Proof. intros w k t0 t i0 i c c1 q K. exact (late_error w k K t0 t i0 i c c1 q). Qed.
(** The order to start ends an error; the waiting time then begins anew with the flow. *)
Theorem C91_start_anew : forall w k raw0 raw c v q t0 i0 l t i u dt, k <> Pulses -> c_st c < 0 ->
  f_finite raw = true -> a_val c = v -> a_last c = raw -> a_first c = false -> abs_quantity k c = Some q ->
  0 < t0 < 2 ^ 32 -> flows t0 i0 -> i_link i0 = 0 -> f_lt 0 (i_flow i0) = true ->
  steady raw dt t0 l t -> t <= u < 2 ^ 32 -> flows u i -> i_dt i = dt -> i_link i = 0 -> f_lt 0 (i_flow i) = true ->
  exists c1 c2, ctr_run w k c (Start raw0 :: State i0 :: l) = Some c1 /\
    get_state w k i c1 = Some ((if dt <=? u - t0 then S_ERROR else S_WORK), c2).
Proof.
  intros w k raw0 raw c v q t0 i0 l t i u dt K NG FR A1 A2 A3 Q T0 F0 L0 P0 S U F D L P.
  change (ctr_run w k c (Start raw0 :: State i0 :: l)) with (ctr_run w k (c_start raw0 c) (State i0 :: l)).
  assert (E : c_start raw0 c = set_st S_WORK (set_pump 0 (prev_q c) c)).
  { unfold c_start. replace (c_st c =? S_PAUSE) with false by (unfold S_PAUSE; lia). replace (c_st c <? 0) with true by lia. reflexivity. }
  rewrite E. apply (supervised w k K raw v q t0 dt i0 l t i u); try assumption; try reflexivity.
  unfold abs_part. cbn. rewrite A1, A2, A3. reflexivity.
Qed.
(** Not guaranteed: the plain counter never reports an error, even if motors are assigned. *)
Theorem C91_plain_counter_refuted : forall w y l c i, ctr_run w Pulses (new_ctr y) l = Some c ->
  exists c', get_state w Pulses i c = Some (S_WORK, c') \/ get_state w Pulses i c = Some (S_PAUSE, c').
Proof.
  intros w y l c i H. eexists. rewrite pulses_state.
  destruct (plain_states w l (new_ctr y) c (or_introl eq_refl) H) as [-> | ->]; [left|right]; reflexivity.
Qed.
Print Assumptions C91_error_time.
Print Assumptions C91_recovers.
Print Assumptions C91_latched.
Print Assumptions C91_start_anew.
Print Assumptions C91_waits_refuted.
Print Assumptions C91_plain_counter_refuted.
Definition ck n p f := {| i_now := n; i_raw := shown p; i_flow := f_of_Z f; i_min := f_of_Z 1; i_motors := [0; 1]; i_dt := 1000; i_yday := 7; i_link := 0 |}.
Definition seen w k y l := map (fun n => match ctr_run w k (new_ctr y) (map Cycle (firstn n l)) with Some c => c_st c | None => 0 end) (seq 1 (length l)).
Example C91_example : seen 64 Flow 7 [ck 100 9 0; ck 200 9 5; ck 1199 9 5; ck 1200 9 5; ck 1300 9 0; ck 1400 10 5; ck 1500 11 5; ck 1600 11 5] = [1; 1; 1; -10; -10; -10; 1; 1].
Proof. vm_compute. reflexivity. Qed.
Example C91_late : seen 64 Flow 7 [ck 4294968000 9 0; ck 4294968100 9 5; ck 4294968101 9 5] = [1; 1; -10].
Proof. vm_compute. reflexivity. Qed.
