(** Properties of counters: faults of channels, days, the link, the virtual counter. *)
From Coq Require Import ZArith List Bool Lia QArith.
From Verif Require Import Base TimeModel FTextModel FloatModel AioModel CtrModel CtrSpec CtrProofs CtrProofs2 CtrProofs3 CtrProofs4.
Import ListNotations.
Open Scope Z_scope.

(** * C92: faults of the channel of the flow *)

(** A broken wire and a too large current are reported, both as the lower error, exactly if
    the shift of zero is 0; with the shift -1 both are reported as the upper error; with
    another whole shift neither is. *)
Theorem C92_fault : forall w m l ix mn mx ch z i c, channel l ix = Some ch -> faulty m ch -> - 2 ^ 23 < z < 2 ^ 23 ->
  i_flow i = f_add (f_of_Z z) (fst (AioModel.get_AI m l ix mn mx)) ->
  (z = 0 -> get_state w Flow i c = Some (S_LOW_ERR, c)) /\
  (z = -1 -> get_state w Flow i c = Some (S_HI_ERR, c)) /\
  (z <> 0 -> z <> -1 -> forall st c', get_state w Flow i c = Some (st, c') -> st = c_st c \/ st = S_WORK \/ st = S_ERROR).
Proof.
  intros w m l ix mn mx ch z i c C F R E. rewrite (faulty_value m l ix mn mx ch C F) in E.
  pose proof (shift_error z R i E) as X. unfold get_state. rewrite X. repeat split.
  - intros ->. reflexivity.
  - intros ->. reflexivity.
  - intros N0 N1 st c'. rewrite (proj2 (Z.eqb_neq _ _) N0), (proj2 (Z.eqb_neq _ _) N1). unfold base_state.
    destruct (flowing Flow i); [|intros [= <- <-]; left; reflexivity]. destruct (abs_quantity Flow c); [|discriminate].
    repeat match goal with |- context [if ?x then _ else _] => destruct x end; intros [= <- <-]; auto.
Qed.
(** Not guaranteed: an error of the channel is reported though the channel is sound and
    nothing flows. *)
Definition still_ch : chan := {| addr := 0; mtype := 466 |}.
Theorem C92_only_faults_refuted : ~ (forall w m l ix mn mx ch z i c, channel l ix = Some ch -> ~ faulty m ch ->
  i_flow i = f_add (f_of_Z z) (fst (AioModel.get_AI m l ix mn mx)) -> get_state w Flow i c <> Some (S_LOW_ERR, c)).
Proof.
  intros H. refine (H 64 (fun _ => 0) [Some still_ch] 0 (f_of_Z 0) (f_of_Z 100) still_ch (-1)
    {| i_now := 10; i_raw := 0; i_flow := f_of_Z (-1); i_min := 0; i_motors := []; i_dt := 0; i_yday := 0; i_link := 0 |} (new_ctr 0) eq_refl _ _ _).
  - intros (_ & [X|X]); [discriminate|cbn in X; lia].
  - vm_compute. reflexivity.
  - vm_compute. reflexivity.
Qed.
Print Assumptions C92_fault.
Print Assumptions C92_only_faults_refuted.
Example C92_example : map (fun z => option_map fst (get_state 64 Flow
    {| i_now := 10; i_raw := 0; i_flow := f_add (f_of_Z z) (fst (AioModel.get_AI (fun _ => 32765) [Some still_ch] 0 (f_of_Z 0) (f_of_Z 100)));
       i_min := 0; i_motors := []; i_dt := 0; i_yday := 0; i_link := 0 |} (new_ctr 0))) [0; -1; 5; -3] = [Some (-12); Some (-13); Some 1; Some 1].
Proof. vm_compute. reflexivity. Qed.

(** * C93: daily values *)

(** The value of the day before is what the meter gave from one change of the day to the
    next, as the cycles saw it; the value of the day is what it gave since. *)
Theorem C93_day : forall w k ia ib y c0 c1 c2 c3 pa q pb l, k <> Iol -> a_first c0 = false -> d1_on c0 = true -> i_raw ia = shown pa ->
  i_yday ia = y -> day c0 <> y -> cycle w k ia c0 = Some c1 ->
  fed 301 pa l q -> Forall keeps_total l -> Forall keeps_days l -> Forall (on_day y) l -> ctr_run w k c1 l = Some c2 ->
  q <= pb <= q + 301 -> i_raw ib = shown pb -> i_yday ib <> y -> cycle w k ib c2 = Some c3 -> counted pa pb < 2 ^ 24 ->
  yd1 c3 = f_of_Z (counted pa pb) /\ d1 c3 = f_of_Z 0 /\ d1 c2 = f_of_Z (counted pa q).
Proof. exact one_day. Qed.
(** Before the first pulse nothing is counted for the day. *)
Theorem C93_before : forall w k y l c, Forall keeps_total l -> Forall keeps_days l -> Forall reads_zero l -> Forall (on_day y) l ->
  ctr_run w k (new_ctr y) l = Some c -> d1 c = f_of_Z 0 /\ d2 c = f_of_Z 0 /\ yd1 c = f_of_Z 0 /\ yd2 c = f_of_Z 0.
Proof.
  intros w k y l c KT KD RZ OD H.
  enough (X : forall l c0 c, abs_part c0 = (0, 0, true) -> day_part c0 = (true, 0, 0, (true, 0, 0), y) ->
    Forall keeps_total l -> Forall keeps_days l -> Forall reads_zero l -> Forall (on_day y) l -> ctr_run w k c0 l = Some c -> day_part c = (true, 0, 0, (true, 0, 0), y)).
  { specialize (X l (new_ctr y) c eq_refl eq_refl KT KD RZ OD H). unfold day_part in X. injection X as _ X1 X2 _ X3 X4 _. rewrite X1, X2, X3, X4. repeat split. }
  clear. induction l as [|x l IH]; intros c0 c A D KT KD RZ OD H; cbn [ctr_run] in H; [injection H as <-; exact D|].
  inversion KT as [|? ? KT1 KT2]; subst. inversion KD as [|? ? KD1 KD2]; subst. inversion RZ as [|? ? RZ1 RZ2]; subst. inversion OD as [|? ? OD1 OD2]; subst.
  destruct (ctr_step w k c0 x) as [c1|] eqn:E; [|discriminate].
  assert (X : abs_part c1 = (0, 0, true) /\ day_part c1 = (true, 0, 0, (true, 0, 0), y)).
  { assert (DD : (exists i, x = Cycle i) \/ forall i, x <> Cycle i) by (destruct x; try (right; discriminate); left; eexists; reflexivity).
    destruct DD as [(i & ->)|DD].
    - cbn [ctr_step on_day reads_zero] in *. destruct (cycle_parts w k i c0 c1 E) as (st & c2 & _ & PA & _ & _ & _ & _ & PD). cbv zeta in PA, PD.
      unfold abs_part in A. injection A as A1 A2 A3. unfold day_part in D. injection D as D1 D2 D3 D4 D5 D6 D7.
      rewrite PA, PD, A1, A2, A3, RZ1, D1, D2, D3, D4, D5, D6, D7, OD1, Z.eqb_refl. split; reflexivity.
    - destruct (other_parts w k x c0 c1 DD E) as (PA & PD). rewrite (PA KT1), (PD KD1). split; assumption. }
  destruct X as (X1 & X2). exact (IH c1 c X1 X2 KT2 KD2 RZ2 OD2 H).
Qed.
(** A daily counter that is switched off keeps its value while the day lasts; the other one
    and the totals count on as if nothing had happened. *)
Definition others (n : Z) (c : ctr) := (c_st c, c_val c, a_val c, day c, if n =? 1 then (d2_on c, d2 c, yd2 c) else (d1_on c, d1 c, yd1 c)).
Theorem C93_switched_off : forall w k y n c c1 l c2, ctr_step w k c (DayOff n) = Some c1 -> day c = y ->
  Forall keeps_days l -> Forall (on_day y) l -> ctr_run w k c1 l = Some c2 ->
  (if n =? 1 then d1 c2 = d1 c else d2 c2 = d2 c) /\ others n c1 = others n c.
Proof.
  intros w k y n c c1 l c2 H DY KD OD R. split; [|cbn in H; injection H as <-; unfold others; destruct (n =? 1); reflexivity].
  assert (X : (if n =? 1 then d1_on c1 = false /\ d1 c1 = d1 c else d2_on c1 = false /\ d2 c1 = d2 c) /\ day c1 = y)
    by (cbn in H; injection H as <-; destruct (n =? 1); cbn; auto).
  clear H. revert c1 X KD OD R. induction l as [|x l IH]; intros c1 (X & D) KD OD R; cbn [ctr_run] in R.
  { injection R as <-. destruct (n =? 1); apply X. }
  inversion KD as [|? ? KD1 KD2]; subst. inversion OD as [|? ? OD1 OD2]; subst. destruct (ctr_step w k c1 x) as [c3|] eqn:E; [|discriminate].
  apply (IH c3); try assumption. clear IH R.
  assert (DD : (exists i, x = Cycle i) \/ forall i, x <> Cycle i) by (destruct x; try (right; discriminate); left; eexists; reflexivity).
  destruct DD as [(i & ->)|DD].
  - cbn [ctr_step on_day] in *. destruct (cycle_parts w k i c1 c3 E) as (st & c0 & _ & _ & _ & _ & _ & _ & PD). cbv zeta in PD.
    rewrite D, OD1, Z.eqb_refl in PD. unfold day_part in PD. injection PD as X1 X2 X3 X4 X5 X6 X7.
    rewrite X1, X2, X4, X5, X7. split; [|reflexivity]. destruct (n =? 1); destruct X as (XA & XB); rewrite XA; auto.
  - destruct (other_parts w k x c1 c3 DD E) as (_ & PD). specialize (PD KD1). unfold day_part in PD. injection PD as X1 X2 X3 X4 X5 X6 X7.
    rewrite X1, X2, X4, X5, X7. split; assumption.
Qed.
(** A command for a daily value sets that value and nothing else. *)
Theorem C93_commands : forall w k prev n v c, exists c', ctr_step w k c (SetDay prev n v) = Some c' /\ others n c' = others n c /\
  (if n =? 1 then d1_on c' = d1_on c /\ (d1 c', yd1 c') = (if prev then (d1 c, v) else (v, yd1 c))
   else d2_on c' = d2_on c /\ (d2 c', yd2 c') = (if prev then (d2 c, v) else (v, yd2 c))).
Proof. intros w k prev n v c. eexists. split; [reflexivity|]. unfold others. destruct prev, (n =? 1); cbn; repeat split. Qed.
(** Not guaranteed: one reading that is not a number makes the value of the day one too,
    until the day ends; the total does not change with it. *)
Theorem C93_garbage_refuted : forall w k y i c c1 l c2, f_isnan (i_raw i) = true -> a_first c = false -> d1_on c = true -> i_yday i = day c -> day c = y ->
  cycle w k i c = Some c1 -> Forall (on_day y) l -> Forall keeps_days l -> ctr_run w k c1 l = Some c2 ->
  f_isnan (d1 c2) = true /\ a_val c1 = a_val c.
Proof.
  intros w k y i c c1 l c2 N F O DY D Y OD KD R. destruct (nan_day w k i c c1 N F O DY Y) as (N1 & A). split; [|exact A].
  assert (D1 : day c1 = y).
  { destruct (cycle_parts w k i c c1 Y) as (st & c0 & _ & _ & _ & _ & _ & _ & PD). cbv zeta in PD. rewrite DY, Z.eqb_refl in PD.
    unfold day_part in PD. injection PD as X1 X2 X3 X4 X5 X6 X7. congruence. }
  apply (nan_stays w k y l c1 c2 N1 D1 OD KD R).
Qed.
Print Assumptions C93_day.
Print Assumptions C93_before.
Print Assumptions C93_switched_off.
Print Assumptions C93_commands.
Print Assumptions C93_garbage_refuted.
Definition cd n p y := {| i_now := n; i_raw := shown p; i_flow := 0; i_min := 0; i_motors := []; i_dt := 1000; i_yday := y; i_link := 0 |}.
Example C93_example :
  option_map (fun c => (yd1 c, d1 c)) (ctr_run 64 Pulses (new_ctr 364) (map Cycle [cd 10 5 364; cd 20 25 0; cd 30 65 0; cd 40 105 0; cd 50 106 1]))
  = Some (f_of_Z 81, 0).
Proof. vm_compute. reflexivity. Qed.
Example C93_garbage :
  option_map (fun c => (f_isnan (d1 c), abs_quantity Iol c)) (ctr_run 64 Iol (new_ctr 7) (map Cycle
    [cd 10 5 7; {| i_now := 20; i_raw := NAN; i_flow := 0; i_min := 0; i_motors := []; i_dt := 0; i_yday := 7; i_link := 0 |}; cd 30 65 7; cd 40 70 7]))
  = Some (true, Some 5000).
Proof. vm_compute. reflexivity. Qed.

(** * C94: the total of a counter with a link *)

(** While at most 4294967 have been counted the total in thousandths is defined; from
    4294967.5 on every cycle with flow has undefined behaviour. *)
Theorem C94_range : forall w i c t, f_isnan (a_val c) = false ->
  (0 <= key (a_val c) <= key UNDER -> exists q, abs_quantity Iol c = Some q) /\
  (key OVER <= key (a_val c) -> abs_quantity Iol c = None /\
     (flows t i -> i_link i = 0 -> cycle w Iol i c = None /\ get_state w Iol i c = None)).
Proof.
  intros w i c t N. split; [intros KA; exact (iol_under c N KA)|]. intros KA. split; [exact (iol_over c N KA)|].
  intros F L. exact (iol_undefined w i c t N KA F L).
Qed.
Print Assumptions C94_range.
Definition cio n x := {| i_now := n; i_raw := f_lit x; i_flow := f_of_Z 5; i_min := 0; i_motors := []; i_dt := 100000; i_yday := 7; i_link := 0 |}.
Example C94_example : map (fun l => match ctr_run 64 Iol (new_ctr 7) (map Cycle l) with Some c => abs_quantity Iol c | None => Some (-1) end)
  [[cio 10 (1 # 2); cio 20 (7 # 2)]; [cio 10 1; cio 20 4294969]; [cio 10 1; cio 20 4294969; cio 30 4294969]] = [Some 3000; None; Some (-1)].
Proof. vm_compute. reflexivity. Qed.

(** * C95: the virtual counter *)

(** The value is the sum of the rises of what was given to it since the first reading, the
    total the same modulo [2 ^ 32]; pauses and starts change nothing. *)
Theorem C95_rises : forall l0 r a l, Forall (fun x => x = VPause \/ x = VStart) l0 -> Forall evals_only (VEval r a :: l) ->
  rises r (map fst (readings l)) < 2 ^ 24 ->
  vquantity (vrun (l0 ++ VEval r a :: l) new_vctr) = Some (rises r (map fst (readings l))) /\
  v_abs (vrun (l0 ++ VEval r a :: l) new_vctr) = u32 (rises a (map snd (readings l))).
Proof.
  intros l0 r a l P O U. inversion O as [|? ? O1 O2]; subst. destruct O1 as (R1 & R2).
  assert (E : vrun (l0 ++ VEval r a :: l) new_vctr = vrun l (vstep (vrun l0 new_vctr) (VEval r a))).
  { unfold vrun. rewrite fold_left_app. reflexivity. }
  destruct (virtual_idle l0 new_vctr P) as (V0 & A0 & F0). rewrite E. set (c := vstep (vrun l0 new_vctr) (VEval r a)).
  assert (VC : v_val c = f_of_Z 0) by (unfold c; cbn [vstep v_val]; rewrite F0, V0; reflexivity).
  assert (AC : v_abs c = 0) by (unfold c; cbn [vstep v_abs]; rewrite F0, A0; reflexivity).
  split.
  - unfold vquantity. rewrite (virtual_value l c 0 O2 eq_refl VC ltac:(lia) R1 U). rewrite Z.add_0_l. apply to_u32_int.
    pose proof (rises_pos r (map fst (readings l))). change (v_last c) with r. lia.
  - rewrite (virtual_abs l c O2 eq_refl); [|rewrite AC; unfold is_u32; lia|exact R2]. rewrite AC. reflexivity.
Qed.
(** Not guaranteed: a paused counter does not count. *)
Theorem C95_pause_refuted : ~ (forall l r a, vquantity (vrun (l ++ [VPause; VEval r a]) new_vctr) = vquantity (vrun l new_vctr)).
Proof. intros H. specialize (H [VEval 5 5] 9 9). vm_compute in H. discriminate. Qed.
(** Not guaranteed: every rise is counted; above [2 ^ 24] rises by one are lost. *)
Theorem C95_keeps_counting_refuted : ~ (forall l r a q, vquantity (vrun (l ++ [VEval r a]) new_vctr) = Some q ->
  exists q', vquantity (vrun (l ++ [VEval r a; VEval (r + 1) (a + 1)]) new_vctr) = Some q' /\ q < q').
Proof.
  intros H. destruct (H [VEval 0 0] 16777216 0 16777216) as (q' & E & L); [vm_compute; reflexivity|].
  assert (X : vquantity (vrun ([VEval 0 0] ++ [VEval 16777216 0; VEval (16777216 + 1) (0 + 1)]) new_vctr) = Some 16777216) by (vm_compute; reflexivity).
  rewrite X in E. injection E as <-. lia.
Qed.
Print Assumptions C95_rises.
Print Assumptions C95_pause_refuted.
Print Assumptions C95_keeps_counting_refuted.
Example C95_example : let c := vrun [VPause; VEval 100 7; VStart; VEval 130 9; VEval 2 9; VEval 5 20] new_vctr in (vquantity c, v_abs c) = (Some 33, 13).
Proof. vm_compute. reflexivity. Qed.
