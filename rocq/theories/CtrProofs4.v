(** Proofs about counters: the IO-Link counter, faults of the flow channel, the virtual
    counter. *)
From Coq Require Import ZArith List Bool Lia QArith Qround.
From Verif Require Import Base TimeModel FTextModel FTextProofs FloatModel FloatProofs FloatProofs2 FloatProofs3 AioModel CtrModel CtrSpec CtrProofs CtrProofs2 CtrProofs3.
Import ListNotations.
Open Scope Z_scope.

(** * The total of an IO-Link counter *)

(** [2 ^ 32] as a float. *)
Definition B32 : Z := 1333788672.
Lemma b32 : f_finite B32 = true /\ (f_val B32 == inject_Z (2 ^ 32))%Q.
Proof. split; vm_compute; reflexivity. Qed.
Lemma too_big b : f_isnan b = false -> key B32 <= key b -> f_to_u32 b = None.
Proof.
  intros N KB. unfold f_to_u32. destruct (f_finite b) eqn:F; [|reflexivity]. destruct b32 as (F32 & V32).
  apply (val_le B32 b F32 F) in KB. rewrite V32 in KB. cbv zeta.
  assert (P : (0 <= f_val b)%Q) by (eapply Qle_trans; [|exact KB]; vm_compute; discriminate).
  rewrite quot_floor by exact P. assert (X : 2 ^ 32 <= Qfloor (f_val b)).
  { rewrite <- (Qfloor_Z (2 ^ 32)). apply Qfloor_resp_le. exact KB. }
  rewrite (proj2 (Z.ltb_ge _ _) X), andb_false_r. reflexivity.
Qed.
Lemma fits b : f_isnan b = false -> 0 <= key b < key B32 -> exists q, f_to_u32 b = Some q.
Proof.
  intros N (K0 & K1). destruct b32 as (F32 & V32).
  assert (F : f_finite b = true) by (apply key_finite; change (key B32) with 1333788672 in K1; change INF with 2139095040; lia).
  exists (Qfloor (f_val b)). apply to_u32_pos; [exact F| |].
  - apply val_nonneg_key; assumption.
  - apply (val_lt b B32 F F32) in K1. rewrite V32 in K1.
    rewrite Zlt_Qlt. eapply Qle_lt_trans; [apply Qfloor_le|exact K1].
Qed.
Lemma iol_over c : f_isnan (a_val c) = false -> key OVER <= key (a_val c) -> abs_quantity Iol c = None.
Proof.
  intros N KA. unfold abs_quantity.
  assert (NN : f_isnan (f_mul (f_of_Z 1000) (a_val c)) = false) by (apply mul_is_nn; [reflexivity|vm_compute; discriminate|exact N]).
  apply too_big; [exact NN|]. apply (Z.le_trans _ (key (f_mul (f_of_Z 1000) OVER))); [vm_compute; discriminate|].
  apply mul_mono2; [vm_compute; discriminate|reflexivity|exact NN|exact KA].
Qed.
Lemma iol_under c : f_isnan (a_val c) = false -> 0 <= key (a_val c) <= key UNDER -> exists q, abs_quantity Iol c = Some q.
Proof.
  intros N (K0 & KA). unfold abs_quantity.
  assert (NN : f_isnan (f_mul (f_of_Z 1000) (a_val c)) = false) by (apply mul_is_nn; [reflexivity|vm_compute; discriminate|exact N]).
  apply fits; [exact NN|]. split.
  - change 0 with (key (f_mul (f_of_Z 1000) 0)). apply mul_mono2; [vm_compute; discriminate|reflexivity|exact NN|exact K0].
  - apply (Z.le_lt_trans _ (key (f_mul (f_of_Z 1000) UNDER))); [|vm_compute; reflexivity].
    apply mul_mono2; [vm_compute; discriminate|exact NN|reflexivity|exact KA].
Qed.
Lemma iol_undefined w i c t : f_isnan (a_val c) = false -> key OVER <= key (a_val c) -> flows t i -> i_link i = 0 ->
  cycle w Iol i c = None /\ get_state w Iol i c = None.
Proof.
  intros N KA F L. assert (G : get_state w Iol i c = None).
  { unfold get_state, base_state. cbn [chan_error]. rewrite L. change (0 =? 0) with true. cbv iota.
    rewrite (flows_flowing Iol t i ltac:(discriminate) F), (iol_over c N KA). reflexivity. }
  split; [unfold cycle; rewrite G; reflexivity|exact G].
Qed.

(** * Readings that are not numbers *)

Lemma add_nan a b : f_isnan a = true -> f_isnan (f_add a b) = true.
Proof. intros N. unfold f_add. rewrite N. reflexivity. Qed.
Lemma add_nan2 a b : f_isnan b = true -> f_isnan (f_add a b) = true.
Proof. intros N. unfold f_add. rewrite N, orb_true_r. reflexivity. Qed.
Lemma sub_nan a b : f_isnan a = true -> f_isnan (f_sub a b) = true.
Proof. intros N. unfold f_sub. exact (add_nan a (f_opp b) N). Qed.
Lemma nan_day w k i c c' : f_isnan (i_raw i) = true -> a_first c = false -> d1_on c = true -> i_yday i = day c -> cycle w k i c = Some c' ->
  f_isnan (d1 c') = true /\ a_val c' = a_val c.
Proof.
  intros N F O DY Y. destruct (cycle_parts w k i c c' Y) as (st & c1 & _ & P & _ & _ & _ & _ & PD). cbv zeta in P, PD.
  assert (LT : forall x, f_lt (i_raw i) x = false) by (intros x; unfold f_lt; rewrite N; reflexivity).
  assert (E : calc k (i_raw i) (a_val c) (a_last c) (a_first c) = (f_sub (i_raw i) (a_last c), (a_val c, i_raw i, false))).
  { unfold calc. rewrite F, LT. cbv zeta. assert (X : f_lt 0 (f_sub (i_raw i) (a_last c)) = false).
    { unfold f_lt. rewrite (sub_nan _ _ N), andb_false_r. reflexivity. } rewrite X. reflexivity. }
  rewrite E in P, PD. cbn [fst snd] in P, PD. rewrite O, DY, Z.eqb_refl in PD. unfold abs_part in P. injection P as P1 _ _.
  unfold day_part in PD. injection PD as _ X2 _. rewrite X2, P1. split; [|reflexivity]. apply add_nan2. apply sub_nan. exact N.
Qed.
Lemma nan_stays w k y l : forall c c', f_isnan (d1 c) = true -> day c = y -> Forall (on_day y) l -> Forall keeps_days l ->
  ctr_run w k c l = Some c' -> f_isnan (d1 c') = true /\ day c' = y.
Proof.
  induction l as [|x l IH]; intros c c' N DY OD KD H; cbn [ctr_run] in H; [injection H as <-; auto|].
  inversion OD as [|? ? O1 O2]; subst. inversion KD as [|? ? K1 K2]; subst. destruct (ctr_step w k c x) as [c1|] eqn:E; [|discriminate].
  enough (X : f_isnan (d1 c1) = true /\ day c1 = day c) by (destruct X as (X1 & X2); apply (IH c1 c' X1 X2 O2 K2 H)). clear IH H.
  assert (D : (exists i, x = Cycle i) \/ forall i, x <> Cycle i) by (destruct x; try (right; discriminate); left; eexists; reflexivity).
  destruct D as [(i & ->)|D].
  - cbn [ctr_step on_day] in *. destruct (cycle_parts w k i c c1 E) as (st & c0 & _ & _ & _ & _ & _ & _ & PD). cbv zeta in PD.
    rewrite O1, Z.eqb_refl in PD. unfold day_part in PD. injection PD as X1 X2 X3 X4 X5 X6 X7. rewrite X2, X7. split; [|reflexivity].
    destruct (d1_on c); [apply add_nan; exact N|exact N].
  - destruct (other_parts w k x c c1 D E) as (_ & PD). specialize (PD K1). unfold day_part in PD. injection PD as X1 X2 X3 X4 X5 X6 X7. rewrite X2, X7. auto.
Qed.

(** * Faults of the channel of the flow *)

Lemma faulty_value m l ix mn mx c : channel l ix = Some c -> faulty m c -> fst (AioModel.get_AI m l ix mn mx) = f_of_Z (-1).
Proof.
  intros C (T & W). unfold AioModel.get_AI. rewrite C. cbv zeta.
  assert (T1 : (mtype c =? 461) || (mtype c =? 450) = false) by (destruct T as [->| ->]; reflexivity). rewrite T1.
  assert (T2 : (mtype c =? 466) || (mtype c =? 496) = true) by (destruct T as [->| ->]; reflexivity). rewrite T2.
  destruct W as [->|W].
  - rewrite (of_Z_eq 3 3) by lia. reflexivity.
  - rewrite (of_Z_eq 3 (m (addr c))), (of_Z_le 32761 (m (addr c))) by lia. rewrite (proj2 (Z.eqb_neq 3 _)) by lia. rewrite (proj2 (Z.leb_le 32761 _)) by lia. reflexivity.
Qed.
Lemma shift_error z : - 2 ^ 23 < z < 2 ^ 23 -> forall i, i_flow i = f_add (f_of_Z z) (f_of_Z (-1)) ->
  chan_error Flow i = if z =? 0 then Some S_LOW_ERR else if z =? -1 then Some S_HI_ERR else None.
Proof.
  intros R i E. cbn [chan_error]. rewrite E, (add_int z (-1)) by lia. rewrite (of_Z_eq (z + -1) (-1)), (of_Z_eq (z + -1) (-2)) by lia.
  destruct (Z.eqb_spec z 0) as [->|N0]; [reflexivity|]. rewrite (proj2 (Z.eqb_neq (z + -1) (-1))) by lia.
  destruct (Z.eqb_spec z (-1)) as [->|N1]; [reflexivity|]. rewrite (proj2 (Z.eqb_neq (z + -1) (-2))) by lia. reflexivity.
Qed.

(** * The virtual counter *)

Lemma rises_pos p l : 0 <= rises p l.
Proof. revert p. induction l as [|x l IH]; intros p; cbn [rises]; [lia|]. specialize (IH x). lia. Qed.
Lemma virtual_value l : forall c x, Forall evals_only l -> v_first c = false -> v_val c = f_of_Z x ->
  0 <= x -> 0 <= v_last c < 2 ^ 32 -> x + rises (v_last c) (map fst (readings l)) < 2 ^ 24 ->
  v_val (vrun l c) = f_of_Z (x + rises (v_last c) (map fst (readings l))).
Proof.
  induction l as [|e l IH]; intros c x O F V X L U.
  - cbn in *. rewrite Z.add_0_r. exact V.
  - inversion O as [|? ? O1 O2]; subst. cbn [vrun fold_left]. destruct e; try contradiction; cbn [readings map rises fst] in *.
    + destruct O1 as (R1 & R2). pose proof (rises_pos r (map fst (readings l))) as RP.
      replace (x + (Z.max 0 (r - v_last c) + rises r (map fst (readings l)))) with (x + Z.max 0 (r - v_last c) + rises r (map fst (readings l))) by lia.
      apply (IH (vstep c (VEval r a)) (x + Z.max 0 (r - v_last c)) O2); cbn [vstep v_first v_last v_val]; [reflexivity| |lia|exact R1|lia].
      rewrite F. destruct (Z.ltb_spec (v_last c) r) as [LT|LT].
      * rewrite V. rewrite (u32_small (r - v_last c)) by lia. rewrite (add_int x (r - v_last c)) by lia. rewrite Z.max_r by lia. reflexivity.
      * rewrite V, Z.max_l by lia. f_equal. lia.
    + apply (IH (vstep c VPause) x O2); assumption.
    + apply (IH (vstep c VStart) x O2); assumption.
Qed.
Lemma u32_add a b : u32 (u32 a + b) = u32 (a + b).
Proof. unfold u32. apply Zplus_mod_idemp_l. Qed.
Lemma virtual_abs l : forall c, Forall evals_only l -> v_first c = false -> is_u32 (v_abs c) -> 0 <= v_alast c < 2 ^ 32 ->
  v_abs (vrun l c) = u32 (v_abs c + rises (v_alast c) (map snd (readings l))).
Proof.
  induction l as [|e l IH]; intros c O F A L.
  - cbn in *. rewrite Z.add_0_r. symmetry. apply u32_small. unfold is_u32 in A. lia.
  - inversion O as [|? ? O1 O2]; subst. cbn [vrun fold_left]. destruct e; try contradiction; cbn [readings map rises snd] in *.
    + destruct O1 as (R1 & R2). change (fold_left vstep l ?c) with (vrun l c).
      assert (A1 : is_u32 (v_abs (vstep c (VEval r a)))).
      { cbn [vstep v_abs]. rewrite F. destruct (v_alast c <? a); [|exact A]. unfold is_u32. pose proof (u32_range (v_abs c + (a - v_alast c))). lia. }
      rewrite (IH (vstep c (VEval r a)) O2 eq_refl A1 R2). cbn [vstep v_abs v_alast]. rewrite F.
      destruct (Z.ltb_spec (v_alast c) a) as [LT|LT].
      * rewrite u32_add. f_equal. lia.
      * f_equal. lia.
    + apply (IH (vstep c VPause) O2); assumption.
    + apply (IH (vstep c VStart) O2); assumption.
Qed.
Lemma virtual_idle l0 : forall c, Forall (fun x => x = VPause \/ x = VStart) l0 -> v_val (vrun l0 c) = v_val c /\ v_abs (vrun l0 c) = v_abs c /\ v_first (vrun l0 c) = v_first c.
Proof.
  induction l0 as [|x l0 IH]; intros c O; [auto|]. inversion O as [|? ? O1 O2]; subst. cbn [vrun fold_left].
  destruct (IH (vstep c x) O2) as (A & B & D). unfold vrun in A, B, D. rewrite A, B, D. destruct O1 as [->| ->]; auto.
Qed.

(** * Level switches *)

Lemma ls_run_snoc w max l y s : ls_run w max (l ++ [y]) s = ls_read w max (fst y) (snd y) (snd (ls_run w max l s)).
Proof. unfold ls_run. rewrite fold_left_app. reflexivity. Qed.
Lemma ls_filter w max l s : snd (ls_run w max l s) = di_run w (map snd (filter fst l)) s.
Proof.
  induction l as [|[ok r] l IH] using rev_ind; [reflexivity|]. rewrite ls_run_snoc, filter_app, map_app. cbn [fst snd filter].
  unfold ls_read. destruct ok; cbn [snd map app].
  - rewrite run_snoc, IH. reflexivity.
  - rewrite app_nil_r. exact IH.
Qed.

(** * The start of supervision *)

Lemma quiet_cycle w k ix c0 c st c1 : k <> Pulses -> i_link ix = 0 -> f_le 0 (i_flow ix) = true -> f_le (i_flow ix) (i_min ix) = true ->
  f_eq (i_raw ix) 0 = false -> get_state w k ix c0 = Some (st, c1) -> st = S_WORK -> ctr_step w k c0 (Cycle ix) = Some c ->
  c_st c = S_WORK /\ t_pump c = 0 /\ exists v, abs_part c = (v, i_raw ix, false).
Proof.
  intros K L P0 NF NZ G ST Y. cbn [ctr_step] in Y.
  assert (CE : chan_error k ix = None).
  { destruct k; cbn [chan_error]; [reflexivity| |rewrite L; reflexivity]. apply f_le_spec in P0. destruct P0 as (_ & _ & P0). change (key 0) with 0 in P0.
    destruct (f_eq (i_flow ix) (f_of_Z (-1))) eqn:E; [apply f_eq_spec in E; destruct E as (_ & _ & E); vm_compute (key (f_of_Z (-1))) in E; lia|].
    destruct (f_eq (i_flow ix) (f_of_Z (-2))) eqn:E2; [apply f_eq_spec in E2; destruct E2 as (_ & _ & E2); vm_compute (key (f_of_Z (-2))) in E2; lia|reflexivity]. }
  assert (G2 := G). unfold get_state, base_state in G2. rewrite CE, (no_flow_flowing k K ix NF) in G2. injection G2 as E1 E2.
  destruct (cycle_parts w k ix c0 c Y) as (st' & c1' & G' & PA & _ & S2 & S3 & _). rewrite G in G'. injection G' as <- <-.
  rewrite S2, S3, <- E2. cbn [set_pump c_st t_pump]. split; [|split; [reflexivity|]].
  - cbn [set_pump c_st] in E1. congruence.
  - cbv zeta in PA. rewrite PA. unfold calc. rewrite NZ. destruct (a_first c0); cbn [fst snd]; eexists; reflexivity.
Qed.

(** * From day to day *)

Lemma day_switch w k i c c' p : a_first c = false -> k <> Iol -> i_raw i = shown p -> i_yday i <> day c -> cycle w k i c = Some c' ->
  d1_on c' = d1_on c /\ d1 c' = f_of_Z 0 /\ day c' = i_yday i /\ a_last c' = shown p /\ a_first c' = false.
Proof.
  intros F K I N Y. destruct (cycle_parts w k i c c' Y) as (st & c0 & _ & P & _ & _ & _ & _ & PD). cbv zeta in P, PD.
  rewrite (proj2 (Z.eqb_neq (day c) (i_yday i))) in PD by congruence. unfold day_part in PD. injection PD as X1 X2 X3 X4 X5 X6 X7.
  rewrite F, I in P. pose proof (f_equal (fun x => snd (fst x)) P) as P2. pose proof (f_equal snd P) as P3. unfold abs_part in P2, P3. cbn [fst snd] in P2, P3.
  repeat split; [exact X1|exact X2|exact X7|exact P2|exact P3].
Qed.
Lemma one_day w k ia ib y c0 c1 c2 c3 pa q pb l : k <> Iol -> a_first c0 = false -> d1_on c0 = true -> i_raw ia = shown pa ->
  i_yday ia = y -> day c0 <> y -> cycle w k ia c0 = Some c1 ->
  fed 301 pa l q -> Forall keeps_total l -> Forall keeps_days l -> Forall (on_day y) l -> ctr_run w k c1 l = Some c2 ->
  q <= pb <= q + 301 -> i_raw ib = shown pb -> i_yday ib <> y -> cycle w k ib c2 = Some c3 -> counted pa pb < 2 ^ 24 ->
  yd1 c3 = f_of_Z (counted pa pb) /\ d1 c3 = f_of_Z 0 /\ d1 c2 = f_of_Z (counted pa q).
Proof.
  intros K F O IA DY ND Y1 FD KT KD OD R RB IB NB Y3 U.
  destruct (day_switch w k ia c0 c1 pa F K IA ltac:(congruence) Y1) as (E1 & E2 & E3 & E4 & E5).
  assert (A : abs_part c1 = (a_val c1, shown pa, false)) by (unfold abs_part; rewrite E4, E5; reflexivity).
  assert (D : day_part c1 = (true, f_of_Z 0, yd1 c1, (d2_on c1, d2 c1, yd2 c1), y)) by (unfold day_part; rewrite E1, E2, E3, O, DY; reflexivity).
  pose proof (counted_add pa q pb) as CA. pose proof (counted_pos pa q (fed_le _ _ _ _ FD)). pose proof (counted_pos q pb (proj1 RB)).
  destruct (day_run w k K pa l q FD KT KD y c1 c2 0 _ OD A D ltac:(lia) ltac:(lia) R) as ((v' & A2) & D2).
  rewrite Z.add_0_l in D2. unfold day_part in D2. injection D2 as X1 X2 X3 X4 X5.
  destruct (new_day w k K ib c2 c3 q pb (counted pa q) v' y A2 X1 X2 ltac:(congruence) RB IB NB ltac:(lia) Y3) as (Z1 & Z2 & _).
  rewrite CA in Z1. auto.
Qed.
