(** Proofs about counters: the value between start and pause, supervision, links. *)
From Coq Require Import ZArith List Bool Lia QArith Qround.
From Verif Require Import Base TimeModel FTextModel FTextProofs FloatModel FloatProofs FloatProofs2 FloatProofs3 CtrModel CtrSpec CtrProofs CtrProofs2.
Import ListNotations.
Open Scope Z_scope.

(** * The plain counter: the value over periods *)

Lemma pulses_state w i c : get_state w Pulses i c = Some (c_st c, set_pump 0 (prev_q c) c).
Proof.
  unfold get_state, base_state, flowing. cbn [chan_error]. change (f_le 0 0) with true. rewrite orb_true_r. reflexivity.
Qed.
Lemma pulses_cycle w i c : exists c', cycle w Pulses i c = Some c' /\ c_st c' = c_st c /\
  val_part c' = (if c_st c =? S_WORK then snd (calc Pulses (i_raw i) (c_val c) (c_last c) (c_first c)) else val_part c).
Proof.
  destruct (cycle w Pulses i c) as [c'|] eqn:Y.
  - exists c'. split; [reflexivity|]. destruct (cycle_parts w Pulses i c c' Y) as (st & c1 & G & _ & V & S1 & _).
    rewrite pulses_state in G. injection G as <- <-. cbv zeta in V. rewrite S1. split; [reflexivity|]. rewrite V.
    destruct (c_st c =? S_WORK); [|reflexivity]. destruct (snd (calc Pulses (i_raw i) (c_val c) (c_last c) (c_first c))) as [[a b] d]. reflexivity.
  - unfold cycle in Y. rewrite pulses_state in Y. discriminate.
Qed.
Lemma idle_run w l : forall c, c_st c = S_PAUSE -> exists c', ctr_run w Pulses c (map Cycle l) = Some c' /\ c_st c' = S_PAUSE /\ val_part c' = val_part c.
Proof.
  induction l as [|i l IH]; intros c P; cbn [map ctr_run ctr_step]; [exists c; auto|].
  destruct (pulses_cycle w i c) as (c1 & -> & S1 & V1). rewrite P in V1. change (S_PAUSE =? S_WORK) with false in V1. cbv iota in V1.
  destruct (IH c1 ltac:(congruence)) as (c' & R & S2 & V2). exists c'. rewrite R. repeat split; congruence.
Qed.
Lemma reads_le l : forall p, reads p l -> p <= last (map snd l) p.
Proof.
  induction l as [|[i p'] l IH]; intros p R; [cbn; lia|]. cbn [reads] in R. destruct R as (R & _ & R2). specialize (IH p' R2).
  cbn [map]. change (snd (i, p')) with p'. destruct l as [|y l]; [cbn in *; lia|]. cbn [map] in *.
  replace (last (p' :: snd y :: map snd l) p) with (last (snd y :: map snd l) p'); [lia|].
  clear. revert p'. induction (map snd l) as [|z r IH] in y |- *; intros p'; [reflexivity|].
  change (last (snd y :: z :: r) p') with (last (z :: r) p'). change (last (p' :: snd y :: z :: r) p) with (last (z :: r) p).
  destruct r as [|z2 r]; [reflexivity|]. clear. revert z z2. induction r as [|b r IH]; intros z z2; [reflexivity|]. apply (IH z2 b).
Qed.
Lemma last_indep (a : Z) l d e : last (a :: l) d = last (a :: l) e.
Proof. revert a. induction l as [|b l IH]; intros a; [reflexivity|]. exact (IH b). Qed.
Lemma last_cons (a : Z) l d : last (a :: l) d = last l a.
Proof. destruct l as [|b l]; [reflexivity|]. change (last (a :: b :: l) d) with (last (b :: l) d). apply last_indep. Qed.
Lemma work_run w l : forall p c v, reads p l -> c_st c = S_WORK -> val_part c = (f_of_Z v, shown p, false) -> 0 <= v ->
  v + counted p (last (map snd l) p) < 2 ^ 24 ->
  exists c', ctr_run w Pulses c (map (fun x => Cycle (fst x)) l) = Some c' /\ c_st c' = S_WORK /\
    val_part c' = (f_of_Z (v + counted p (last (map snd l) p)), shown (last (map snd l) p), false).
Proof.
  induction l as [|[i p'] l IH]; intros p c v R P A V U.
  - cbn in *. exists c. rewrite counted_refl, Z.add_0_r in *. auto.
  - pose proof (reads_le _ _ R) as RL. cbn [reads] in R. destruct R as (R & I & R2). pose proof (reads_le _ _ R2) as RL2.
    cbn [map] in *. change (snd (i, p')) with p' in *. rewrite last_cons in *. cbn [map ctr_run ctr_step fst].
    destruct (pulses_cycle w i c) as (c1 & -> & S1 & V1). rewrite P in V1. change (S_WORK =? S_WORK) with true in V1. cbv iota in V1.
    unfold val_part in A. injection A as A1 A2 A3.
    pose proof (counted_add p p' (last (map snd l) p')) as CA. pose proof (counted_pos p p' (proj1 R)) as CP. pose proof (counted_pos p' _ RL2) as CP2.
    rewrite A1, A2, A3, I, calc_total in V1 by (try discriminate; lia). cbn [snd] in V1.
    destruct (IH p' c1 (v + counted p p') R2 ltac:(congruence) V1 ltac:(lia) ltac:(lia)) as (c' & R' & S2 & V2).
    exists c'. split; [exact R'|]. split; [exact S2|]. rewrite V2. rewrite <- CA, Z.add_assoc. reflexivity.
Qed.
Lemma period_run w x : forall c v, reads (at_start x) (work x) -> c_first c = false -> c_val c = f_of_Z v -> 0 <= v ->
  v + counted (at_start x) (at_end x) < 2 ^ 24 ->
  exists c', ctr_run w Pulses c (calls_of x) = Some c' /\ c_first c' = false /\ c_val c' = f_of_Z (v + counted (at_start x) (at_end x)).
Proof.
  intros c v R F A V U. unfold calls_of, at_end in *. pose proof (counted_pos _ _ (reads_le _ _ R)) as CP.
  assert (QV : quantity Pulses c = Some v) by (unfold quantity; rewrite A; apply to_u32_int; lia).
  cbn [ctr_run ctr_step]. rewrite QV, run_app.
  destruct (idle_run w (idle x) (pause c) eq_refl) as (c1 & -> & S1 & V1). cbn [ctr_run ctr_step].
  unfold c_start. rewrite S1. change (S_PAUSE =? S_PAUSE) with true. cbv iota.
  set (c2 := set_pump 0 _ _).
  assert (V2 : val_part c2 = (f_of_Z v, shown (at_start x), false)).
  { unfold val_part in V1. cbn in V1. injection V1 as X1 X2 X3. unfold c2, val_part. cbn. rewrite X1, X3, A, F. reflexivity. }
  destruct (work_run w (work x) (at_start x) c2 v R eq_refl V2 V U) as (c' & R' & _ & V').
  exists c'. rewrite R'. unfold val_part in V'. injection V' as X1 X2 X3. auto.
Qed.
Lemma total_pos l : Forall (fun x => reads (at_start x) (work x)) l -> 0 <= total l.
Proof.
  induction 1 as [|x l R _ IH]; cbn [total]; [lia|]. pose proof (counted_pos _ _ (reads_le _ _ R)). unfold at_end. lia.
Qed.
Lemma periods_run w l : forall c v, Forall (fun x => reads (at_start x) (work x)) l -> c_first c = false -> c_val c = f_of_Z v -> 0 <= v ->
  v + total l < 2 ^ 24 -> exists c', ctr_run w Pulses c (concat (map calls_of l)) = Some c' /\ c_val c' = f_of_Z (v + total l).
Proof.
  induction l as [|x l IH]; intros c v R F A V U.
  - exists c. cbn in *. rewrite Z.add_0_r. auto.
  - inversion R as [|? ? R1 R2]; subst. cbn [map concat total] in *. rewrite run_app.
    pose proof (total_pos l R2) as TP. pose proof (counted_pos _ _ (reads_le _ _ R1)) as CP. fold (at_end x) in CP.
    destruct (period_run w x c v R1 F A V ltac:(lia)) as (c1 & -> & F1 & A1).
    destruct (IH c1 _ R2 F1 A1 ltac:(lia) ltac:(lia)) as (c' & R' & A'). exists c'. rewrite R', A'. split; [reflexivity|]. f_equal. lia.
Qed.
Lemma periods_new w y i0 l : (exists p, i_raw i0 = shown p /\ p mod 65536 <> 0) ->
  Forall (fun x => reads (at_start x) (work x)) l -> total l < 2 ^ 24 ->
  exists c', ctr_run w Pulses (new_ctr y) (Cycle i0 :: concat (map calls_of l)) = Some c' /\ quantity Pulses c' = Some (total l).
Proof.
  intros (p & I & N) R U. cbn [ctr_run ctr_step]. destruct (pulses_cycle w i0 (new_ctr y)) as (c1 & -> & _ & V1).
  cbn [new_ctr c_st c_val c_last c_first] in V1. change (S_WORK =? S_WORK) with true in V1. cbv iota in V1.
  assert (X : f_eq (shown p) 0 = false).
  { unfold shown. change 0 with (f_of_Z 0) at 1. rewrite (of_Z_eq (p mod 65536) 0 (small_mod p) ltac:(lia)). exact (proj2 (Z.eqb_neq _ _) N). }
  rewrite I in V1. unfold calc in V1. rewrite X in V1. cbn [snd] in V1. unfold val_part in V1. injection V1 as X1 X2 X3.
  destruct (periods_run w l c1 0 R X3 X1 ltac:(lia) ltac:(lia)) as (c' & R' & A'). exists c'. split; [exact R'|].
  rewrite Z.add_0_l in A'. unfold quantity. rewrite A'. apply to_u32_int. pose proof (total_pos l R). lia.
Qed.

(** * Counting after an error *)

Section VALUE.
Variables (w : Z) (k : ckind).
Hypothesis K : k <> Iol.

Lemma resting l : forall c c', reporting w k (fun st => st <> S_WORK) c l -> ctr_run w k c l = Some c' -> val_part c' = val_part c.
Proof.
  induction l as [|x l IH]; intros c c' R H; cbn [ctr_run reporting] in *; [injection H as <-; reflexivity|].
  destruct R as (L & P & c1 & E & R). rewrite E in H. rewrite (IH c1 c' R H). clear IH R H. destruct x; try contradiction.
  - destruct (P i eq_refl) as (st & c0 & G & N). cbn [ctr_step] in E. destruct (cycle_parts w k i c c1 E) as (st' & c0' & G' & _ & V & _).
    cbv zeta in V. rewrite V. replace st' with st by congruence. rewrite (proj2 (Z.eqb_neq _ _) N). reflexivity.
  - cbn [ctr_step] in E. destruct (get_state w k i c) as [[st c0]|] eqn:G; [|discriminate]. injection E as <-.
    apply (get_state_parts w k i c st c0 G).
Qed.
Lemma working p l q : fed 301 p l q -> forall c c' v, reporting w k (fun st => st = S_WORK) c l -> ctr_run w k c l = Some c' ->
  val_part c = (f_of_Z v, shown p, false) -> 0 <= v -> v + counted p q < 2 ^ 24 ->
  val_part c' = (f_of_Z (v + counted p q), shown q, false).
Proof.
  induction 1 as [p|p p' q i l R I F IH|p q x l N F IH]; intros c c' v RP H A V U; cbn [ctr_run reporting] in *.
  - injection H as <-. rewrite counted_refl, Z.add_0_r. exact A.
  - destruct RP as (_ & P & c1 & E & RP). rewrite E in H. destruct (P i eq_refl) as (st & c0 & G & ->). cbn [ctr_step] in E.
    destruct (cycle_parts w k i c c1 E) as (st' & c0' & G' & _ & VV & _). cbv zeta in VV. replace st' with S_WORK in VV by congruence.
    change (S_WORK =? S_WORK) with true in VV. cbv iota in VV. unfold val_part in A. injection A as A1 A2 A3. rewrite A1, A2, A3, I in VV.
    pose proof (counted_add p p' q) as CA. pose proof (counted_pos p' q (fed_le _ _ _ _ F)) as CP. pose proof (counted_pos p p' (proj1 R)) as CP2.
    rewrite calc_total in VV by (try assumption; lia). cbn [fst snd] in VV. rewrite <- CA, Z.add_assoc.
    apply (IH c1 c' (v + counted p p') RP H VV); lia.
  - destruct RP as (L & P & c1 & E & RP). rewrite E in H. apply (IH c1 c' v RP H); [|exact V|exact U]. rewrite <- A.
    destruct x; try contradiction; [exfalso; apply (N i); reflexivity|]. cbn [ctr_step] in E.
    destruct (get_state w k i c) as [[st c0]|] eqn:G; [|discriminate]. injection E as <-. apply (get_state_parts w k i c st c0 G).
Qed.
End VALUE.

(** * Supervision *)

Lemma flows_flowing k t i : k <> Pulses -> flows t i -> flowing k i = true.
Proof.
  intros K (_ & L & M). unfold flowing. apply f_lt_spec in L. destruct L as (L1 & L2 & L3).
  assert (E : f_le (i_flow i) (i_min i) = false).
  { destruct (f_le (i_flow i) (i_min i)) eqn:E; [|reflexivity]. apply f_le_spec in E. lia. }
  assert (M' : (match i_motors i with [] => false | _ => negb (existsb (fun s => s =? 1) (i_motors i)) end) = false).
  { destruct M as [->|M]; [reflexivity|]. destruct (i_motors i) as [|a r] eqn:Q; [contradiction|]. rewrite (proj2 (existsb_exists _ _)); [reflexivity|].
    exists 1. split; [exact M|reflexivity]. }
  rewrite M'. destruct k; [congruence|rewrite E; reflexivity|rewrite E; reflexivity].
Qed.
Lemma no_chan_error k i : i_link i = 0 -> f_lt 0 (i_flow i) = true -> chan_error k i = None.
Proof.
  intros L P. destruct k; cbn [chan_error]; [reflexivity| |rewrite L; reflexivity]. apply f_lt_spec in P. destruct P as (_ & P2 & P3). change (key 0) with 0 in P3.
  destruct (f_eq (i_flow i) (f_of_Z (-1))) eqn:E; [apply f_eq_spec in E; destruct E as (_ & _ & E); vm_compute (key (f_of_Z (-1))) in E; lia|].
  destruct (f_eq (i_flow i) (f_of_Z (-2))) eqn:E2; [apply f_eq_spec in E2; destruct E2 as (_ & _ & E2); vm_compute (key (f_of_Z (-2))) in E2; lia|reflexivity].
Qed.
Lemma sub_self x : f_finite x = true -> f_sub x x = 0.
Proof.
  intros F. unfold f_sub. rewrite add_finite by (rewrite ?opp_finite; exact F). rewrite (proj1 (opp_parts x)).
  assert (E : (f_val x + f_val (f_opp x) == 0)%Q) by (rewrite opp_val; ring).
  replace (f_neg x && negb (f_neg x)) with false by (destruct (f_neg x); reflexivity). rewrite (round_comp _ _ E). reflexivity.
Qed.
Lemma lt_self x : f_lt x x = false.
Proof. unfold f_lt. rewrite Z.ltb_irrefl, andb_false_r. reflexivity. Qed.
Lemma calc_same k x v : f_finite x = true -> calc k x v x false = (0, (v, x, false)).
Proof. intros F. unfold calc. rewrite lt_self, sub_self by exact F. reflexivity. Qed.

Section WATCH.
Variables (w : Z) (k : ckind).
Hypothesis K : k <> Pulses.

(** The step of one reading while liquid flows. *)
Lemma read_step t i c q : flows t i -> i_link i = 0 -> f_lt 0 (i_flow i) = true -> abs_quantity k c = Some q ->
  get_state w k i c =
  (if (c_st c =? S_PAUSE) || (t_pump c =? 0) then Some (c_st c, set_pump (u32 t) q c)
   else if negb (q =? prev_q c) then Some (S_WORK, set_st S_WORK (set_pump (u32 t) q c))
   else if get_delta_millisec w t (t_pump c) <? i_dt i then Some (c_st c, c) else Some (S_ERROR, set_st S_ERROR c)).
Proof.
  intros F L P Q. unfold get_state, base_state. rewrite (no_chan_error k i L P), (flows_flowing k t i K F), Q. destruct F as (<- & _ & _).
  assert (D : pump_dt k i = i_dt i) by (destruct k; [congruence|reflexivity|reflexivity]). rewrite D.
  repeat match goal with |- context [if ?x then _ else _] => destruct x end; reflexivity.
Qed.
Definition still raw c := exists v, abs_part c = (v, raw, false).
Lemma cycle_still raw i c c' v : f_finite raw = true -> abs_part c = (v, raw, false) -> i_raw i = raw -> cycle w k i c = Some c' ->
  abs_part c' = (v, raw, false) /\ exists st c1, get_state w k i c = Some (st, c1) /\ c_st c' = c_st c1 /\ t_pump c' = t_pump c1 /\ prev_q c' = prev_q c1.
Proof.
  intros F A I Y. destruct (cycle_parts w k i c c' Y) as (st & c1 & G & P & _ & S1 & S2 & S3 & _). cbv zeta in P.
  unfold abs_part in A. injection A as A1 A2 A3. rewrite A1, A2, A3, I, calc_same in P by exact F. cbn [fst snd] in P.
  split; [exact P|]. exists st, c1. auto.
Qed.
Lemma quantity_part c c' : abs_part c' = abs_part c -> abs_quantity k c' = abs_quantity k c.
Proof. unfold abs_part, abs_quantity. intros [= E _ _]. rewrite E. reflexivity. Qed.
Lemma cycle_def i c st c1 : get_state w k i c = Some (st, c1) -> exists c', cycle w k i c = Some c'.
Proof. intros G. unfold cycle. rewrite G. cbv zeta. destruct (st =? S_WORK); eexists; reflexivity. Qed.

(** After the first reading at [t0]. *)
Definition watch (raw v q t0 dt t : Z) (c : ctr) : Prop :=
  abs_part c = (v, raw, false) /\ abs_quantity k c = Some q /\ t_pump c = t0 /\ prev_q c = q /\
  (c_st c = S_WORK \/ (c_st c = S_ERROR /\ dt <= t - t0)).
Lemma watch_step raw v q t0 dt t t' i c c1 st : 0 < t0 <= t -> t <= t' < 2 ^ 32 -> flows t' i -> i_dt i = dt -> i_link i = 0 -> f_lt 0 (i_flow i) = true ->
  watch raw v q t0 dt t c -> get_state w k i c = Some (st, c1) ->
  watch raw v q t0 dt t' c1 /\ st = c_st c1 /\ st = (if dt <=? t' - t0 then S_ERROR else S_WORK).
Proof.
  intros T0 T F D L P (A & Q & TP & PQ & S1) G. rewrite (read_step t' i c q F L P Q), D, TP, PQ, Z.eqb_refl in G. cbn [negb] in G.
  assert (NP : (c_st c =? S_PAUSE) = false) by (destruct S1 as [->|(-> & _)]; reflexivity). rewrite NP in G.
  assert (NT : (t0 =? 0) = false) by (apply Z.eqb_neq; lia). rewrite NT in G. cbn [orb] in G. rewrite delta_ge in G by lia.
  destruct (Z.ltb_spec (t' - t0) dt) as [U|U].
  - injection G as <- <-. rewrite (proj2 (Z.leb_gt _ _) U). assert (S2 : c_st c = S_WORK) by (destruct S1 as [|(_ & S1)]; [assumption|lia]).
    repeat split; auto.
  - injection G as <- <-. rewrite (proj2 (Z.leb_le _ _) U). repeat split; auto.
Qed.
Lemma watch_run raw dt t l u : steady raw dt t l u -> forall v q t0 c, f_finite raw = true -> 0 < t0 <= t -> watch raw v q t0 dt t c ->
  exists c', ctr_run w k c l = Some c' /\ watch raw v q t0 dt u c'.
Proof.
  induction 1 as [t|t t' u i l T F D L P ST IH|t t' u i l T F D L P I ST IH]; intros v q t0 c FR T0 W; cbn [ctr_run ctr_step].
  - exists c. auto.
  - destruct (get_state w k i c) as [[st c1]|] eqn:G.
    + destruct (watch_step raw v q t0 dt t t' i c c1 st T0 T F D L P W G) as (W1 & _). apply IH; [exact FR|lia|exact W1].
    + exfalso. destruct W as (_ & Q & _). rewrite (read_step t' i c q F L P Q) in G.
      repeat match type of G with context [if ?x then _ else _] => destruct x end; discriminate.
  - destruct (get_state w k i c) as [[st c1]|] eqn:G.
    + destruct (watch_step raw v q t0 dt t t' i c c1 st T0 T F D L P W G) as (W1 & _).
      destruct (cycle_def i c st c1 G) as (c2 & Y). rewrite Y. apply IH; [exact FR|lia|]. pose proof W as (A & Q & _).
      destruct (cycle_still raw i c c2 v FR A I Y) as (A2 & st' & c1' & G' & S1 & S2 & S3). rewrite G in G'. injection G' as <- <-.
      destruct W1 as (_ & _ & W1). unfold watch. rewrite S1, S2, S3. split; [exact A2|]. split; [|exact W1].
      rewrite <- Q. apply quantity_part. congruence.
    + exfalso. destruct W as (_ & Q & _). rewrite (read_step t' i c q F L P Q) in G.
      repeat match type of G with context [if ?x then _ else _] => destruct x end; discriminate.
Qed.
Lemma watch_first raw v q t0 dt i c : 0 < t0 < 2 ^ 32 -> flows t0 i -> i_link i = 0 -> f_lt 0 (i_flow i) = true ->
  abs_part c = (v, raw, false) -> abs_quantity k c = Some q -> c_st c = S_WORK -> t_pump c = 0 ->
  exists c1, get_state w k i c = Some (S_WORK, c1) /\ watch raw v q t0 dt t0 c1.
Proof.
  intros T F L P A Q S1 TP. rewrite (read_step t0 i c q F L P Q), S1, TP. cbn [orb Z.eqb]. change (S_WORK =? S_PAUSE) with false. cbn [orb].
  eexists. split; [reflexivity|]. unfold watch. cbn. rewrite (u32_small t0) by lia. repeat split; auto.
Qed.
Lemma supervised raw v q t0 dt i0 l t i u c : 0 < t0 < 2 ^ 32 -> flows t0 i0 -> i_link i0 = 0 -> f_lt 0 (i_flow i0) = true ->
  f_finite raw = true -> abs_part c = (v, raw, false) -> abs_quantity k c = Some q -> c_st c = S_WORK -> t_pump c = 0 ->
  steady raw dt t0 l t -> t <= u < 2 ^ 32 -> flows u i -> i_dt i = dt -> i_link i = 0 -> f_lt 0 (i_flow i) = true ->
  exists c1 c2, ctr_run w k c (State i0 :: l) = Some c1 /\ get_state w k i c1 = Some ((if dt <=? u - t0 then S_ERROR else S_WORK), c2).
Proof.
  intros T0 F0 L0 P0 FR A Q S1 TP ST U F D L P. destruct (watch_first raw v q t0 dt i0 c T0 F0 L0 P0 A Q S1 TP) as (c0 & G & W).
  cbn [ctr_run ctr_step]. rewrite G. destruct (watch_run raw dt t0 l t ST v q t0 c0 FR ltac:(lia) W) as (c1 & R & W1).
  assert (TT : t0 <= t) by (clear - ST; induction ST; lia).
  destruct (get_state w k i c1) as [[st c2]|] eqn:G2.
  - exists c1, c2. split; [exact R|]. destruct (watch_step raw v q t0 dt t u i c1 c2 st ltac:(lia) U F D L P W1 G2) as (_ & _ & ->). exact G2.
  - exfalso. destruct W1 as (_ & Q1 & _). rewrite (read_step u i c1 q F L P Q1) in G2.
    repeat match type of G2 with context [if ?x then _ else _] => destruct x end; discriminate.
Qed.

Lemma no_flow_flowing i : f_le (i_flow i) (i_min i) = true -> flowing k i = false.
Proof. intros E. unfold flowing. destruct k; [congruence| |]; rewrite E, orb_true_r; reflexivity. Qed.
Lemma latched l : forall c, Forall no_flow l -> exists c', ctr_run w k c l = Some c' /\ c_st c' = c_st c.
Proof.
  induction l as [|x l IH]; intros c N; cbn [ctr_run]; [exists c; auto|]. inversion N as [|? ? N1 N2]; subst.
  assert (X : exists c1, ctr_step w k c x = Some c1 /\ c_st c1 = c_st c).
  { assert (G : forall i, f_le (i_flow i) (i_min i) = true -> exists st c1, get_state w k i c = Some (st, c1) /\ c_st c1 = c_st c).
    { intros i E. unfold get_state, base_state. rewrite (no_flow_flowing i E). destruct (chan_error k i); do 2 eexists; (split; [reflexivity|reflexivity]). }
    destruct x; try contradiction; cbn [no_flow ctr_step] in *; destruct (G i N1) as (st & c1 & G1 & S1).
    - destruct (cycle_def i c st c1 G1) as (c2 & Y). exists c2. split; [exact Y|]. destruct (cycle_parts w k i c c2 Y) as (st' & c1' & G' & _ & _ & S2 & _).
      rewrite G1 in G'. injection G' as <- <-. congruence.
    - rewrite G1. exists c1. auto. }
  destruct X as (c1 & -> & S1). destruct (IH c1 N2) as (c' & R & S2). exists c'. split; [exact R|congruence].
Qed.
Lemma late_error t0 t i0 i c c1 q : 2 ^ 32 <= t0 -> t0 mod 2 ^ 32 <> 0 -> t0 <= t -> i_dt i <= 2 ^ 32 ->
  flows t0 i0 -> i_link i0 = 0 -> f_lt 0 (i_flow i0) = true -> flows t i -> i_link i = 0 -> f_lt 0 (i_flow i) = true ->
  c_st c = S_WORK -> t_pump c = 0 -> abs_quantity k c = Some q -> ctr_step w k c (State i0) = Some c1 ->
  exists c2, get_state w k i c1 = Some (S_ERROR, c2).
Proof.
  intros T0 NZ T D F0 L0 P0 F L P S1 TP Q H. cbn [ctr_step] in H. rewrite (read_step t0 i0 c q F0 L0 P0 Q), S1, TP in H.
  change (S_WORK =? S_PAUSE) with false in H. cbn [orb Z.eqb] in H. injection H as <-.
  rewrite (read_step t i (set_pump (u32 t0) q c) q F L P Q). cbn [c_st t_pump prev_q set_pump]. rewrite S1. change (S_WORK =? S_PAUSE) with false.
  unfold u32. rewrite (proj2 (Z.eqb_neq _ _) NZ), Z.eqb_refl. cbn [orb negb].
  assert (R : 0 <= t0 mod 2 ^ 32 <= t0 - 2 ^ 32).
  { pose proof (Z.mod_pos_bound t0 (2 ^ 32) ltac:(lia)). pose proof (Z.div_mod t0 (2 ^ 32) ltac:(lia)).
    assert (1 <= t0 / 2 ^ 32) by (apply Z.div_le_lower_bound; lia). lia. }
  rewrite delta_ge by lia. rewrite (proj2 (Z.ltb_ge _ _)) by lia. eexists. reflexivity.
Qed.
End WATCH.

(** Pulses that arrive end the error. *)
Lemma recovers w p p' t t' i i' c c' v : p <= p' <= p + 301 -> 0 < counted p p' -> 0 <= v -> v + counted p p' < 2 ^ 24 ->
  abs_part c = (f_of_Z v, shown p, false) -> c_st c <> S_PAUSE -> t_pump c <> 0 -> prev_q c = v ->
  flows t i -> i_link i = 0 -> f_lt 0 (i_flow i) = true -> i_raw i = shown p' -> cycle w Flow i c = Some c' ->
  flows t' i' -> i_link i' = 0 -> f_lt 0 (i_flow i') = true -> exists c2, get_state w Flow i' c' = Some (S_WORK, c2).
Proof.
  intros R C V U A S1 TP PQ F L P I Y F' L' P'.
  assert (Q : abs_quantity Flow c = Some v).
  { unfold abs_part in A. injection A as A1 _ _. unfold abs_quantity. rewrite A1. apply to_u32_int. lia. }
  destruct (cycle_parts w Flow i c c' Y) as (st & c1 & G & PA & _ & S2 & S3 & S4 & _). cbv zeta in PA.
  unfold abs_part in A. injection A as A1 A2 A3. rewrite A1, A2, A3, I, calc_total in PA by (try discriminate; lia). cbn [fst snd] in PA.
  rewrite (read_step w Flow ltac:(discriminate) t i c v F L P Q), PQ, (proj2 (Z.eqb_neq _ _) S1) in G.
  rewrite Z.eqb_refl, (proj2 (Z.eqb_neq _ _) TP) in G. cbn [orb negb] in G.
  assert (E : c_st c1 <> S_PAUSE /\ t_pump c1 = t_pump c /\ prev_q c1 = v).
  { destruct (get_delta_millisec w t (t_pump c) <? i_dt i); injection G as _ <-; cbn; repeat split; try assumption; discriminate. }
  destruct E as (E1 & E2 & E3).
  assert (Q' : abs_quantity Flow c' = Some (v + counted p p')).
  { unfold abs_part in PA. injection PA as X1 _ _. unfold abs_quantity. rewrite X1. apply to_u32_int. lia. }
  rewrite (read_step w Flow ltac:(discriminate) t' i' c' _ F' L' P' Q'), S2, S3, S4, E2, E3, (proj2 (Z.eqb_neq _ _) E1).
  rewrite (proj2 (Z.eqb_neq _ _) TP). cbn [orb]. rewrite (proj2 (Z.eqb_neq (v + counted p p') v)) by lia. cbn [negb]. eexists. reflexivity.
Qed.
(** The plain counter never reports an error. *)
Lemma plain_states w l : forall c c', (c_st c = S_WORK \/ c_st c = S_PAUSE) -> ctr_run w Pulses c l = Some c' -> c_st c' = S_WORK \/ c_st c' = S_PAUSE.
Proof.
  induction l as [|x l IH]; intros c c' S1 H; cbn [ctr_run] in H; [injection H as <-; exact S1|].
  destruct (ctr_step w Pulses c x) as [c1|] eqn:E; [|discriminate]. apply (IH c1 c'); [|exact H]. clear IH H.
  assert (ST : forall raw d, c_st d = c_st c -> c_st (c_start raw d) = S_WORK \/ c_st (c_start raw d) = S_PAUSE).
  { intros raw d D. unfold c_start. rewrite D. destruct S1 as [E1|E1]; rewrite E1 in *; [left; cbn; exact D|left; reflexivity]. }
  destruct x; cbn [ctr_step] in E.
  - destruct (pulses_cycle w i c) as (c2 & Y & S2 & _). rewrite Y in E. injection E as <-. rewrite S2. exact S1.
  - rewrite pulses_state in E. injection E as <-. exact S1.
  - destruct (quantity Pulses c); [|discriminate]. injection E as <-. right. reflexivity.
  - injection E as <-. apply ST. reflexivity.
  - injection E as <-. exact S1.
  - injection E as <-. exact S1.
  - injection E as <-. apply ST. reflexivity.
  - destruct (n =? S_WORK); [injection E as <-; apply ST; reflexivity|]. destruct (n =? S_PAUSE); [|injection E as <-; exact S1].
    destruct (quantity Pulses c); [|discriminate]. injection E as <-. right. reflexivity.
  - injection E as <-. exact S1.
  - injection E as <-. exact S1.
  - injection E as <-. exact S1.
  - injection E as <-. destruct (n =? 1); exact S1.
  - injection E as <-. destruct (n =? 1); exact S1.
Qed.
