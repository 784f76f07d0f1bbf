(** Manual mode of the regulator; measurements that are not numbers; the average. *)
From Coq Require Import ZArith List Bool Lia QArith Qround Qpower Qabs Lqa.
From Verif Require Import Base FTextModel FTextProofs FloatModel FloatProofs FloatProofs2 FloatProofs3 AioProofs TimeModel.
From Verif Require Import PidSpec PidProofs PidProofs3 RegModel RegSpec RegProofs RegProofs2.
Import ListNotations.
Open Scope Z_scope.

(** * Not-a-number *)

Lemma nan_add_l a b : f_isnan a = true -> f_isnan (f_add a b) = true.
Proof. intros H. unfold f_add. rewrite H. reflexivity. Qed.
Lemma nan_add_r a b : f_isnan b = true -> f_isnan (f_add a b) = true.
Proof. intros H. unfold f_add. rewrite H, orb_true_r. reflexivity. Qed.
Lemma nan_mul_l a b : f_isnan a = true -> f_isnan (f_mul a b) = true.
Proof. intros H. unfold f_mul. rewrite H. reflexivity. Qed.
Lemma nan_mul_r a b : f_isnan b = true -> f_isnan (f_mul a b) = true.
Proof. intros H. unfold f_mul. rewrite H, orb_true_r. reflexivity. Qed.
Lemma nan_div_l a b : f_isnan a = true -> f_isnan (f_div a b) = true.
Proof. intros H. unfold f_div. rewrite H. reflexivity. Qed.
Lemma nan_sub_r a b : f_isnan b = true -> f_isnan (f_sub a b) = true.
Proof. intros H. unfold f_sub. apply nan_add_r. rewrite opp_isnan. exact H. Qed.
Lemma nan_lt a b : f_isnan a = true \/ f_isnan b = true -> f_lt a b = false.
Proof. intros [H|H]; unfold f_lt; rewrite H; cbn; rewrite ?andb_false_r; reflexivity. Qed.
Lemma nan_clamp v : f_isnan v = true -> clamp v = v.
Proof. intros H. unfold clamp. cbv zeta. rewrite (nan_lt _ v (or_intror H)), (nan_lt v _ (or_introl H)). reflexivity. Qed.
Lemma nan_accelerated w m now v : f_isnan v = true -> accelerated w m now v = v.
Proof.
  intros H. unfold accelerated. cbv zeta. destruct (f_lt _ (f_mul _ _)); [|reflexivity].
  destruct (down m); [rewrite (nan_lt v _ (or_introl H))|rewrite (nan_lt _ v (or_intror H))]; reflexivity.
Qed.
Lemma nan_share f v : f_isnan v = true -> f_isnan (share f v) = true.
Proof. intros H. unfold share. destruct (f_le _ _); [apply nan_div_l, nan_mul_l, H|exact H]. Qed.

(** The regulator holds not-a-number and is in automatic mode. *)
Record lost (m : msa) : Prop := {
  lo_uk : f_isnan (uk_1 m) = true; lo_U : f_isnan (Uk m) = true;
  lo_man : f_eq (par m 8) (f_of_Z 0) = true; lo_prev : prev_manual m = false }.
Lemma recalc_nan w m c now : f_isnan (uk_1 m) = true -> f_isnan (Uk m) = true ->
  f_isnan (uk_1 (recalc w m c now)) = true /\ f_isnan (Uk (recalc w m c now)) = true.
Proof.
  intros A B. unfold recalc. cbv zeta. destruct (f_lt _ _); [|split; assumption]. cbn [uk_1 Uk].
  assert (N : forall x, f_isnan (clamp (f_add (uk_1 m) x)) = true).
  { intros x. rewrite nan_clamp; apply nan_add_l, A. }
  split; [apply N|]. rewrite nan_accelerated; apply N.
Qed.
Lemma recalc_bad w m c now : f_isnan c = true -> due w m now = true ->
  f_isnan (uk_1 (recalc w m c now)) = true /\ f_isnan (Uk (recalc w m c now)) = true.
Proof.
  intros A D. unfold recalc. cbv zeta. unfold due in D. rewrite D. cbn [uk_1 Uk].
  assert (E : f_isnan (error (par m) c) = true).
  { unfold error. cbv zeta. apply nan_div_l, nan_mul_r, nan_sub_r, A. }
  assert (N : forall K TI TD dt, f_isnan (clamp (f_add (uk_1 m) (increment K TI TD dt (error (par m) c) (ek_1 m) (ek_2 m)))) = true).
  { intros K TI TD dt. assert (X : f_isnan (f_add (uk_1 m) (increment K TI TD dt (error (par m) c) (ek_1 m) (ek_2 m))) = true).
    { apply nan_add_r. unfold increment. cbv zeta. apply nan_add_l, nan_add_l, nan_mul_r, E. }
    rewrite nan_clamp; exact X. }
  split; [apply N|]. rewrite nan_accelerated; apply N.
Qed.
Lemma recalc_same w m c now : par (recalc w m c now) = par m /\ prev_manual (recalc w m c now) = prev_manual m /\
  on (recalc w m c now) = on m /\ last_on (recalc w m c now) = last_on m.
Proof. unfold recalc. cbv zeta. destruct (f_lt _ _); repeat split. Qed.
(** One evaluation in automatic mode. *)
Lemma auto_eval w m c now : on m = true -> f_eq (par m 8) (f_of_Z 0) = true -> prev_manual m = false ->
  let q := recalc w m c now in
  pid_eval w m c now = (with_par q (put (par m) 10 (share (par m) (Uk q))), share (par m) (Uk q)).
Proof.
  intros O B C q. destruct (recalc_same w m c now) as (P & PM & _). unfold pid_eval. rewrite O. cbn [negb]. cbv zeta. fold q. fold q in P, PM.
  assert (EN : entered q = q). { unfold entered. change P_is_manual_mode with 8. unfold f_true. rewrite P, B. reflexivity. }
  rewrite EN, PM, C, andb_false_r. change P_is_manual_mode with 8. cbn [with_par par].
  assert (ONE : f_eq (f_of_Z 1) (put (par q) P_U (share (par q) (Uk q)) 8) = false).
  { unfold put. change (8 =? P_U) with false. cbv iota. rewrite P. apply f_eq_spec in B. destruct B as (_ & _ & B).
    destruct (f_eq (f_of_Z 1) (par m 8)) eqn:X; [|reflexivity]. apply f_eq_spec in X. destruct X as (_ & _ & X). rewrite B in X. discriminate X. }
  rewrite ONE, P. reflexivity.
Qed.
Lemma lost_eval w m c now : on m = true -> lost m -> lost (fst (pid_eval w m c now)) /\ f_isnan (snd (pid_eval w m c now)) = true.
Proof.
  intros O [A B C D]. rewrite (auto_eval w m c now O C D). cbv zeta. destruct (recalc_nan w m c now A B) as (N1 & N2).
  destruct (recalc_same w m c now) as (_ & PM & _). cbn [fst snd]. split; [|apply nan_share, N2].
  constructor; cbn [with_par uk_1 Uk par prev_manual]; [exact N1|exact N2|exact C|rewrite PM; exact D].
Qed.
Lemma lost_step w m e : lost m -> automatic_event e -> lost (fst (mstep w m e)) /\ answers_nan e (snd (mstep w m e)).
Proof.
  intros L E. destruct e as [a t| |t|t|c t|c k t|i v]; try contradiction; cbn [mstep fst snd].
  - split; [|exact I]. unfold pid_on. destruct (on m); [exact L|]. destruct L as [A B C D]. constructor; assumption.
  - split; [|exact I]. destruct L as [A B C D]. constructor; assumption.
  - unfold eval. destruct (on m) eqn:O; [|split; [exact L|exact I]]. cbv zeta.
    set (q := with_par _ _). assert (LQ : lost q) by (destruct L as [A B C D]; constructor; assumption).
    destruct (lost_eval w q c t O LQ) as (X & Y). destruct (pid_eval w q c t). cbn [fst snd answers_nan] in *. split; assumption.
  - split; [|exact I]. destruct L as [A B C D]. constructor; try assumption. cbn [with_par par]. unfold put.
    destruct (8 =? i) eqn:X; [apply Z.eqb_eq in X; cbn in E; lia|exact C].
Qed.
Lemma lost_run w h : forall m, lost m -> Forall automatic_event h -> Forall2 answers_nan h (snd (mrun w m h)).
Proof.
  induction h as [|e h IH]; intros m L F; [constructor|]. inversion F; subst. cbn [mrun].
  destruct (lost_step w m e L H1) as (A & B). destruct (mstep w m e) as (m1, o). cbn [fst snd] in *.
  specialize (IH m1 A H2). destruct (mrun w m1 h). cbn [snd] in *. constructor; assumption.
Qed.
Lemma bad_measurement w m c now : on m = true -> f_eq (par m 8) (f_of_Z 0) = true -> prev_manual m = false -> f_isnan c = true ->
  due w m now = true -> lost (fst (eval w m c now)) /\ exists o, snd (eval w m c now) = Some o /\ f_isnan o = true.
Proof.
  intros O B C N D. unfold eval. rewrite O. cbv zeta. set (q := with_par _ _).
  rewrite (auto_eval w q c now O B C). cbv zeta. cbn [fst snd].
  destruct (recalc_bad w q c now N D) as (N1 & N2). destruct (recalc_same w q c now) as (_ & PM & _).
  split; [constructor; cbn [with_par uk_1 Uk par prev_manual]; [exact N1|exact N2|exact B|rewrite PM; exact C]|].
  eexists. split; [reflexivity|]. apply nan_share, N2.
Qed.

(** * Manual mode *)

Definition in_manual (m : msa) : Prop := on m = true /\ par m 8 = f_of_Z 1 /\ prev_manual m = true.
Lemma one_true : f_true (f_of_Z 1) = true /\ f_eq (f_of_Z 1) (f_of_Z 1) = true /\ f_eq (f_of_Z 1) (f_of_Z 0) = false.
Proof. repeat split; vm_compute; reflexivity. Qed.
Lemma manual_eval w m c now : in_manual m -> in_manual (fst (pid_eval w m c now)) /\ snd (pid_eval w m c now) = par m 9 /\
  par (fst (pid_eval w m c now)) 9 = par m 9.
Proof.
  intros (O & P & PM). destruct (recalc_same w m c now) as (P' & PM' & O' & _). destruct one_true as (T1 & T2 & T3).
  unfold pid_eval. rewrite O. cbn [negb]. cbv zeta. set (q := recalc w m c now) in *. clearbody q.
  assert (EN : entered q = q). { unfold entered. rewrite PM', PM, andb_false_r. reflexivity. }
  rewrite EN. change P_is_manual_mode with 8. rewrite P', P, T3. cbn [andb fst snd with_par par on prev_manual].
  unfold put. change (8 =? P_U) with false. change (P_U_manual =? P_U) with false. change P_U_manual with 9. change (9 =? P_U) with false. cbv iota.
  rewrite P, T2. split; [|split; reflexivity].
  split; [cbn; congruence|]. split; [cbn [with_par par]; exact P|cbn [with_par prev_manual]; congruence].
Qed.
Lemma manual_run w h : forall m, in_manual m -> Forall manual_event h ->
  snd (mrun w m h) = manual_values (par m 9) h /\ in_manual (fst (mrun w m h)) /\ par (fst (mrun w m h)) 9 = last_manual (par m 9) h.
Proof.
  induction h as [|e h IH]; intros m M F; [repeat split; apply M|]. inversion F as [|? ? E F']; subst.
  destruct e as [a t| |t|t|c t|c k t|i v]; try contradiction; cbn [mrun mstep manual_values last_manual].
  - unfold eval. destruct M as (O & P & PM). rewrite O. cbv zeta. set (q := with_par _ _).
    assert (MQ : in_manual q) by (repeat split; assumption). destruct (manual_eval w q c t MQ) as (A & B & C).
    destruct (pid_eval w q c t) as (r, x). cbn [fst snd] in *. destruct (IH r A F') as (I1 & I2 & I3).
    destruct (mrun w r h) as (m2, l). cbn [fst snd] in *. change (par q 9) with (par m 9) in *. rewrite C in I1, I3. rewrite B. split; [rewrite I1; reflexivity|split; assumption].
  - set (q := with_par _ _). assert (MQ : in_manual q).
    { destruct M as (O & P & PM). repeat split; try assumption. cbn [q with_par par]. unfold put. destruct (8 =? i) eqn:X; [apply Z.eqb_eq in X; cbn in E; lia|exact P]. }
    destruct (IH q MQ F') as (I1 & I2 & I3). destruct (mrun w q h) as (m2, l). cbn [fst snd] in *.
    assert (X : par q 9 = if i =? 9 then v else par m 9). { cbn [q with_par par]. unfold put. rewrite (Z.eqb_sym 9 i). reflexivity. }
    rewrite X in I1, I3. split; [rewrite I1; reflexivity|split; assumption].
Qed.
Lemma delta_same w t : get_delta_millisec w t t = 0.
Proof. rewrite delta_order by lia. lia. Qed.
Lemma leave_manual w m c now : on m = true -> par m 8 = f_of_Z 0 -> prev_manual m = true ->
  snd (eval w m c now) = Some (par m 9).
Proof.
  intros O P PM. unfold eval. rewrite O. cbv zeta. set (q := with_par _ _).
  destruct (recalc_same w q c now) as (P' & PM' & O' & L'). unfold pid_eval. change (on q) with (on m). rewrite O. cbn [negb]. cbv zeta.
  set (r := recalc w q c now) in *. clearbody r.
  assert (PMr : prev_manual r = true) by (rewrite PM'; exact PM).
  assert (EN : entered r = r). { unfold entered. rewrite PMr, andb_false_r. reflexivity. }
  rewrite EN. change P_is_manual_mode with 8. rewrite P'. change (par q 8) with (par m 8). rewrite P, PMr, zero_eq. cbn [andb].
  unfold left_manual, reset. rewrite L'. change (last_on q) with now. rewrite delta_same. change (3000 <? 0) with false. cbv iota zeta.
  cbn [par snd]. rewrite P'. reflexivity.
Qed.
Lemma enter_manual w m c now : on m = true -> par m 8 = f_of_Z 1 -> prev_manual m = false ->
  snd (eval w m c now) = Some (par m 10) /\ in_manual (fst (eval w m c now)) /\ par (fst (eval w m c now)) 9 = par m 10.
Proof.
  intros O P PM. destruct one_true as (T1 & T2 & T3). unfold eval. rewrite O. cbv zeta. set (q := with_par _ _).
  destruct (recalc_same w q c now) as (P' & PM' & O' & L'). unfold pid_eval. change (on q) with (on m). rewrite O. cbn [negb]. cbv zeta.
  set (r := recalc w q c now) in *. clearbody r.
  assert (PMr : prev_manual r = false) by (rewrite PM'; exact PM).
  assert (Pr : par r 8 = f_of_Z 1) by (rewrite P'; exact P). assert (Ur : par r 10 = par m 10) by (rewrite P'; reflexivity).
  unfold entered. change P_is_manual_mode with 8. rewrite Pr, PMr, T1. cbn [negb andb par on prev_manual]. unfold put at 1.
  change (8 =? P_U_manual) with false. cbv iota. rewrite Pr, T3. cbn [andb fst snd with_par par]. unfold put. change P_U_manual with 9. change P_U with 10.
  change (8 =? 10) with false. change (8 =? 9) with false. change (9 =? 10) with false. change (9 =? 9) with true. cbv iota. rewrite Pr, T2.
  split; [rewrite Ur; reflexivity|]. split; [|exact Ur].
  split; [cbn [with_par on]; rewrite O'; exact O|]. split; [exact Pr|reflexivity].
Qed.

(** * The average *)
Open Scope Q_scope.

Lemma z_tiny m : tops m -> z * 8000000 <= u * m /\ 0 < m.
Proof. intros (A & B). assert (z * 8000000 <= u * p2 (-60)) by (vm_compute; discriminate). assert (0 < p2 (-60)) by reflexivity. split; lra. Qed.

Lemma unit_step M c v k S : tops M -> (0 <= k < 2 ^ 21)%Z -> f_finite c = true -> f_finite v = true -> Qabs (f_val v) <= M ->
  Qabs S <= M * inject_Z k -> Qabs (f_val c * inject_Z k - S) <= (7 # 2) * u * M * inject_Z k * inject_Z (k + 1) ->
  let d := f_div (f_add (f_mul c (f_of_Z k)) v) (f_of_Z (k + 1)) in
  f_finite d = true /\ Qabs (S + f_val v) <= M * inject_Z (k + 1) /\
  Qabs (f_val d * inject_Z (k + 1) - (S + f_val v)) <= (7 # 2) * u * M * inject_Z (k + 1) * inject_Z (k + 2).
Proof.
  intros T K FC FV HV HS HE d. destruct (z_tiny M T) as (ZT & M0). destruct T as (T1 & T2).
  assert (K1 : inject_Z (k + 1) == inject_Z k + 1) by (rewrite inject_Z_plus; reflexivity).
  assert (K2 : inject_Z (k + 2) == inject_Z k + 2) by (rewrite inject_Z_plus; reflexivity).
  assert (Kp : 0 <= inject_Z k) by (change 0 with (inject_Z 0); rewrite <- Zle_Qle; lia).
  assert (Kt : inject_Z k <= 2097151) by (change 2097151 with (inject_Z 2097151); rewrite <- Zle_Qle; lia).
  pose proof (vz k ltac:(lia)) as Vk. pose proof (vz (k + 1) ltac:(lia)) as Vk1.
  pose proof (fz k ltac:(lia)) as Fk. pose proof (fz (k + 1) ltac:(lia)) as Fk1.
  rewrite K1 in Vk1. rewrite K1 in HE. rewrite K1, K2. clear K1 K2. set (q := inject_Z k) in *. clearbody q.
  set (B := M * q) in *.
  assert (B0 : 0 <= B) by (apply Qmult_le_0_compat; lra).
  assert (BB : B <= M * 2097151) by (unfold B; rewrite (Qmult_comm M q), (Qmult_comm M 2097151); apply Qmult_le_compat_r; lra).
  (* the error so far *)
  assert (BQ : B * q <= 2097151 * B) by (rewrite (Qmult_comm B q); apply Qmult_le_compat_r; lra).
  assert (E0 : (7 # 2) * u * M * q * (q + 1) == (7 # 2) * u * (B * q + B)) by (unfold B; ring).
  assert (E1 : (7 # 2) * u * M * (q + 1) * (q + 2) == (7 # 2) * u * (B * q + B) + 7 * u * (B + M)) by (unfold B; ring).
  rewrite E0 in HE. rewrite E1. clear E0 E1.
  set (X := f_val c * q) in *. set (BQ1 := B * q) in *. clearbody BQ1.
  apply abs_iff in HS. apply abs_iff in HV.
  assert (HX : Qabs X <= (3 # 2) * B).
  { apply abs_iff in HE. apply abs_iff. lra. }
  assert (P60 : 4000000 * p2 60 * 4 <= p2 127) by (vm_compute; discriminate).
  assert (EX : f_val c * f_val (f_of_Z k) == X) by (unfold X; rewrite Vk; reflexivity).
  destruct (mul_rel c (f_of_Z k) FC Fk) as (F1 & R1). { rewrite (abs_comp _ _ EX). lra. }
  rewrite (abs_comp _ _ EX) in R1. rewrite (abs_comp (_ - _) (f_val (f_mul c (f_of_Z k)) - X)) in R1 by (rewrite EX; reflexivity).
  unfold d. set (p := f_mul c (f_of_Z k)) in *. clearbody p.
  assert (Hp : Qabs (f_val p) <= (8 # 5) * B + M * (1 # 1000)).
  { apply abs_iff in R1. apply abs_iff in HX. assert (Qabs X <= (3 # 2) * B) by (apply abs_iff; exact HX). apply abs_iff. lra. }
  assert (Hs : Qabs (f_val p + f_val v) <= (8 # 5) * B + (11 # 10) * M).
  { apply abs_iff in Hp. apply abs_iff. lra. }
  destruct (add_rel p v F1 FV) as (F2 & R2). { lra. }
  set (s := f_add p v) in *. clearbody s.
  assert (Hss : Qabs (f_val s) <= (17 # 10) * B + (12 # 10) * M).
  { apply abs_iff in R2. apply abs_iff in Hs. assert (Qabs (f_val p + f_val v) <= (8 # 5) * B + (11 # 10) * M) by (apply abs_iff; exact Hs). apply abs_iff. lra. }
  assert (Q1 : 1 <= q + 1) by lra. assert (NZ : ~ q + 1 == 0) by lra.
  assert (Vd : f_val s / f_val (f_of_Z (k + 1)) == f_val s / (q + 1)) by (rewrite Vk1; reflexivity).
  assert (AD : Qabs (f_val s / (q + 1)) * (q + 1) == Qabs (f_val s)).
  { unfold Qdiv. rewrite abs_mul. rewrite (Qabs_pos (/ (q + 1))) by (apply Qinv_le_0_compat; lra). field. exact NZ. }
  assert (AL : Qabs (f_val s / (q + 1)) <= Qabs (f_val s)).
  { pose proof (abs_pos (f_val s / (q + 1))). rewrite <- AD. 
    assert (Qabs (f_val s / (q + 1)) * 1 <= Qabs (f_val s / (q + 1)) * (q + 1)) by (apply mul_le_l; lra). lra. }
  destruct (div_rel s (f_of_Z (k + 1)) F2 Fk1) as (F3 & R3). { rewrite Vk1. exact NZ. } { rewrite (abs_comp _ _ Vd). lra. }
  rewrite (abs_comp _ _ Vd) in R3. rewrite (abs_comp (_ - _) (f_val (f_div s (f_of_Z (k + 1))) - f_val s / (q + 1))) in R3 by (rewrite Vd; reflexivity).
  set (r := f_div s (f_of_Z (k + 1))) in *. clearbody r. split; [exact F3|]. split.
  { apply abs_iff. assert (M * (q + 1) == B + M) by (unfold B; ring). lra. }
  assert (R4 : Qabs (f_val r * (q + 1) - f_val s) <= u * Qabs (f_val s) + z * (q + 1)).
  { assert (EQ : f_val r * (q + 1) - f_val s == (f_val r - f_val s / (q + 1)) * (q + 1)) by (field; exact NZ).
    rewrite (abs_comp _ _ EQ), abs_mul. rewrite (Qabs_pos (q + 1)) by lra.
    assert (Y : Qabs (f_val r - f_val s / (q + 1)) * (q + 1) <= (u * Qabs (f_val s / (q + 1)) + z) * (q + 1)) by (apply Qmult_le_compat_r; lra).
    assert (Y2 : (u * Qabs (f_val s / (q + 1)) + z) * (q + 1) == u * (Qabs (f_val s / (q + 1)) * (q + 1)) + z * (q + 1)) by ring.
    assert (Y3 : u * (Qabs (f_val s / (q + 1)) * (q + 1)) == u * Qabs (f_val s)) by (rewrite AD; reflexivity).
    apply Qle_trans with (1 := Y). rewrite Y2, Y3. apply Qle_refl. }
  assert (ZQ : z * (q + 1) <= u * M). { assert (z * (q + 1) <= z * 2097152) by (apply mul_le_l; [vm_compute; discriminate|lra]). assert (0 <= z) by (vm_compute; discriminate). lra. }
  assert (Z0 : 0 <= z) by (vm_compute; discriminate).
  set (Y := f_val r * (q + 1)) in *. set (ZZ := z * (q + 1)) in *. clearbody ZZ Y.
  apply abs_iff in HE. apply abs_iff in R1. apply abs_iff in R2. apply abs_iff in R4. apply abs_iff. lra.
Qed.

Lemma units M v : tops M -> f_finite v = true -> Qabs (f_val v) <= M -> forall w k s S, (24 <= w)%Z ->
  (0 <= n s)%Z -> (n s + Z.of_nat k < 2 ^ 21)%Z -> f_finite (cn s) = true -> Qabs S <= M * inject_Z (n s) ->
  Qabs (f_val (cn s) * inject_Z (n s) - S) <= (7 # 2) * u * M * inject_Z (n s) * inject_Z (n s + 1) ->
  let s' := repeat_add w v k s in let S' := S + f_val v * inject_Z (Z.of_nat k) in
  n s' = (n s + Z.of_nat k)%Z /\ integrator s' = integrator s /\ f_finite (cn s') = true /\ Qabs S' <= M * inject_Z (n s') /\
  Qabs (f_val (cn s') * inject_Z (n s') - S') <= (7 # 2) * u * M * inject_Z (n s') * inject_Z (n s' + 1).
Proof.
  intros T FV HV w. induction k as [|k IH]; intros s S W N0 NK FC HS HE; cbv zeta.
  - cbn [repeat_add]. assert (E : S + f_val v * inject_Z (Z.of_nat 0) == S) by (change (inject_Z (Z.of_nat 0)) with 0; ring).
    rewrite (abs_comp _ _ E), (abs_comp (f_val (cn s) * inject_Z (n s) - (S + f_val v * inject_Z (Z.of_nat 0))) (f_val (cn s) * inject_Z (n s) - S)) by (rewrite E; reflexivity).
    split; [lia|]. repeat split; assumption.
  - cbn [repeat_add].
    assert (P : (2 ^ 24 <= 2 ^ w)%Z) by (apply Z.pow_le_mono_r; lia).
    assert (NE : ((n s + 1) mod 2 ^ w = n s + 1)%Z) by (apply Z.mod_small; lia).
    assert (NE1 : ((n s + 1 - 1) mod 2 ^ w = n s)%Z) by (rewrite Z.mod_small by lia; lia).
    destruct (unit_step M (cn s) v (n s) S T ltac:(lia) FC FV HV HS HE) as (A & B & C).
    assert (X : add_one w v s = {| cn := f_div (f_add (f_mul (cn s) (f_of_Z (n s))) v) (f_of_Z (n s + 1)); n := n s + 1; integrator := integrator s |}).
    { unfold add_one. cbv zeta. rewrite NE, NE1. reflexivity. }
    rewrite X. 
    specialize (IH {| cn := f_div (f_add (f_mul (cn s) (f_of_Z (n s))) v) (f_of_Z (n s + 1)); n := n s + 1; integrator := integrator s |} (S + f_val v) W).
    cbn [n cn integrator] in IH. replace (n s + 1 + 1)%Z with (n s + 2)%Z in IH by lia.
    specialize (IH ltac:(lia) ltac:(lia) A B C). cbv zeta in IH. set (s' := repeat_add w v k _) in *. clearbody s'.
    destruct IH as (I1 & I2 & I3 & I4 & I5).
    assert (E : S + f_val v + f_val v * inject_Z (Z.of_nat k) == S + f_val v * inject_Z (Z.of_nat (Datatypes.S k))).
    { rewrite Nat2Z.inj_succ. unfold Z.succ. rewrite inject_Z_plus. ring. }
    rewrite (abs_comp _ _ E) in I4. rewrite (abs_comp _ (f_val (cn s') * inject_Z (n s') - (S + f_val v * inject_Z (Z.of_nat (Datatypes.S k))))) in I5 by (rewrite <- E; reflexivity).
    split; [lia|]. repeat split; assumption.
Qed.

Lemma adds_close M w : tops M -> (24 <= w)%Z -> forall h s S, Forall (fun p => f_finite (fst p) = true /\ Qabs (f_val (fst p)) <= M) h ->
  growing (n s) h -> integrator s = n s -> (0 <= n s)%Z -> (last_reading (n s) h < 2 ^ 21)%Z -> f_finite (cn s) = true ->
  Qabs S <= M * inject_Z (n s) -> Qabs (f_val (cn s) * inject_Z (n s) - S) <= (7 # 2) * u * M * inject_Z (n s) * inject_Z (n s + 1) ->
  let s' := adds w s h in let q := last_reading (n s) h in
  n s' = q /\ f_finite (cn s') = true /\
  Qabs (f_val (cn s') * inject_Z q - (S + weighted (n s) h)) <= (7 # 2) * u * M * inject_Z q * inject_Z (q + 1).
Proof.
  intros T W. induction h as [|(v, r) h IH]; intros s S F G I N0 LR FC HS HE; cbv zeta.
  - cbn [adds last_reading weighted]. split; [reflexivity|]. split; [exact FC|].
    rewrite (abs_comp _ (f_val (cn s) * inject_Z (n s) - S)) by ring. exact HE.
  - inversion F as [|? ? (FV & HV) F']; subst. cbn [fst] in FV, HV. cbn [growing] in G. destruct G as (G1 & G2).
    cbn [adds last_reading weighted] in *. unfold add. rewrite I.
    assert (GL : (forall h q, growing q h -> q <= last_reading q h)%Z).
    { clear. induction h as [|(a, b) h IH]; intros q G; cbn in *; [lia|]. destruct G as (A & B). specialize (IH b B). lia. }
    pose proof (GL h r G2) as RL.
    destruct (n s <? r)%Z eqn:E.
    + apply Z.ltb_lt in E. assert (NN : Z.of_nat (Z.to_nat (r - n s)) = (r - n s)%Z) by (apply Z2Nat.id; lia).
      pose proof (units M v T FV HV w (Z.to_nat (r - n s)) {| cn := cn s; n := n s; integrator := r |} S W) as U. cbn [n cn integrator] in U. rewrite NN in U.
      specialize (U N0 ltac:(lia) FC HS HE). cbv zeta in U. set (s1 := repeat_add _ _ _ _) in *. clearbody s1.
      destruct U as (U1 & U2 & U3 & U4 & U5). assert (N1 : n s1 = r) by lia.
      specialize (IH s1 (S + f_val v * inject_Z (r - n s)) F'). rewrite N1 in *.
      destruct (IH G2 U2 ltac:(lia) LR U3 U4 U5) as (A & B & C). split; [exact A|]. split; [exact B|].
      rewrite (abs_comp _ (f_val (cn (adds w s1 h)) * inject_Z (last_reading r h) - (S + f_val v * inject_Z (r - n s) + weighted r h))) by ring. exact C.
    + apply Z.ltb_ge in E. assert (R : r = n s) by lia. subst r.
      destruct (IH s S F' G2 I N0 LR FC HS HE) as (A & B & C). split; [exact A|]. split; [exact B|].
      rewrite (abs_comp _ (f_val (cn (adds w s h)) * inject_Z (last_reading (n s) h) - (S + weighted (n s) h))); [exact C|].
      rewrite Z.sub_diag. change (inject_Z 0) with 0. ring.
Qed.
