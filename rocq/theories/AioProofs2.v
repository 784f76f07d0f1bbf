(** Lemmas about analog channels: from a current to a value, order. *)
From Coq Require Import ZArith List Bool Lia QArith Qround Qpower Qabs Qminmax Lqa.
From Verif Require Import Base FTextModel FTextProofs FloatModel FloatProofs FloatProofs2 FloatProofs3 AioModel AioSpec AioProofs.
Import ListNotations.
Open Scope Q_scope.

Definition word16 (c : Z) : Prop := (- 2 ^ 15 <= c < 2 ^ 15)%Z.
Lemma word16_24 c : word16 c -> (- 2 ^ 24 < c < 2 ^ 24)%Z.
Proof. unfold word16. lia. Qed.

Lemma small_z : 0 <= z /\ z <= u * (1 # 10000).
Proof. split; vm_compute; discriminate. Qed.

Lemma ratio_bound c K : word16 c -> 1000 <= K -> Qabs (inject_Z c / K) <= 33.
Proof.
  intros W HK. assert (C : Qabs (inject_Z c) <= 32768).
  { apply abs_iff. change (-(32768)) with (inject_Z (-32768)). change 32768 with (inject_Z 32768). unfold word16 in W. rewrite <- !Zle_Qle. lia. }
  assert (NK : ~ K == 0) by lra.
  setoid_replace (inject_Z c / K) with (inject_Z c / K - 0) by ring. apply quot_err; [exact NK|].
  rewrite (abs_comp (inject_Z c - 0 * K) (inject_Z c)) by ring. rewrite (Qabs_pos K) by lra. lra.
Qed.

Lemma mA_close c k K : word16 c -> f_finite k = true -> f_val k == K -> 1000 <= K ->
  f_finite (mA (f_of_Z c) k) = true /\ Qabs (f_val (mA (f_of_Z c) k) - (4 + inject_Z c / K)) <= 75 * u.
Proof.
  intros W Fk Vk HK. destruct small_z as (Z0 & ZU).
  destruct (of_Z_exact c (word16_24 c W)) as (Fc & Vc). pose proof (ratio_bound c K W HK) as RB.
  assert (NK : ~ f_val k == 0) by (rewrite Vk; lra).
  assert (EQ : f_val (f_of_Z c) / f_val k == inject_Z c / K) by (rewrite Vc, Vk; reflexivity).
  assert (P : 100000 <= p2 127) by (vm_compute; discriminate).
  destruct (div_rel (f_of_Z c) k Fc Fk NK) as (F1 & E1); [rewrite EQ; lra|]. rewrite EQ in E1.
  set (q := f_val (f_div (f_of_Z c) k)) in *. set (x := inject_Z c / K) in *.
  assert (QB : Qabs q <= 34).
  { setoid_replace q with ((q - x) + x) by ring. eapply Qle_trans; [apply abs_tri|]. lra. }
  assert (V4 : f_val (f_of_Z 4) == 4) by reflexivity.
  assert (S4 : Qabs (f_val (f_of_Z 4) + q) <= 38).
  { eapply Qle_trans; [apply abs_tri|]. rewrite V4. change (Qabs 4) with 4. lra. }
  destruct (add_rel (f_of_Z 4) (f_div (f_of_Z c) k) eq_refl F1) as (F2 & E2); [fold q; lra|]. fold q in E2.
  unfold mA. split; [exact F2|]. set (r := f_val (f_add (f_of_Z 4) (f_div (f_of_Z c) k))) in *.
  setoid_replace (r - (4 + x)) with ((r - (f_val (f_of_Z 4) + q)) + (q - x)) by (rewrite V4; ring).
  eapply Qle_trans; [apply abs_tri|]. lra.
Qed.

Lemma prod_le a b A B : Qabs a <= A -> Qabs b <= B -> Qabs (a * b) <= A * B.
Proof.
  intros H1 H2. rewrite abs_mul. pose proof (abs_pos a). pose proof (abs_pos b).
  apply Qle_trans with (Qabs a * B); [apply mul_le_l; assumption|]. nra.
Qed.

Lemma from_mA_close w x mn mx : f_finite w = true -> Qabs (f_val w - (4 + x)) <= 75 * u -> Qabs x <= 33 -> sensible mn -> sensible mx ->
  let S := Qabs (f_val mn) + Qabs (f_val mx) in
  f_finite (from_mA w mn mx) = true /\
  Qabs (f_val (from_mA w mn mx) - (f_val mn + x * (f_val mx - f_val mn) / 16)) <= S * (20 * u) + p2 (-140).
Proof.
  intros Fw Ew Bx (Fn & Bn) (Fx & Bm). cbv zeta. destruct small_z as (Z0 & ZU).
  assert (P127 : 1000 * p2 60 + 1000 <= p2 127) by (vm_compute; discriminate).
  assert (P60 : 0 <= p2 60) by (apply Qlt_le_weak, p2_pos).
  assert (Z8 : 100 * z <= p2 (-140)) by (vm_compute; discriminate).
  set (N := f_val mn) in *. set (X := f_val mx) in *. set (S := Qabs N + Qabs X).
  assert (S0 : 0 <= S) by (unfold S; pose proof (abs_pos N); pose proof (abs_pos X); lra).
  assert (SB : S <= 2 * p2 60) by (unfold S; lra).
  assert (V4 : f_val (f_of_Z 4) == 4) by reflexivity.
  set (W := f_val w) in *.
  assert (W4 : Qabs (W - 4) <= 34).
  { setoid_replace (W - 4) with ((W - (4 + x)) + x) by ring. eapply Qle_trans; [apply abs_tri|]. lra. }
  destruct (sub_rel w (f_of_Z 4) Fw eq_refl) as (F1 & E1); [fold W; rewrite V4; lra|]. fold W in E1. rewrite V4 in E1.
  set (d := f_val (f_sub w (f_of_Z 4))) in *.
  assert (D1 : Qabs (d - x) <= 110 * u).
  { setoid_replace (d - x) with ((d - (W - 4)) + (W - (4 + x))) by ring. eapply Qle_trans; [apply abs_tri|]. lra. }
  assert (D2 : Qabs d <= 34).
  { setoid_replace d with ((d - x) + x) by ring. eapply Qle_trans; [apply abs_tri|]. lra. }
  assert (DB : Qabs (X - N) <= S).
  { unfold Qminus. eapply Qle_trans; [apply abs_tri|]. rewrite Qabs_opp. unfold S. lra. }
  destruct (sub_rel mx mn Fx Fn) as (F2 & E2); [fold X N; lra|]. fold X N in E2. set (r := f_val (f_sub mx mn)) in *. set (D := X - N) in *.
  assert (R1 : Qabs (r - D) <= S * u + z) by lra.
  assert (R2 : Qabs r <= S * (1 + u) + z).
  { setoid_replace r with ((r - D) + D) by ring. eapply Qle_trans; [apply abs_tri|]. lra. }
  assert (M1 : Qabs (d * r) <= 34 * (S * (1 + u) + z)) by (apply prod_le; assumption).
  destruct (mul_rel (f_sub w (f_of_Z 4)) (f_sub mx mn) F1 F2) as (F3 & E3); [fold d r; lra|]. fold d r in E3.
  set (p := f_val (f_mul (f_sub w (f_of_Z 4)) (f_sub mx mn))) in *.
  assert (PX : Qabs (p - x * D) <= S * (180 * u) + 36 * z).
  { setoid_replace (p - x * D) with ((p - d * r) + ((d - x) * r + x * (r - D))) by ring.
    eapply Qle_trans; [apply abs_tri|].
    assert (A1 : Qabs ((d - x) * r) <= 110 * u * (S * (1 + u) + z)) by (apply prod_le; assumption).
    assert (A2 : Qabs (x * (r - D)) <= 33 * (S * u + z)) by (apply prod_le; assumption).
    pose proof (abs_tri ((d - x) * r) (x * (r - D))). lra. }
  assert (XD : Qabs (x * D) <= 33 * S) by (apply prod_le; assumption).
  assert (V16 : f_val (f_of_Z 16) == 16) by reflexivity.
  assert (N16 : ~ f_val (f_of_Z 16) == 0) by (rewrite V16; discriminate).
  assert (PB : Qabs p <= 34 * S + 36 * z).
  { setoid_replace p with ((p - x * D) + x * D) by ring. eapply Qle_trans; [apply abs_tri|]. lra. }
  assert (D16 : p / f_val (f_of_Z 16) == p * (1 # 16)) by (rewrite V16; reflexivity).
  assert (A16 : Qabs (p * (1 # 16)) == Qabs p * (1 # 16)) by (rewrite abs_mul; reflexivity).
  destruct (div_rel (f_mul (f_sub w (f_of_Z 4)) (f_sub mx mn)) (f_of_Z 16) F3 eq_refl N16) as (F4 & E4); [fold p; rewrite D16, A16; lra|].
  fold p in E4. rewrite D16, A16 in E4. set (h := f_val (f_div (f_mul (f_sub w (f_of_Z 4)) (f_sub mx mn)) (f_of_Z 16))) in *.
  assert (HX : Qabs (h - x * D * (1 # 16)) <= S * (14 * u) + 6 * z).
  { setoid_replace (h - x * D * (1 # 16)) with ((h - p * (1 # 16)) + (p - x * D) * (1 # 16)) by ring.
    eapply Qle_trans; [apply abs_tri|]. rewrite abs_mul. change (Qabs (1 # 16)) with (1 # 16). lra. }
  assert (HB : Qabs h <= (5 # 2) * S + 6 * z).
  { setoid_replace h with ((h - x * D * (1 # 16)) + x * D * (1 # 16)) by ring. eapply Qle_trans; [apply abs_tri|].
    rewrite (abs_mul (x * D) (1 # 16)). change (Qabs (1 # 16)) with (1 # 16). lra. }
  assert (NB : Qabs (N + h) <= (7 # 2) * S + 6 * z).
  { eapply Qle_trans; [apply abs_tri|]. unfold S in *. pose proof (abs_pos X). lra. }
  destruct (add_rel mn (f_div (f_mul (f_sub w (f_of_Z 4)) (f_sub mx mn)) (f_of_Z 16)) Fn F4) as (F5 & E5); [fold N h; lra|].
  fold N h in E5. unfold from_mA. split; [exact F5|].
  set (y := f_val (f_add mn (f_div (f_mul (f_sub w (f_of_Z 4)) (f_sub mx mn)) (f_of_Z 16)))) in *.
  setoid_replace (y - (N + x * D / 16)) with ((y - (N + h)) + (h - x * D * (1 # 16))) by (field).
  eapply Qle_trans; [apply abs_tri|]. lra.
Qed.

(** * Scales *)

Lemma zero_eq b : f_finite b = true -> f_eq (f_of_Z 0) b = Qeq_bool (f_val b) 0.
Proof.
  intros F. destruct (finite_not b F) as (N & _). unfold f_eq. rewrite N. change (f_isnan (f_of_Z 0)) with false. cbn [negb andb].
  change (key (f_of_Z 0)) with 0%Z. pose proof (val_zero_key b F) as [H1 H2].
  destruct (Z.eqb_spec 0 (key b)) as [E|E].
  - symmetry. apply Qeq_bool_iff. apply H2. lia.
  - destruct (Qeq_bool (f_val b) 0) eqn:Q0; [|reflexivity]. apply Qeq_bool_iff in Q0. apply H1 in Q0. lia.
Qed.
Lemma unscaled_spec mn mx : f_finite mn = true -> f_finite mx = true -> unscaled mn mx = no_scale (f_val mn) (f_val mx).
Proof. intros A B. unfold unscaled, no_scale. rewrite !zero_eq by assumption. reflexivity. Qed.

Lemma to_mA_nn v mn mx : f_isnan v = false -> f_finite mn = true -> f_finite mx = true -> ~ f_val mn == f_val mx ->
  Qabs (f_val mx - f_val mn) <= p2 127 -> f_isnan (to_mA v mn mx) = false.
Proof.
  intros V N X NE B. unfold to_mA. apply add_is_nn; [reflexivity|].
  destruct (sub_rel mx mn X N B) as (F & _).
  apply div_is_nn; [|exact F|].
  - apply mul_is_nn; [reflexivity|vm_compute; discriminate|]. apply sub_is_nn; assumption.
  - apply sub_nonzero; [exact X|exact N|]. intros E. apply NE. symmetry. exact E.
Qed.
Lemma to_mA_mono a b mn mx : f_isnan a = false -> f_isnan b = false -> f_finite mn = true -> f_finite mx = true -> f_val mn < f_val mx ->
  Qabs (f_val mx - f_val mn) <= p2 127 -> (key a <= key b)%Z -> (key (to_mA a mn mx) <= key (to_mA b mn mx))%Z.
Proof.
  intros A B N X L BD H.
  assert (NE : ~ f_val mn == f_val mx) by lra.
  pose proof (to_mA_nn a mn mx A N X NE BD) as NA. pose proof (to_mA_nn b mn mx B N X NE BD) as NB.
  unfold to_mA in *. apply add_mono2; [exact NA|exact NB|].
  destruct (add_nn _ _ NA) as (_ & NA1). destruct (add_nn _ _ NB) as (_ & NB1).
  apply div_mono; [|exact NA1|exact NB1|].
  - apply sub_nonzero; [exact X|exact N| |exact L]. intros E. apply NE. symmetry. exact E.
  - destruct (div_nn _ _ NA1) as (NA2 & _). destruct (div_nn _ _ NB1) as (NB2 & _).
    apply mul_mono2; [vm_compute; discriminate|exact NA2|exact NB2|].
    apply sub_mono; [apply sub_is_nn; assumption|apply sub_is_nn; assumption|exact H].
Qed.
