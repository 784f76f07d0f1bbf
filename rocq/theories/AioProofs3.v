(** Lemmas about analog channels: whole calls. *)
From Coq Require Import ZArith List Bool Lia QArith Qround Qpower Qabs Qminmax Lqa.
From Verif Require Import Base FTextModel FTextProofs FloatModel FloatProofs FloatProofs2 FloatProofs3 AioModel AioSpec AioProofs AioProofs2.
Import ListNotations.
Open Scope Q_scope.

Lemma sensible_usable mn mx : sensible_scale mn mx -> usable_scale mn mx.
Proof.
  intros ((Fn & Bn) & (Fx & Bx) & S). split; [exact Fn|]. split; [exact Fx|]. destruct S as [S|S]; [left; exact S|right].
  split.
  - intros E. assert (Z0 : Qabs (f_val mx - f_val mn) == 0) by (rewrite (abs_comp _ 0); [reflexivity|rewrite E; ring]).
    pose proof (p2_pos (-40)). lra.
  - unfold Qminus. eapply Qle_trans; [apply abs_tri|]. rewrite Qabs_opp.
    assert (2 * p2 60 <= p2 127) by (vm_compute; discriminate). lra.
Qed.

(** The float that is scaled to a code. *)
Definition place (value mn mx : Z) : Z := if unscaled mn mx then value else to_mA value mn mx.
Lemma out_code_is k value mn mx : out_code k value mn mx = f_mul k (f_sub (clampF (place value mn mx)) (f_of_Z 4)).
Proof.
  unfold out_code, place, unscaled, clampF. destruct (f_eq (f_of_Z 0) mn), (f_eq (f_of_Z 0) mx); reflexivity.
Qed.
Lemma place_nn value mn mx : f_isnan value = false -> usable_scale mn mx -> f_isnan (place value mn mx) = false.
Proof.
  intros N (Fn & Fx & S). unfold place. rewrite unscaled_spec by assumption. destruct (no_scale _ _) eqn:E; [exact N|].
  destruct S as [S|[S1 S2]]; [discriminate S|]. apply to_mA_nn; assumption.
Qed.
Lemma place_mono a b mn mx : f_isnan a = false -> f_isnan b = false -> usable_scale mn mx ->
  no_scale (f_val mn) (f_val mx) = true \/ f_val mn < f_val mx ->
  (key a <= key b)%Z -> (key (place a mn mx) <= key (place b mn mx))%Z.
Proof.
  intros A B (Fn & Fx & S) O H. unfold place. rewrite unscaled_spec by assumption. destruct (no_scale _ _) eqn:E; [exact H|].
  destruct S as [S|[S1 S2]]; [discriminate S|]. destruct O as [O|O]; [discriminate O|]. apply to_mA_mono; assumption.
Qed.

(** The modules. *)
Lemma out_module mt K : out_scale mt = Some K -> exists k top,
  f_finite k = true /\ f_val k == K /\ 1000 <= K /\ K <= 2048 /\ f_finite top = true /\ f_val top == 16 * K /\ (0 < key k)%Z /\
  (forall m l i c value mn mx, channel l i = Some c -> mtype c = mt ->
     set_AO m l i value mn mx = match f_to_u32 (out_code k value mn mx) with
                                | Some w => Some (put m (addr c) (s16 w), 0%Z) | None => None end) /\
  (forall m l i c mn mx, channel l i = Some c -> mtype c = mt ->
     get_AO m l i mn mx =
       let val := f_of_Z (m (addr c)) in
       let old := ((mt =? 554) || (mt =? 555))%Z in
       if f_lt val (f_of_Z (if old then 7 else 0)) then
         (if unscaled mn mx then f_of_Z (if old then 0 else 4) else from_mA (f_of_Z 4) mn mx)
       else if unscaled mn mx then mA val k else from_mA (mA val k) mn mx).
Proof.
  unfold out_scale, set_AO, get_AO.
  destruct (Z.eqb_spec mt 554) as [->|_].
  { intros E. injection E as <-. exists (f_lit (4095 # 2)), (f_of_Z 32760). repeat (split; [try reflexivity; discriminate|]).
    split; intros m l i c value; intros; rewrite H, H0; [reflexivity|]. change ((554 =? 554) || (554 =? 555))%Z with true.
    cbv zeta. cbv iota. destruct (unscaled _ _), (f_lt _ _); reflexivity. }
  destruct (Z.eqb_spec mt 555) as [->|_].
  { intros E. injection E as <-. exists (f_lit (4095 # 2)), (f_of_Z 32760). repeat (split; [try reflexivity; discriminate|]).
    split; intros m l i c value; intros; rewrite H, H0; [reflexivity|]. change ((555 =? 554) || (555 =? 555))%Z with true.
    cbv zeta. cbv iota. destruct (unscaled _ _), (f_lt _ _); reflexivity. }
  destruct (Z.eqb_spec mt 2688527) as [->|_].
  { intros E. injection E as <-. exists (f_lit 1875), (f_of_Z 30000). repeat (split; [try reflexivity; discriminate|]).
    split; intros m l i c value; intros; rewrite H, H0; [reflexivity|].
    change ((2688527 =? 554) || (2688527 =? 555))%Z with false. change ((2688527 =? 2688527) || (2688527 =? 2702072))%Z with true.
    cbv zeta. cbv iota. destruct (unscaled _ _), (f_lt _ _); reflexivity. }
  destruct (Z.eqb_spec mt 2702072) as [->|_].
  { intros E. injection E as <-. exists (f_lit 1875), (f_of_Z 30000). repeat (split; [try reflexivity; discriminate|]).
    split; intros m l i c value; intros; rewrite H, H0; [reflexivity|].
    change ((2702072 =? 554) || (2702072 =? 555))%Z with false. change ((2702072 =? 2688527) || (2702072 =? 2702072))%Z with true.
    cbv zeta. cbv iota. destruct (unscaled _ _), (f_lt _ _); reflexivity. }
  destruct (Z.eqb_spec mt 1088123) as [->|_]; [|discriminate].
  intros E. injection E as <-. exists (f_lit 1000), (f_of_Z 16000). repeat (split; [try reflexivity; discriminate|]).
  split; intros m l i c value; intros; rewrite H, H0; [reflexivity|].
  change ((1088123 =? 554) || (1088123 =? 555))%Z with false. change ((1088123 =? 2688527) || (1088123 =? 2702072))%Z with false.
  change (1088123 =? 1088123)%Z with true.
  cbv zeta. cbv iota. destruct (unscaled _ _), (f_lt _ _); reflexivity.
Qed.

Lemma s16_small c : (0 <= c < 2 ^ 15)%Z -> s16 c = c.
Proof. intros H. unfold s16. rewrite Z.mod_small by lia. lia. Qed.

(** One write: the code and where it comes from. *)
Lemma set_AO_code m l i c value mn mx K : channel l i = Some c -> out_scale (mtype c) = Some K ->
  f_isnan value = false -> usable_scale mn mx ->
  exists code, set_AO m l i value mn mx = Some (put m (addr c) code, 0%Z) /\ (0 <= code)%Z /\ inject_Z code <= 16 * K /\
    let v := f_val (clampF (place value mn mx)) in
    K * (v - 4 - 33 * u) - 1 <= inject_Z code /\ inject_Z code <= K * (v - 4 + 33 * u).
Proof.
  intros HC HO NV US. destruct (out_module _ _ HO) as (k & top & Fk & Vk & K1 & K2 & Ft & Vt & _ & SET & _).
  rewrite (SET m l i c value mn mx HC eq_refl), out_code_is.
  destruct (clampF_range (place value mn mx) (place_nn value mn mx NV US)) as (Fc & C1 & C2).
  destruct (code_of k K top (clampF (place value mn mx)) Fk Vk) as (code & E & P & T & L & H); try assumption; try lra.
  exists code. rewrite E. split.
  - rewrite s16_small; [reflexivity|]. split; [exact P|].
    assert (X : inject_Z code < inject_Z (2 ^ 15)); [|rewrite <- Zlt_Qlt in X; exact X].
    destruct (Qlt_le_dec (inject_Z code) (inject_Z (2 ^ 15))) as [G|G]; [exact G|]. exfalso.
    change (inject_Z (2 ^ 15)) with 32768 in G.
    assert (KV : K == 4095 # 2 \/ K <= 1875).
    { clear - HO. unfold out_scale in HO. repeat (match type of HO with context [if ?b then _ else _] => destruct b end; [injection HO as <-; try (left; reflexivity); right; discriminate|]). discriminate. }
    destruct KV as [KV|KV]; [rewrite KV in T|]; lra.
  - split; [exact P|]. split; [exact T|]. cbv zeta. split; assumption.
Qed.

Lemma code_mono k K a b w1 w2 : f_finite k = true -> f_val k == K -> 0 < K -> (0 < key k)%Z ->
  f_finite a = true -> f_finite b = true -> (key a <= key b)%Z ->
  f_to_u32 (f_mul k (f_sub a (f_of_Z 4))) = Some w1 -> f_to_u32 (f_mul k (f_sub b (f_of_Z 4))) = Some w2 -> (w1 <= w2)%Z.
Proof.
  intros Fk Vk KP Kk Fa Fb H E1 E2.
  assert (N1 : f_isnan (f_sub a (f_of_Z 4)) = false) by (apply sub_is_nn; [apply finite_not; exact Fa|reflexivity]).
  assert (N2 : f_isnan (f_sub b (f_of_Z 4)) = false) by (apply sub_is_nn; [apply finite_not; exact Fb|reflexivity]).
  pose proof (sub_mono a b (f_of_Z 4) N1 N2 H) as H1.
  assert (N3 : f_isnan (f_mul k (f_sub a (f_of_Z 4))) = false) by (apply mul_is_nn; [exact Fk|lia|exact N1]).
  assert (N4 : f_isnan (f_mul k (f_sub b (f_of_Z 4))) = false) by (apply mul_is_nn; [exact Fk|lia|exact N2]).
  assert (H2 : (key (f_mul k (f_sub a (f_of_Z 4))) <= key (f_mul k (f_sub b (f_of_Z 4))))%Z) by (apply mul_mono2; [lia|exact N3|exact N4|exact H1]).
  unfold f_to_u32 in E1, E2. destruct (f_finite (f_mul k (f_sub a (f_of_Z 4)))) eqn:F1; [|discriminate].
  destruct (f_finite (f_mul k (f_sub b (f_of_Z 4)))) eqn:F2; [|discriminate].
  apply (val_le _ _ F1 F2) in H2. cbv zeta in E1, E2.
  set (x := f_val (f_mul k (f_sub a (f_of_Z 4)))) in *. set (y := f_val (f_mul k (f_sub b (f_of_Z 4)))) in *.
  destruct (_ && _) in E1; [|discriminate]. destruct (_ && _) in E2; [|discriminate]. injection E1 as <-. injection E2 as <-.
  clear - H2. destruct x as [xn xd], y as [yn yd]. unfold Qle in H2. cbn [Qnum Qden] in *.
  rewrite <- (Z.quot_mul_cancel_r xn (Zpos xd) (Zpos yd)) by lia.
  rewrite <- (Z.quot_mul_cancel_r yn (Zpos yd) (Zpos xd)) by lia.
  rewrite (Z.mul_comm (Zpos yd) (Zpos xd)). apply Z.quot_le_mono; [lia|exact H2].
Qed.
