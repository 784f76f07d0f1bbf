(** Volumes of tanks: properties. *)
From Coq Require Import ZArith List Bool Lia QArith Qabs.
From Verif Require Import Base FTextModel FloatModel FloatProofs FloatProofs2 LvlModel LvlSpec LvlProofs LvlProofs2 LvlProofs3.
Import ListNotations.
Open Scope Z_scope.

(** * C141: accuracy *)

(** A cylinder: the volume is defined, not negative, in tens, within 5.01 kg and a millionth. *)
Theorem C141_cylinder : forall q r p x, pi_like q -> within 0 1000 r -> within 0 1000 p -> within 0 1000 x ->
  (cyl_m3 q (f_val r) (height_m (f_val p) (f_val x)) <= 2000000)%Q ->
  exists n, cylinder r p x = Some n /\ fits 1 n (cyl_m3 q (f_val r) (height_m (f_val p) (f_val x))) /\ 0 <= n.
Proof. exact cylinder_fits. Qed.
Print Assumptions C141_cylinder.

(** A cone below a cylinder: that of a height that differs from the exact one by less than a millionth. *)
Theorem C141_cone : forall q r c p x, pi_like q -> within 0 50 r -> within (1 # 1000) 200 c -> within 0 1000 p -> within 0 1000 x ->
  (height_m (f_val p) (f_val x) <= 200)%Q ->
  exists h n, (Qabs (h - height_m (f_val p) (f_val x)) <= height_m (f_val p) (f_val x) * (3 # 10000000) + (1 # 10 ^ 30))%Q /\
    cone r c p x = Some n /\ fits 2 n (cone_m3 q (f_val r) (f_val c) h) /\ 0 <= n.
Proof. exact cone_fits. Qed.
Print Assumptions C141_cone.

(** With IO-Link: one sensor or the difference of two, P_MAX_P is not used. *)
Theorem C141_iolink : forall q r c v, pi_like q -> within 0 50 r -> within 0 20 v ->
  (f_le c 0 = true -> exists n, iolink r c v None = Some n /\ fits 1 n (cyl_m3 q (f_val r) (height_m 100 (f_val v))) /\ 0 <= n) /\
  (within (1 # 1000) 200 c -> (height_m 100 (f_val v) <= 200)%Q ->
   exists h n, (Qabs (h - height_m 100 (f_val v)) <= height_m 100 (f_val v) * (3 # 10000000) + (1 # 10 ^ 30))%Q /\
     iolink r c v None = Some n /\ fits 2 n (cone_m3 q (f_val r) (f_val c) h) /\ 0 <= n).
Proof.
  intros q r c v Q R V. assert (F : within 0 1000 F100) by (split; [reflexivity|split; vm_compute; discriminate]). change 100%Q with (f_val F100) || idtac.
  destruct F100_val as [_ FV]. split.
  - intros C. unfold iolink. cbv iota. rewrite C. clear C.
    assert (E : (height_m 100 (f_val v) == height_m (f_val F100) (f_val v))%Q) by (unfold height_m; rewrite FV; reflexivity).
    assert (R1 : within 0 1000 r) by (destruct R as [A [B D]]; split; [exact A|]; split; [exact B|]; eapply Qle_trans; [exact D|vm_compute; discriminate]).
    assert (V1 : within 0 1000 v) by (destruct V as [A [B D]]; split; [exact A|]; split; [exact B|]; eapply Qle_trans; [exact D|vm_compute; discriminate]).
    destruct (cylinder_fits q r F100 v Q R1 F V1) as (n & A & [B1 B2] & C).
    + unfold cyl_m3. rewrite <- E. destruct R as [_ [R0 R2]], V as [_ [V0 V2]], Q as [Q0 Q2].
      assert (H0 : (0 <= height_m 100 (f_val v))%Q) by (unfold height_m; apply Qmult_le_0_compat; [apply Qmult_le_0_compat; [vm_compute; discriminate|exact V0]|vm_compute; discriminate]).
      assert (H1 : (height_m 100 (f_val v) <= 204)%Q).
      { assert (E2 : (height_m 100 (f_val v) == f_val v * (10000 # 981))%Q) by (unfold height_m; field). rewrite E2. apply Qle_trans with (20 * (10000 # 981))%Q; [apply Qmult_le_compat_r; [exact V2|vm_compute; discriminate]|vm_compute; discriminate]. }
      assert (Z : (0 <= q)%Q) by (eapply Qle_trans; [|exact Q0]; vm_compute; discriminate).
      assert (A1 : (q * f_val r <= (314159266 # 100000000) * 50)%Q) by (apply mono2; assumption).
      assert (A2 : (q * f_val r * f_val r <= (314159266 # 100000000) * 50 * 50)%Q) by (apply mono2; try assumption; apply Qmult_le_0_compat; assumption).
      assert (A3 : (q * f_val r * f_val r * height_m 100 (f_val v) <= (314159266 # 100000000) * 50 * 50 * 204)%Q) by (apply mono2; try assumption; repeat apply Qmult_le_0_compat; assumption).
      eapply Qle_trans; [exact A3|vm_compute; discriminate].
    + exists n. split; [exact A|]. split; [|exact C]. split; [|exact B2]. unfold cyl_m3 in *. rewrite E. exact B1.
  - intros C H. unfold iolink.
    assert (L : f_le c 0 = false).
    { destruct (f_le c 0) eqn:L; [|reflexivity]. exfalso. apply f_le_spec in L. destruct L as (_ & _ & L). destruct C as [FC [C0 _]]. apply (val_le c 0 FC eq_refl) in L.
      assert (Z0 : (f_val 0 == 0)%Q) by (vm_compute; reflexivity). rewrite Z0 in L. apply (Qlt_irrefl 0). apply Qlt_le_trans with (1 # 1000); [reflexivity|]. eapply Qle_trans; [exact C0|exact L]. }
    rewrite L. clear L. assert (E : (height_m 100 (f_val v) == height_m (f_val F100) (f_val v))%Q) by (unfold height_m; rewrite FV; reflexivity).
    assert (V1 : within 0 1000 v) by (destruct V as [A [B D]]; split; [exact A|]; split; [exact B|]; eapply Qle_trans; [exact D|vm_compute; discriminate]).
    destruct (cone_fits q r c F100 v Q R C F V1) as (h & n & A & B & D); [rewrite <- E; exact H|]. exists h, n. split; [rewrite E; exact A|]. split; [exact B|exact D].
Qed.
Print Assumptions C141_iolink.

(** Radius 1.5 m, 1 bar at 50 %; pi to 8 digits. *)
Definition fl (q : Q) : Z := f_lit q.
Example C141_example :
  cylinder (fl (3 # 2)) (fl 1) (fl 50) = Some 36030 /\ cone (fl (3 # 2)) (fl 1) (fl 1) (fl 50) = Some 31320 /\
  cone (fl (3 # 2)) (fl 1) (fl 1) (fl 5) = Some 310 /\ iolink (fl (3 # 2)) 0 (fl (1 # 2)) None = Some 36030 /\ iolink (fl (3 # 2)) (fl 1) (fl (1 # 2)) (Some (fl (1 # 4))) = Some 13300 /\
  within 0 1000 (fl (3 # 2)) /\ within 0 1000 (fl 50).
Proof. repeat split; vm_compute; try reflexivity; discriminate. Qed.

(** * C142: order *)

Theorem C142_cylinder : forall r p x y n m, f_le 0 r = true -> f_le 0 p = true -> f_le x y = true -> cylinder r p x = Some n -> cylinder r p y = Some m -> n <= m.
Proof.
  intros r p x y n m R P L. apply f_le_spec in R. apply f_le_spec in P. apply f_le_spec in L. destruct R as (_ & _ & R), P as (_ & _ & P), L as (_ & _ & L).
  exact (cylinder_mono r p x y n m R P L).
Qed.
Print Assumptions C142_cylinder.

(** With a cone a higher level gives a smaller volume in at most one place. *)
Theorem C142_cone : forall r c p, f_le 0 r = true -> f_le 0 p = true -> f_finite p = true -> exists low : Z -> bool,
  (forall x y, f_le 0 x = true -> f_le x y = true -> low y = true -> low x = true) /\
  (forall x y n m, f_le 0 x = true -> f_le x y = true -> low x = low y -> cone r c p x = Some n -> cone r c p y = Some m -> n <= m).
Proof.
  intros r c p R P F. apply f_le_spec in R. apply f_le_spec in P. destruct R as (_ & _ & R), P as (_ & _ & P). exact (cone_order r c p R P F).
Qed.
Print Assumptions C142_cone.

(** There it does: radius 13.95 m, cone of 13 m, 2 bar, 63.765 %: one step of the level up, 10 kg less. *)
Theorem C142_refuted_step : ~ forall r c p x y n m, f_lt 0 r = true -> f_lt 0 c = true -> f_lt 0 p = true -> f_lt 0 x = true -> f_lt x y = true ->
  cone r c p x = Some n -> cone r c p y = Some m -> n <= m.
Proof.
  intros H. specialize (H 1096758067 1095761920 1073741824 1115623261 1115623262 2649240 2649230).
  assert (2649240 <= 2649230); [|lia]. apply H; vm_compute; reflexivity.
Qed.
Print Assumptions C142_refuted_step.

(** * C143: where no volume can be given *)

(** In a state of error the volume is P_ERR without its fraction, whatever is measured. *)
Theorem C143_error : forall st err calc, st < 0 -> f_finite err = true -> (Qabs (f_val err) <= 1000000)%Q ->
  exists n, get_volume st err calc = Some n /\ (Qabs (inject_Z n) <= Qabs (f_val err) < Qabs (inject_Z n) + 1)%Q.
Proof.
  intros st err calc S F B. unfold get_volume. destruct (Z.ltb_spec st 0) as [_|L]; [|lia]. unfold f_to_s32. rewrite F. cbv zeta.
  assert (T : forall y, (0 <= y)%Q -> (inject_Z (Z.quot (Qnum y) (QDen y)) <= y < inject_Z (Z.quot (Qnum y) (QDen y)) + 1)%Q /\ 0 <= Z.quot (Qnum y) (QDen y)).
  { intros y Y. rewrite (quot_floor y Y). split; [split; [apply Qround.Qfloor_le|]|].
    - pose proof (Qround.Qlt_floor y) as H. rewrite inject_Z_plus in H. exact H.
    - change 0 with (Qround.Qfloor 0). apply Qround.Qfloor_resp_le, Y. }
  set (v := f_val err) in *. set (t := Z.quot (Qnum v) (QDen v)).
  assert (G : (Qabs (inject_Z t) <= Qabs v < Qabs (inject_Z t) + 1)%Q).
  { destruct (Qlt_le_dec v 0) as [N|P].
    - assert (E : t = - Z.quot (Qnum (- v)) (QDen (- v))). { unfold t. destruct v as [n d]. cbn [Qopp Qnum Qden]. rewrite Z.quot_opp_l by lia. lia. }
      destruct (T (- v)%Q) as [[T1 T2] T3]; [apply (Qopp_le_compat v 0), Qlt_le_weak, N|]. set (k := Z.quot (Qnum (- v)) (QDen (- v))) in *. rewrite E.
      rewrite inject_Z_opp, Qabs_opp. rewrite (Qabs_neg v) by (apply Qlt_le_weak, N). rewrite (Qabs_pos (inject_Z k)) by (change 0%Q with (inject_Z 0); rewrite <- Zle_Qle; exact T3). split; assumption.
    - destruct (T v P) as [[T1 T2] T3]. fold t in T1, T2, T3. rewrite (Qabs_pos v P). rewrite (Qabs_pos (inject_Z t)) by (change 0%Q with (inject_Z 0); rewrite <- Zle_Qle; exact T3). split; assumption. }
  assert (R : - 1000000 <= t <= 1000000).
  { destruct G as [G _]. assert (K : (Qabs (inject_Z t) <= 1000000)%Q) by (eapply Qle_trans; [exact G|exact B]). apply Qabs_Qle_condition in K. destruct K as [K1 K2].
    change (- (1000000))%Q with (inject_Z (- 1000000)) in K1. change 1000000%Q with (inject_Z 1000000) in K2. rewrite <- Zle_Qle in K1, K2. split; assumption. }
  exists t. split; [|exact G]. destruct (Z.leb_spec (- 2 ^ 31) t); [|lia]. destruct (Z.ltb_spec t (2 ^ 31)); [reflexivity|lia].
Qed.
Print Assumptions C143_error.

(** Not a number among the parameters or as level: the behaviour is undefined. *)
Theorem C143_refuted_nan : forall r p x, f_isnan r = true \/ f_isnan p = true \/ f_isnan x = true -> cylinder r p x = None.
Proof.
  intros r p x H. destruct (cylinder r p x) as [n|] eqn:E; [|reflexivity]. exfalso. apply cyl_fin in E. destruct E as (_ & R & P & X).
  apply fin_nn in P. apply fin_nn in X. apply fin_nn in R. destruct H as [H|[H|H]]; congruence.
Qed.
Print Assumptions C143_refuted_nan.

(** A negative volume in a good state: the second sensor shows more than the first. *)
Theorem C143_negative : forall r v e n, f_le 0 r = true -> f_finite v = true -> f_le v e = true -> iolink r 0 v (Some e) = Some n -> n <= 0.
Proof.
  intros r v e n R F L H. assert (E : iolink r 0 v (Some e) = cylinder r F100 (f_sub v e)) by reflexivity. rewrite E in H.
  destruct (cyl_fin _ _ _ _ H) as (FA & _ & _ & FS). apply f_le_spec in L. destruct L as (_ & _ & L).
  apply (C142_cylinder r F100 (f_sub v e) 0 n 0 R); [vm_compute; reflexivity| |exact H|exact (cyl_zero r FA)].
  apply f_le_spec. split; [apply (fin_nn _ FS)|]. split; [reflexivity|]. exact (sub_neg v e F FS L).
Qed.
Print Assumptions C143_negative.

Example C143_example :
  iolink (fl (3 # 2)) 0 (fl (1 # 4)) (Some (fl (1 # 2))) = Some (-18000) /\ get_volume (-1) (fl (-1000)) (Some 5) = Some (-1000) /\ get_volume 1 (fl (-1000)) (Some 5) = Some 5 /\
  cylinder (fl 5000) (fl 100) (fl 100) = None.
Proof. repeat split; vm_compute; reflexivity. Qed.
