(** Volumes: proofs. *)
From Coq Require Import ZArith List Bool Lia QArith Qround Qpower Qabs Lqa.
From Verif Require Import Base FTextModel FloatModel FloatProofs FloatProofs2 AioProofs LvlModel LvlSpec LvlProofs.
Open Scope Q_scope.

Definition PIQ : Q := 13176795 # 4194304.
Definition GQ : Q := 10286531 # 1048576.
Lemma PI_val : f_finite PI_F = true /\ f_val PI_F == PIQ. Proof. split; [reflexivity|vm_compute; reflexivity]. Qed.
Lemma G_val : f_finite G_F = true /\ f_val G_F == GQ. Proof. split; [reflexivity|vm_compute; reflexivity]. Qed.
Lemma F2_val : f_finite F2 = true /\ f_val F2 == 2. Proof. split; [reflexivity|vm_compute; reflexivity]. Qed.
Lemma F3_val : f_finite F3 = true /\ f_val F3 == 3. Proof. split; [reflexivity|vm_compute; reflexivity]. Qed.
Lemma exact_in : forall a b f, 0 <= a -> within a b f -> near 0 0 (f_val f) f /\ 0 <= f_val f <= b.
Proof. intros a b f A [F [L U]]. split; [|lra]. apply near_exact; [exact F|reflexivity|lra]. Qed.
Ltac qc := vm_compute; discriminate.
Ltac side := first [assumption | lra | unfold TINY; lra | qc | unfold TINY; qc].
(** A multiplication with an exact number. *)
Lemma near_mul0 : forall a e x b y c X Y, near a e x b -> near 0 0 y c -> 0 <= a -> 0 <= e -> a <= 1 # 524288 -> e <= TINY -> x <= X -> y <= Y -> 1 <= X -> 1 <= Y -> X * Y <= inject_Z (10 ^ 30) ->
  near (a + (2 # 16777216)) (2 * (e * Y) + z) (x * y) (f_mul b c).
Proof.
  intros a e x b y c X Y NB NC A E A1 E1 XX YY X1 Y1 XY. eapply near_weak; [| |apply (near_mul a e x b 0 0 y c X Y NB NC)]; try assumption; try (unfold TINY; lra). 
Qed.
(** The height. *)
Lemma height_near : forall p x, within 0 1000 p -> within 0 1000 x -> near (4 # 16777216) (1 # 10 ^ 40) (f_val p * f_val x / GQ) (height p x).
Proof.
  intros p x P X. destruct (exact_in 0 1000 p (Qle_refl 0) P) as [NP BP]. destruct (exact_in 0 1000 x (Qle_refl 0) X) as [NX BX]. destruct G_val as [GF GV].
  assert (M : near (0 + (2 # 16777216)) (2 * (0 * 1000) + z) (f_val p * f_val x) (f_mul p x)) by (apply (near_mul0 0 0 _ p _ x 1000 1000); side).
  assert (B : f_val p * f_val x <= 1000 * 1000) by (apply mono2; lra).
  assert (D : near (0 + (2 # 16777216) + (2 # 16777216)) (2 * (2 * (0 * 1000) + z) + z) (f_val p * f_val x / GQ) (height p x)).
  { unfold height. apply near_div; [exact M|exact GF|exact GV|qc|qc|qc|qc|unfold TINY; qc|]. apply Qle_trans with (1000 * 1000); [exact B|qc]. }
  eapply near_weak; [| |exact D]; qc.
Qed.
(** Cylinder. *)
Lemma cylinder_near : forall r p x, within 0 1000 r -> within 0 1000 p -> within 0 1000 x ->
  near (10 # 16777216) (1 # 10 ^ 25) (PIQ * f_val r * f_val r * f_val x * f_val p / GQ) (f_div (f_mul (f_mul (f_mul (f_mul PI_F r) r) x) p) G_F).
Proof.
  intros r p x R P X. destruct (exact_in 0 1000 r (Qle_refl 0) R) as [NR BR]. destruct (exact_in 0 1000 p (Qle_refl 0) P) as [NP BP]. destruct (exact_in 0 1000 x (Qle_refl 0) X) as [NX BX].
  destruct G_val as [GF GV]. destruct PI_val as [PF PV]. assert (NPI : near 0 0 PIQ PI_F) by (apply near_exact; [exact PF|exact PV|qc]).
  assert (B1 : PIQ * f_val r <= 4 * 1000) by (apply mono2; try lra; qc). assert (Z1 : 0 <= PIQ * f_val r) by (apply Qmult_le_0_compat; [qc|lra]).
  assert (B2 : PIQ * f_val r * f_val r <= 4 * 1000 * 1000) by (apply mono2; lra). assert (Z2 : 0 <= PIQ * f_val r * f_val r) by (apply Qmult_le_0_compat; lra).
  assert (B3 : PIQ * f_val r * f_val r * f_val x <= 4 * 1000 * 1000 * 1000) by (apply mono2; lra). assert (Z3 : 0 <= PIQ * f_val r * f_val r * f_val x) by (apply Qmult_le_0_compat; lra).
  assert (B4 : PIQ * f_val r * f_val r * f_val x * f_val p <= 4 * 1000 * 1000 * 1000 * 1000) by (apply mono2; lra).
  assert (M1 : near (2 # 16777216) (1 # 10 ^ 40) (PIQ * f_val r) (f_mul PI_F r)).
  { eapply near_weak; [| |apply (near_mul0 0 0 PIQ PI_F (f_val r) r 4 1000)]; side. }
  assert (M2 : near (4 # 16777216) (1 # 10 ^ 36) (PIQ * f_val r * f_val r) (f_mul (f_mul PI_F r) r)).
  { eapply near_weak; [| |apply (near_mul0 (2 # 16777216) (1 # 10 ^ 40) (PIQ * f_val r) _ (f_val r) r 4000 1000)]; side. }
  assert (M3 : near (6 # 16777216) (1 # 10 ^ 32) (PIQ * f_val r * f_val r * f_val x) (f_mul (f_mul (f_mul PI_F r) r) x)).
  { eapply near_weak; [| |apply (near_mul0 (4 # 16777216) (1 # 10 ^ 36) (PIQ * f_val r * f_val r) _ (f_val x) x 4000000 1000)]; side. }
  assert (M4 : near (8 # 16777216) (1 # 10 ^ 28) (PIQ * f_val r * f_val r * f_val x * f_val p) (f_mul (f_mul (f_mul (f_mul PI_F r) r) x) p)).
  { eapply near_weak; [| |apply (near_mul0 (6 # 16777216) (1 # 10 ^ 32) (PIQ * f_val r * f_val r * f_val x) _ (f_val p) p 4000000000 1000)]; side. }
  eapply near_weak; [| |apply (near_div (8 # 16777216) (1 # 10 ^ 28) _ _ GQ G_F M4 GF GV); [qc|qc|qc|qc|qc|]]; [qc|qc|].
  eapply Qle_trans; [exact B4|qc].
Qed.
(** Constants of the program against exact ones. *)
Lemma const_near : forall q b, pi_like q -> 0 <= b -> - ((1 # 10000000) * (q * b)) <= PIQ * b - q * b <= (1 # 10000000) * (q * b).
Proof.
  intros q b [Q1 Q2] B. assert (C : - ((1 # 10000000) * q) <= PIQ - q <= (1 # 10000000) * q) by (unfold PIQ; lra).
  assert (E : PIQ * b - q * b == (PIQ - q) * b) by ring. rewrite E.
  assert (E2 : (1 # 10000000) * (q * b) == (1 # 10000000) * q * b) by ring. rewrite E2.
  split; [assert (- ((1 # 10000000) * q) * b <= (PIQ - q) * b) by (apply Qmult_le_compat_r; lra); lra|apply Qmult_le_compat_r; lra].
Qed.
Lemma pi_g_near : forall q b, pi_like q -> 0 <= b -> - ((1 # 10000000) * (q * b / (981 # 100))) <= PIQ * b / GQ - q * b / (981 # 100) <= (1 # 10000000) * (q * b / (981 # 100)).
Proof.
  intros q b [Q1 Q2] B. assert (C : - ((1 # 10000000) * (q / (981 # 100))) <= PIQ / GQ - q / (981 # 100) <= (1 # 10000000) * (q / (981 # 100))).
  { assert (E : q / (981 # 100) == q * (100 # 981)) by (field). rewrite E.
    assert (V : (3202438946 # 10000000000) <= PIQ / GQ <= (3202438947 # 10000000000)) by (split; qc). lra. }
  assert (E : PIQ * b / GQ - q * b / (981 # 100) == (PIQ / GQ - q / (981 # 100)) * b) by (field; unfold GQ; lra). rewrite E.
  assert (E2 : (1 # 10000000) * (q * b / (981 # 100)) == (1 # 10000000) * (q / (981 # 100)) * b) by field. rewrite E2.
  split; [assert (- ((1 # 10000000) * (q / (981 # 100))) * b <= (PIQ / GQ - q / (981 # 100)) * b) by (apply Qmult_le_compat_r; lra); lra|apply Qmult_le_compat_r; lra].
Qed.
Lemma fits_from : forall a e x v m k, near a e x v -> 0 <= a -> 0 <= e -> a <= 1 # 524288 -> e <= 1 # 100000000000000000000 -> 0 <= m -> m <= 2000000 -> - ((1 # 10000000) * m) <= x - m <= (1 # 10000000) * m ->
  (a + (4 # 16777216)) * (1 + (1 # 10000000)) + (1 # 10000000) <= k * (1 # 1000000) -> exists n, kilograms v = Some n /\ fits k n m /\ (0 <= n)%Z.
Proof.
  intros a e x v m k N A E A1 E1 M0 M1 XM K. destruct (kilograms_near a e x v N A E A1 E1) as (n & H & (t & T) & B1 & B2); [lra|].
  exists n. split; [exact H|]. assert (G : (a + (4 # 16777216)) * (1000 * x) <= (a + (4 # 16777216)) * ((1 + (1 # 10000000)) * (1000 * m))) by (apply mul_le_l; lra).
  assert (G2 : (a + (4 # 16777216)) * ((1 + (1 # 10000000)) * (1000 * m)) == 1000 * ((a + (4 # 16777216)) * (1 + (1 # 10000000)) * m)) by ring. rewrite G2 in G.
  assert (K2 : ((a + (4 # 16777216)) * (1 + (1 # 10000000)) + (1 # 10000000)) * m <= k * (1 # 1000000) * m) by (apply Qmult_le_compat_r; assumption).
  assert (K3 : ((a + (4 # 16777216)) * (1 + (1 # 10000000)) + (1 # 10000000)) * m == (a + (4 # 16777216)) * (1 + (1 # 10000000)) * m + (1 # 10000000) * m) by ring. rewrite K3 in K2.
  assert (X0 : 0 <= x) by apply N.
  split; [split; [|exists t; exact T]|].
  - assert (K4 : 1000 * m * (k * (1 # 1000000)) == 1000 * (k * (1 # 1000000) * m)) by ring. apply abs_iff. rewrite K4.
    set (g := (a + (4 # 16777216)) * (1000 * x)) in *. set (h := (a + (4 # 16777216)) * (1 + (1 # 10000000)) * m) in *. set (km := k * (1 # 1000000) * m) in *. set (nn := inject_Z n) in *. split; lra.
  - assert (S : (a + (4 # 16777216)) * (1000 * x) <= (1 # 1000) * (1000 * x)) by (apply Qmult_le_compat_r; lra).
    set (g := (a + (4 # 16777216)) * (1000 * x)) in *. assert (P : inject_Z (-6) <= inject_Z n) by (change (inject_Z (-6)) with (-6 # 1); set (nn := inject_Z n) in *; lra). rewrite <- Zle_Qle in P. lia.
Qed.
Lemma cylinder_fits : forall q r p x, pi_like q -> within 0 1000 r -> within 0 1000 p -> within 0 1000 x ->
  cyl_m3 q (f_val r) (height_m (f_val p) (f_val x)) <= 2000000 -> exists n, cylinder r p x = Some n /\ fits 1 n (cyl_m3 q (f_val r) (height_m (f_val p) (f_val x))) /\ (0 <= n)%Z.
Proof.
  intros q r p x Q R P X B. unfold cylinder. pose proof (cylinder_near r p x R P X) as N.
  set (b := f_val r * f_val r * (f_val x * f_val p)).
  assert (B0 : 0 <= b). { destruct R as [_ R], P as [_ P], X as [_ X]. unfold b. repeat apply Qmult_le_0_compat; lra. }
  assert (E1 : PIQ * f_val r * f_val r * f_val x * f_val p / GQ == PIQ * b / GQ) by (unfold b; field; unfold GQ; lra).
  assert (E2 : cyl_m3 q (f_val r) (height_m (f_val p) (f_val x)) == q * b / (981 # 100)) by (unfold cyl_m3, height_m, b; field).
  eapply fits_from; [exact N|qc|qc|qc|qc| |exact B| |qc].
  - rewrite E2. assert (E3 : q * b / (981 # 100) == q * (b * (100 # 981))) by field. rewrite E3. destruct Q. apply Qmult_le_0_compat; [lra|]. apply Qmult_le_0_compat; lra.
  - rewrite E1, E2. apply pi_g_near; assumption.
Qed.

(** * The cone *)
Lemma near_quot : forall b c, within 0 1000 b -> within (1 # 1000) 1000 c -> near (2 # 16777216) z (f_val b / f_val c) (f_div b c).
Proof.
  intros b c [FB [B0 B1]] [FC [C0 C1]]. assert (NZ : ~ f_val c == 0) by lra.
  assert (I1 : 0 < / f_val c) by (apply Qinv_lt_0_compat; lra).
  assert (I2 : / f_val c <= 1000).
  { assert (/ f_val c * (1 # 1000) <= / f_val c * f_val c) by (apply mul_le_l; lra). assert (/ f_val c * f_val c == 1) by (field; lra). lra. }
  assert (D0 : 0 <= f_val b / f_val c) by (apply Qmult_le_0_compat; lra). assert (D1 : f_val b / f_val c <= 1000 * 1000) by (apply mono2; lra).
  set (d := f_val b / f_val c) in *.
  assert (AB : Qabs d <= d) by (apply abs_iff; lra).
  assert (MB : Qabs d <= p2 127) by (eapply Qle_trans; [exact AB|]; eapply Qle_trans; [exact D1|qc]).
  destruct (div_rel b c FB FC NZ MB) as [F R]. fold d in R. split; [exact F|]. split; [exact D0|]. apply abs_iff in R.
  set (ab := Qabs d) in *. set (zz := z) in *. set (v := f_val (f_div b c)) in *. split; lra.
Qed.
Lemma tangent_near : forall r c, within 0 50 r -> within (1 # 1000) 200 c -> near (2 # 16777216) z (f_val r / f_val c) (tangent r c).
Proof.
  intros r c [FR [R0 R1]] [FC [C0 C1]]. unfold tangent.
  assert (L : f_lt 0 c = true). { apply f_lt_spec. split; [reflexivity|]. split; [apply (finite_not c FC)|]. change (key 0) with 0%Z. apply val_pos_key; [exact FC|lra]. }
  rewrite L. apply near_quot; (split; [assumption|lra]).
Qed.
Lemma in_cone_near : forall r c h, within 0 50 r -> within (1 # 1000) 200 c -> within 0 200 h ->
  near (16 # 16777216) (1 # 10 ^ 25) (PIQ * (f_val r * f_val r * f_val h * f_val h * f_val h / (3 * f_val c * f_val c))) (in_cone r c h).
Proof.
  intros r c h R C H. pose proof (tangent_near r c R C) as NT. destruct (exact_in 0 200 h (Qle_refl 0) H) as [NH BH]. destruct F3_val as [F3F F3V].
  destruct PI_val as [PF PV]. assert (NPI : near 0 0 PIQ PI_F) by (apply near_exact; [exact PF|exact PV|qc]).
  unfold in_cone. cbv zeta. set (t := tangent r c) in *. set (hv := f_val h) in *.
  destruct R as [FR [R0 R1]]. destruct C as [FC [C0 C1]].
  assert (T0 : 0 <= f_val r / f_val c) by apply NT.
  assert (T1 : f_val r / f_val c <= 50000).
  { assert (I1 : 0 < / f_val c) by (apply Qinv_lt_0_compat; lra).
    assert (I2 : / f_val c <= 1000) by (assert (/ f_val c * (1 # 1000) <= / f_val c * f_val c) by (apply mul_le_l; lra); assert (/ f_val c * f_val c == 1) by (field; lra); lra).
    apply Qle_trans with (50 * 1000); [apply mono2; lra|qc]. }
  set (tv := f_val r / f_val c) in *.
  assert (B1 : PIQ * hv <= 4 * 200) by (apply mono2; try lra; qc). assert (Z1 : 0 <= PIQ * hv) by (apply Qmult_le_0_compat; [qc|lra]).
  assert (B2 : PIQ * hv * tv <= 800 * 50000) by (apply mono2; lra). assert (Z2 : 0 <= PIQ * hv * tv) by (apply Qmult_le_0_compat; lra).
  assert (B3 : PIQ * hv * tv * hv <= 40000000 * 200) by (apply mono2; lra). assert (Z3 : 0 <= PIQ * hv * tv * hv) by (apply Qmult_le_0_compat; lra).
  assert (B4 : PIQ * hv * tv * hv * tv <= 8000000000 * 50000) by (apply mono2; lra). assert (Z4 : 0 <= PIQ * hv * tv * hv * tv) by (apply Qmult_le_0_compat; lra).
  assert (B5 : PIQ * hv * tv * hv * tv * hv <= 400000000000000 * 200) by (apply mono2; lra).
  assert (M1 : near (2 # 16777216) (1 # 10 ^ 44) (PIQ * hv) (f_mul PI_F h)).
  { eapply near_weak; [| |apply (near_mul0 0 0 PIQ PI_F hv h 4 200); [exact NPI|exact NH|qc|qc|qc|qc|qc|lra|qc|qc|qc]]; qc. }
  assert (M2 : near (6 # 16777216) (1 # 10 ^ 38) (PIQ * hv * tv) (f_mul (f_mul PI_F h) t)).
  { eapply near_weak; [| |apply (near_mul (2 # 16777216) (1 # 10 ^ 44) (PIQ * hv) _ (2 # 16777216) z tv t 800 50000 M1 NT); [qc|qc|qc|qc|qc|qc|qc|qc|lra|lra|qc|qc|qc]]; qc. }
  assert (M3 : near (8 # 16777216) (1 # 10 ^ 35) (PIQ * hv * tv * hv) (f_mul (f_mul (f_mul PI_F h) t) h)).
  { eapply near_weak; [| |apply (near_mul0 (6 # 16777216) (1 # 10 ^ 38) (PIQ * hv * tv) _ hv h 40000000 200 M2 NH); [qc|qc|qc|qc|lra|lra|qc|qc|qc]]; qc. }
  assert (M4 : near (12 # 16777216) (1 # 10 ^ 29) (PIQ * hv * tv * hv * tv) (f_mul (f_mul (f_mul (f_mul PI_F h) t) h) t)).
  { eapply near_weak; [| |apply (near_mul (8 # 16777216) (1 # 10 ^ 35) (PIQ * hv * tv * hv) _ (2 # 16777216) z tv t 8000000000 50000 M3 NT); [qc|qc|qc|qc|qc|qc|qc|qc|lra|lra|qc|qc|qc]]; qc. }
  assert (M5 : near (14 # 16777216) (1 # 10 ^ 26) (PIQ * hv * tv * hv * tv * hv) (f_mul (f_mul (f_mul (f_mul (f_mul PI_F h) t) h) t) h)).
  { eapply near_weak; [| |apply (near_mul0 (12 # 16777216) (1 # 10 ^ 29) (PIQ * hv * tv * hv * tv) _ hv h 400000000000000 200 M4 NH); [qc|qc|qc|qc|lra|lra|qc|qc|qc]]; qc. }
  assert (M6 : near (16 # 16777216) (1 # 10 ^ 25) (PIQ * hv * tv * hv * tv * hv / 3) (f_div (f_mul (f_mul (f_mul (f_mul (f_mul PI_F h) t) h) t) h) F3)).
  { eapply near_weak; [| |apply (near_div (14 # 16777216) (1 # 10 ^ 26) _ _ 3 F3 M5 F3F F3V); [qc|qc|qc|qc|qc|]]; [qc|qc|]. eapply Qle_trans; [exact B5|qc]. }
  eapply near_eq; [|exact M6]. unfold tv, hv. field. lra.
Qed.
Lemma above_cone_near : forall r c h, within 0 50 r -> within (1 # 1000) 200 c -> within 0 201 h -> f_val c <= f_val h ->
  near (16 # 16777216) (1 # 10 ^ 25) (PIQ * (f_val r * f_val r * (f_val h - 2 * f_val c / 3))) (above_cone r c h).
Proof.
  intros r c h R C H L. destruct (exact_in 0 50 r (Qle_refl 0) R) as [NR BR]. destruct (exact_in (1 # 1000) 200 c ltac:(qc) C) as [NC BC]. destruct F3_val as [F3F F3V]. destruct F2_val as [F2F F2V].
  destruct PI_val as [PF PV]. assert (NPI : near 0 0 PIQ PI_F) by (apply near_exact; [exact PF|exact PV|qc]).
  assert (N2 : near 0 0 2 F2) by (apply near_exact; [exact F2F|exact F2V|qc]).
  destruct C as [FC [C0 C1]]. destruct H as [FH [H0 H1]]. unfold above_cone. set (rv := f_val r) in *. set (cv := f_val c) in *. set (hv := f_val h) in *.
  assert (K1 : near (2 # 16777216) (1 # 10 ^ 44) (cv * 2) (f_mul c F2)).
  { eapply near_weak; [| |apply (near_mul0 0 0 cv c 2 F2 200 2 NC N2); [qc|qc|qc|qc|lra|qc|qc|qc|qc]]; qc. }
  assert (K2 : near (4 # 16777216) (1 # 10 ^ 43) (cv * 2 / 3) (f_div (f_mul c F2) F3)).
  { eapply near_weak; [| |apply (near_div (2 # 16777216) (1 # 10 ^ 44) _ _ 3 F3 K1 F3F F3V); [qc|qc|qc|qc|qc|]]; [qc|qc|]. apply Qle_trans with 400; [lra|qc]. }
  destruct K2 as (FK & K0 & K2). set (k := f_div (f_mul c F2) F3) in *. set (kv := f_val k) in *.
  assert (E3 : cv * 2 / 3 == cv * (2 # 3)) by (field). rewrite E3 in K2, K0.
  assert (S : near (10 # 16777216) (1 # 10 ^ 42) (hv - 2 * cv / 3) (f_sub h k)).
  { assert (E4 : 2 * cv / 3 == cv * (2 # 3)) by (field). set (e43 := 1 # 10 ^ 43) in *. assert (Z0 : 0 <= e43 <= 1 # 1000000) by (split; qc).
    assert (AB : Qabs (hv - kv) <= (hv - cv * (2 # 3)) * (1 + (8 # 16777216)) + e43) by (apply abs_iff; lra).
    assert (MB : Qabs (f_val h - f_val k) <= p2 127). { fold hv kv. eapply Qle_trans; [exact AB|]. apply Qle_trans with 1000; [lra|qc]. }
    destruct (sub_rel h k FH FK MB) as [F Q]. split; [exact F|]. rewrite E4. split; [lra|]. fold hv kv in Q. apply abs_iff in Q.
    assert (Z1 : z + 2 * e43 <= 1 # 10 ^ 42) by (unfold e43; qc). assert (Z2 : 0 <= z) by qc. set (zz := z) in *. set (E42 := 1 # 10 ^ 42) in *. set (v := f_val (f_sub h k)) in *. set (ab := Qabs (hv - kv)) in *. split; lra. }
  set (s := f_sub h k) in *. assert (S1 : hv - 2 * cv / 3 <= 201). { assert (E4 : 2 * cv / 3 == cv * (2 # 3)) by field. rewrite E4. lra. }
  assert (S0 : 0 <= hv - 2 * cv / 3) by apply S. set (d := hv - 2 * cv / 3) in *.
  assert (B1 : PIQ * rv <= 4 * 50) by (apply mono2; try lra; qc). assert (Z1 : 0 <= PIQ * rv) by (apply Qmult_le_0_compat; [qc|lra]).
  assert (B2 : PIQ * rv * rv <= 200 * 50) by (apply mono2; lra). assert (Z2 : 0 <= PIQ * rv * rv) by (apply Qmult_le_0_compat; lra).
  assert (M1 : near (2 # 16777216) (1 # 10 ^ 44) (PIQ * rv) (f_mul PI_F r)).
  { eapply near_weak; [| |apply (near_mul0 0 0 PIQ PI_F rv r 4 50 NPI NR); [qc|qc|qc|qc|qc|lra|qc|qc|qc]]; qc. }
  assert (M2 : near (4 # 16777216) (1 # 10 ^ 40) (PIQ * rv * rv) (f_mul (f_mul PI_F r) r)).
  { eapply near_weak; [| |apply (near_mul0 (2 # 16777216) (1 # 10 ^ 44) (PIQ * rv) _ rv r 200 50 M1 NR); [qc|qc|qc|qc|lra|lra|qc|qc|qc]]; qc. }
  assert (M3 : near (16 # 16777216) (1 # 10 ^ 25) (PIQ * rv * rv * d) (f_mul (f_mul (f_mul PI_F r) r) s)).
  { eapply near_weak; [| |apply (near_mul (4 # 16777216) (1 # 10 ^ 40) (PIQ * rv * rv) _ (10 # 16777216) (1 # 10 ^ 42) d s 10000 201 M2 S); [qc|qc|qc|qc|qc|qc|qc|qc|lra|lra|qc|qc|qc]]; qc. }
  eapply near_eq; [|exact M3]. ring.
Qed.
Lemma cone_fits : forall q r c p x, pi_like q -> within 0 50 r -> within (1 # 1000) 200 c -> within 0 1000 p -> within 0 1000 x -> height_m (f_val p) (f_val x) <= 200 ->
  exists h n, Qabs (h - height_m (f_val p) (f_val x)) <= height_m (f_val p) (f_val x) * (3 # 10000000) + (1 # 10 ^ 30) /\
  cone r c p x = Some n /\ fits 2 n (cone_m3 q (f_val r) (f_val c) h) /\ (0 <= n)%Z.
Proof.
  intros q r c p x Q R C P X B. pose proof (height_near p x P X) as (FH & H0 & HH).
  assert (PX : 0 <= f_val p * f_val x). { destruct P as [_ P], X as [_ X]. apply Qmult_le_0_compat; lra. }
  unfold cone. cbv zeta. set (h := height p x) in *. set (px := f_val p * f_val x) in *. set (hv := f_val h) in *.
  assert (E1 : height_m (f_val p) (f_val x) == px * (100 # 981)) by (unfold height_m; fold px; field). 
  assert (E2 : px / GQ == px * (1048576 # 10286531)) by (unfold GQ; field).
  rewrite E1 in B. rewrite E2 in H0, HH. set (e40 := 1 # 10 ^ 40) in *. assert (Z40 : 0 <= e40 <= 1 # 10 ^ 30) by (split; qc).
  assert (HB : hv <= 201) by (assert (1 # 10 ^ 30 <= 1 # 10) by qc; set (e30 := 1 # 10 ^ 30) in *; lra).
  assert (HN : 0 <= hv).
  { apply val_nonneg_key; [exact FH|]. unfold hv, h, height. destruct P as [FP P], X as [FX X].
    assert (K : near (4 # 16777216) e40 (px / GQ) (height p x)) by (apply height_near; split; assumption).
    (* signs *)
    destruct (Z_lt_le_dec (key (f_div (f_mul p x) G_F)) 0) as [N|N]; [|exact N]. exfalso.
    assert (FM : f_finite (f_mul p x) = true). { destruct (f_finite (f_mul p x)) eqn:F; [reflexivity|]. exfalso. unfold h, height, f_div in FH. rewrite F in FH || idtac.
      assert (NN : f_isnan (f_mul p x) = false). { destruct (mul_finite p x FP FX) as (s & y & E & _) || idtac. unfold f_mul. destruct (finite_not p FP) as [-> ->]. destruct (finite_not x FX) as [-> ->]. apply round_parts. }
      rewrite NN in FH. rewrite (f_isnan_not _ NN F) in FH. cbn in FH. destruct (xorb _ _) in FH; discriminate FH. }
    assert (KM : (0 <= key (f_mul p x))%Z).
    { unfold f_mul. destruct (finite_not p FP) as [-> ->]. destruct (finite_not x FX) as [-> ->]. cbn [orb].
      destruct (round_parts (xorb (f_neg p) (f_neg x)) (f_val p * f_val x)) as (-> & _). change 0%Z with (rk 0). apply rk_mono. exact PX. }
    assert (KD : (0 <= key (f_div (f_mul p x) G_F))%Z).
    { unfold f_div. destruct (finite_not _ FM) as [-> ->]. change (f_isnan G_F) with false. change (f_isinf G_F) with false. change (f_iszero G_F) with false. cbn [orb].
      destruct (round_parts (xorb (f_neg (f_mul p x)) (f_neg G_F)) (f_val (f_mul p x) / f_val G_F)) as (-> & _). change 0%Z with (rk 0). apply rk_mono.
      apply val_nonneg_key in KM; [|exact FM]. apply Qmult_le_0_compat; [exact KM|qc]. }
    lia. }
  exists hv.
  assert (HE : Qabs (hv - height_m (f_val p) (f_val x)) <= height_m (f_val p) (f_val x) * (3 # 10000000) + (1 # 10 ^ 30)).
  { rewrite E1. set (e30 := 1 # 10 ^ 30) in *. apply abs_iff. split; lra. }
  assert (BR : forall b m v, near (16 # 16777216) (1 # 10 ^ 25) (PIQ * b) v -> m == q * b -> 0 <= b -> b <= 600000 -> exists n, kilograms v = Some n /\ fits 2 n m /\ (0 <= n)%Z).
  { intros b m v N EM B0 B1. destruct Q as [Q1 Q2]. assert (QB : q * b <= (314159266 # 100000000) * 600000) by (apply mono2; lra). assert (QB0 : 0 <= q * b) by (apply Qmult_le_0_compat; lra).
    apply (fits_from (16 # 16777216) (1 # 10 ^ 25) (PIQ * b) v m 2); [exact N|qc|qc|qc|qc|rewrite EM; lra|rewrite EM; lra|rewrite EM; apply const_near; [split; assumption|exact B0]|qc]. }
  assert (LE : f_le h c = Qle_bool hv (f_val c)).
  { destruct C as [FC C]. destruct (Qle_bool hv (f_val c)) eqn:QL.
    - apply Qle_bool_iff in QL. apply f_le_spec. split; [apply (finite_not h FH)|]. split; [apply (finite_not c FC)|]. apply val_le; assumption.
    - destruct (f_le h c) eqn:FL; [|reflexivity]. apply f_le_spec in FL. destruct FL as (_ & _ & FL). apply val_le in FL; [|exact FH|exact FC]. fold hv in FL. apply Qle_bool_iff in FL. congruence. }
  rewrite LE. pose proof R as [FR [R0 R1]]. pose proof C as [FC [C0 C1]].
  assert (RR : f_val r * f_val r <= 50 * 50) by (apply mono2; lra). assert (RR0 : 0 <= f_val r * f_val r) by (apply Qmult_le_0_compat; lra).
  assert (GO : exists n, kilograms (if Qle_bool hv (f_val c) then in_cone r c h else above_cone r c h) = Some n /\ fits 2 n (cone_m3 q (f_val r) (f_val c) hv) /\ (0 <= n)%Z).
  { unfold cone_m3. destruct (Qle_bool hv (f_val c)) eqn:QL.
    - apply Qle_bool_iff in QL.
      eapply BR; [apply in_cone_near; [exact R|exact C|split; [exact FH|fold hv; lra]]|fold hv; field; lra| |].
      + fold hv. apply Qmult_le_0_compat; [repeat apply Qmult_le_0_compat; lra|]. apply Qinv_le_0_compat. repeat apply Qmult_le_0_compat; lra.
      + fold hv. set (g := hv / f_val c). assert (G0 : 0 <= g) by (apply Qmult_le_0_compat; [exact HN|apply Qinv_le_0_compat; lra]).
        assert (G1 : g <= 1). { unfold g. assert (hv * / f_val c <= f_val c * / f_val c) by (apply Qmult_le_compat_r; [exact QL|apply Qinv_le_0_compat; lra]). assert (f_val c * / f_val c == 1) by (field; lra). unfold Qdiv. lra. }
        assert (E : f_val r * f_val r * hv * hv * hv / (3 * f_val c * f_val c) == f_val r * f_val r * (hv * (g * g)) * (1 # 3)) by (unfold g; field; lra). rewrite E.
        assert (GG : g * g <= 1 * 1) by (apply mono2; lra). assert (GG0 : 0 <= g * g) by (apply Qmult_le_0_compat; lra).
        assert (HG : hv * (g * g) <= 201 * 1) by (apply mono2; lra). assert (HG0 : 0 <= hv * (g * g)) by (apply Qmult_le_0_compat; lra).
        assert (f_val r * f_val r * (hv * (g * g)) <= 2500 * 201) by (apply mono2; lra). lra.
    - assert (QG : f_val c < hv). { destruct (Qlt_le_dec (f_val c) hv) as [G|G]; [exact G|]. apply Qle_bool_iff in G. congruence. }
      eapply BR; [apply above_cone_near; [exact R|exact C|split; [exact FH|fold hv; lra]|fold hv; lra]|fold hv; ring| |].
      + fold hv. assert (E4 : 2 * f_val c / 3 == f_val c * (2 # 3)) by field. rewrite E4. apply Qmult_le_0_compat; [exact RR0|lra].
      + fold hv. assert (E4 : 2 * f_val c / 3 == f_val c * (2 # 3)) by field. rewrite E4. assert (f_val r * f_val r * (hv - f_val c * (2 # 3)) <= 2500 * 201) by (apply mono2; lra). lra. }
  destruct GO as (n & A & B2 & C2). exists n. split; [exact HE|]. split; [exact A|]. split; assumption.
Qed.
