(** Volumes: proofs about rounding. *)
From Coq Require Import ZArith List Bool Lia QArith Qround Qpower Qabs Lqa.
From Verif Require Import Base FTextModel FloatModel FloatProofs FloatProofs2 AioProofs LvlModel LvlSpec.
Open Scope Q_scope.

(** Near [x >= 0]: with relative error [a] and absolute error [e]. *)
Definition near (a e x : Q) (b : Z) : Prop := f_finite b = true /\ 0 <= x /\ - (a * x + e) <= f_val b - x <= a * x + e.
Lemma near_exact : forall b x, f_finite b = true -> f_val b == x -> 0 <= x -> near 0 0 x b.
Proof. intros b x F V X. split; [exact F|]. split; [exact X|]. rewrite V. lra. Qed.
Lemma near_eq : forall a e x y b, x == y -> near a e x b -> near a e y b.
Proof. intros a e x y b E (F & X & H). split; [exact F|]. rewrite <- E. split; assumption. Qed.
Lemma near_weak : forall a e a1 e1 x b, a <= a1 -> e <= e1 -> near a e x b -> near a1 e1 x b.
Proof. intros a e a1 e1 x b A E (F & X & H). split; [exact F|]. split; [exact X|]. assert (a * x <= a1 * x) by (apply Qmult_le_compat_r; assumption). lra. Qed.
Definition TINY : Q := 1 # 1000000000000.
Lemma mono2 : forall a b c d, 0 <= a -> a <= b -> 0 <= c -> c <= d -> a * c <= b * d.
Proof. intros a b c d A AB C CD. apply Qle_trans with (b * c); [apply Qmult_le_compat_r; assumption|]. apply mul_le_l; lra. Qed.
Lemma prod_near : forall a e x v a' e' y w X Y, 0 <= x -> 0 <= y -> 0 <= a -> 0 <= a' -> 0 <= e -> 0 <= e' -> a <= 1 # 524288 -> a' <= 1 # 524288 -> e <= TINY -> e' <= TINY -> x <= X -> y <= Y -> 1 <= X -> 1 <= Y ->
  - (a * x + e) <= v - x <= a * x + e -> - (a' * y + e') <= w - y <= a' * y + e' ->
  - ((a + a' + a * a') * (x * y) + (11 # 10) * (e' * X + e * Y)) <= v * w - x * y <= (a + a' + a * a') * (x * y) + (11 # 10) * (e' * X + e * Y).
Proof.
  intros a e x v a' e' y w X Y X0 Y0 A A' E E' A1 A1' E1 E1' XX YY X1 Y1 V W. unfold TINY in *.
  set (dx := v - x) in *. set (dy := w - y) in *. assert (P : v * w - x * y == dx * y + x * dy + dx * dy) by (unfold dx, dy; ring).
  set (mx := a * x + e) in *. set (my := a' * y + e') in *.
  assert (MX : 0 <= mx) by (unfold mx; assert (0 <= a * x) by (apply Qmult_le_0_compat; assumption); lra).
  assert (MY : 0 <= my) by (unfold my; assert (0 <= a' * y) by (apply Qmult_le_0_compat; assumption); lra).
  assert (B1 : - (mx * y) <= dx * y <= mx * y) by (split; [assert (- mx * y <= dx * y) by (apply Qmult_le_compat_r; lra); lra|apply Qmult_le_compat_r; lra]).
  assert (B2 : - (x * my) <= x * dy <= x * my) by (split; [assert (x * - my <= x * dy) by (apply mul_le_l; lra); lra|apply mul_le_l; lra]).
  assert (B3 : - (mx * my) <= dx * dy <= mx * my).
  { apply abs_iff. rewrite abs_mul. apply mono2; try apply abs_pos; apply abs_iff; lra. }
  assert (T : mx * y + x * my + mx * my <= (a + a' + a * a') * (x * y) + (11 # 10) * (e' * X + e * Y)).
  { assert (I : mx * y + x * my + mx * my == (a + a' + a * a') * (x * y) + (x * e' + a * (x * e') + e * y + a' * (e * y) + e * e')) by (unfold mx, my; ring). rewrite I.
    assert (x * e' <= X * e') by (apply Qmult_le_compat_r; assumption). assert (e * y <= e * Y) by (apply mul_le_l; assumption).
    assert (0 <= x * e') by (apply Qmult_le_0_compat; assumption). assert (0 <= e * y) by (apply Qmult_le_0_compat; assumption).
    assert (a * (x * e') <= (1 # 524288) * (x * e')) by (apply Qmult_le_compat_r; assumption).
    assert (a' * (e * y) <= (1 # 524288) * (e * y)) by (apply Qmult_le_compat_r; assumption).
    assert (e * e' <= (1 # 1000000000000) * e') by (apply Qmult_le_compat_r; assumption).
    assert (1 * e' <= X * e') by (apply Qmult_le_compat_r; assumption).
    set (p := x * e') in *. set (q := e * y) in *. set (s := X * e') in *. assert (s == e' * X) by (unfold s; ring). set (t := e * Y) in *. set (m := a * p) in *. set (n := a' * q) in *. lra. }
  lra.
Qed.
Lemma big_bound : forall X Y, 1 <= X -> 1 <= Y -> X * Y <= inject_Z (10 ^ 30) -> (2 # 1) * (X * Y) <= p2 127.
Proof. intros X Y A B H. assert (K : (2 # 1) * inject_Z (10 ^ 30) <= p2 127) by (vm_compute; discriminate). lra. Qed.
Lemma near_mul : forall a e x b a' e' y c X Y, near a e x b -> near a' e' y c -> 0 <= a -> 0 <= a' -> 0 <= e -> 0 <= e' -> a <= 1 # 524288 -> a' <= 1 # 524288 -> e <= TINY -> e' <= TINY ->
  x <= X -> y <= Y -> 1 <= X -> 1 <= Y -> X * Y <= inject_Z (10 ^ 30) ->
  near (a + a' + (2 # 16777216)) (2 * (e' * X + e * Y) + z) (x * y) (f_mul b c).
Proof.
  intros a e x b a' e' y c X Y (FB & X0 & HB) (FC & Y0 & HC) A A' E E' A1 A1' E1 E1' XX YY X1 Y1 XY.
  pose proof (prod_near a e x (f_val b) a' e' y (f_val c) X Y X0 Y0 A A' E E' A1 A1' E1 E1' XX YY X1 Y1 HB HC) as P.
  assert (U0 : 0 <= x * y) by (apply Qmult_le_0_compat; assumption). assert (U1 : x * y <= X * Y) by (apply mono2; assumption).
  assert (AA : a * a' <= (1 # 524288) * (1 # 524288)) by (apply mono2; assumption). assert (AA0 : 0 <= a * a') by (apply Qmult_le_0_compat; assumption).
  set (g := a + a' + a * a') in *. assert (G0 : 0 <= g) by (unfold g; lra). assert (G1 : g <= 1 # 100000) by (unfold g; lra).
  set (d := e' * X + e * Y) in *.
  assert (D0 : 0 <= d) by (unfold d; assert (0 <= e' * X) by (apply Qmult_le_0_compat; lra); assert (0 <= e * Y) by (apply Qmult_le_0_compat; lra); lra).
  assert (D1 : d <= X * Y).
  { unfold d, TINY in *. assert (e' * X <= (1 # 1000000000000) * X) by (apply Qmult_le_compat_r; lra). assert (e * Y <= (1 # 1000000000000) * Y) by (apply Qmult_le_compat_r; lra).
    assert (X * 1 <= X * Y) by (apply mul_le_l; lra). assert (1 * Y <= X * Y) by (apply Qmult_le_compat_r; lra). lra. }
  assert (GU : g * (x * y) <= (1 # 100000) * (x * y)) by (apply Qmult_le_compat_r; assumption). assert (GU0 : 0 <= g * (x * y)) by (apply Qmult_le_0_compat; assumption).
  pose proof (big_bound X Y X1 Y1 XY) as BB.
  set (m := f_val b * f_val c) in *. set (q := x * y) in *. set (gq := g * q) in *. set (XYQ := X * Y) in *.
  assert (M : Qabs m <= (1 + (1 # 100000)) * q + (11 # 10) * d) by (apply abs_iff; lra).
  assert (ML : Qabs m <= 2 * XYQ + (3 # 10) * XYQ) by lra.
  assert (MB : Qabs m <= p2 127). { assert (K2 : (23 # 10) * inject_Z (10 ^ 30) <= p2 127) by (vm_compute; discriminate). apply Qle_trans with ((23 # 10) * inject_Z (10 ^ 30)); [lra|exact K2]. }
  destruct (mul_rel b c FB FC) as [F R]; [exact MB|]. split; [exact F|]. split; [exact U0|]. apply abs_iff in R. fold m in R.
  assert (Z0 : 0 <= z) by (vm_compute; discriminate).
  assert (GQ : (a + a' + (2 # 16777216)) * q == gq + (2 # 16777216) * q - a * a' * q) by (unfold gq, g; ring).
  assert (AQ : a * a' * q <= (1 # 524288) * (1 # 524288) * q) by (apply Qmult_le_compat_r; [exact AA|exact U0]).
  set (aq := a * a' * q) in *. set (zz := z) in *. set (mm := Qabs m) in *. set (vv := f_val (f_mul b c)) in *. rewrite GQ. split; lra.
Qed.
Lemma near_div : forall a e x b y c, near a e x b -> f_finite c = true -> f_val c == y -> 1 <= y -> 0 <= a -> 0 <= e -> a <= 1 # 524288 -> e <= TINY -> x <= inject_Z (10 ^ 30) ->
  near (a + (2 # 16777216)) (2 * e + z) (x / y) (f_div b c).
Proof.
  intros a e x b y c (FB & X0 & HB) FC VC Y1 A E A1 E1 XX.
  assert (NZ : ~ f_val c == 0) by (rewrite VC; lra).
  assert (I1 : 0 < / y) by (apply Qinv_lt_0_compat; lra).
  assert (I2 : / y <= 1) by (assert (/ y * 1 <= / y * y) by (apply mul_le_l; lra); assert (/ y * y == 1) by (field; lra); lra).
  assert (D : f_val b / f_val c == f_val b * / y) by (rewrite VC; reflexivity).
  set (i := / y) in *. change (x / y) with (x * i).
  assert (X1 : 0 <= x * i) by (apply Qmult_le_0_compat; lra). assert (X2 : x * i <= x * 1) by (apply mul_le_l; lra).
  assert (H : - (a * (x * i) + e) <= f_val b * i - x * i <= a * (x * i) + e).
  { assert (P : f_val b * i - x * i == (f_val b - x) * i) by ring. rewrite P. assert (e * i <= e * 1) by (apply mul_le_l; lra).
    assert (Q1 : (f_val b - x) * i <= (a * x + e) * i) by (apply Qmult_le_compat_r; lra). assert (Q2 : - (a * x + e) * i <= (f_val b - x) * i) by (apply Qmult_le_compat_r; lra).
    assert (Q3 : (a * x + e) * i == a * (x * i) + e * i) by ring. assert (Q4 : - (a * x + e) * i == - (a * (x * i) + e * i)) by ring. rewrite Q3 in Q1. rewrite Q4 in Q2.
    set (k := a * (x * i)) in *. set (l := (f_val b - x) * i) in *. set (n := e * i) in *. lra. }
  assert (GU : a * (x * i) <= (1 # 524288) * (x * i)) by (apply Qmult_le_compat_r; assumption). assert (GU0 : 0 <= a * (x * i)) by (apply Qmult_le_0_compat; assumption).
  set (q := x * i) in *. set (m := f_val b * i) in *. set (k := a * q) in *.
  assert (M : Qabs m <= (1 + (1 # 100000)) * q + e) by (apply abs_iff; unfold TINY in *; lra).
  assert (MB : Qabs (f_val b / f_val c) <= p2 127).
  { rewrite (abs_comp _ _ D). assert (K2 : (23 # 10) * inject_Z (10 ^ 30) <= p2 127) by (vm_compute; discriminate). assert (1 <= inject_Z (10 ^ 30)) by (vm_compute; discriminate). unfold TINY in *.
    fold m. apply Qle_trans with ((23 # 10) * inject_Z (10 ^ 30)); [lra|exact K2]. }
  destruct (div_rel b c FB FC NZ MB) as [F R]. split; [exact F|]. split; [exact X1|]. apply abs_iff in R. rewrite (abs_comp _ _ D) in R. rewrite D in R. fold m in R.
  assert (Z0 : 0 <= z) by (vm_compute; discriminate).
  assert (GQ : (a + (2 # 16777216)) * q == k + (2 # 16777216) * q) by (unfold k; ring).
  set (zz := z) in *. set (mm := Qabs m) in *. set (vv := f_val (f_div b c)) in *. rewrite GQ. split; lra.
Qed.

(** * Kilograms *)
Lemma to_s32_pos : forall b, f_finite b = true -> 0 <= f_val b -> (Qfloor (f_val b) < 2 ^ 31)%Z -> f_to_s32 b = Some (Qfloor (f_val b)).
Proof.
  intros b F P U. unfold f_to_s32. rewrite F. cbv zeta. rewrite quot_floor by exact P.
  assert (0 <= Qfloor (f_val b))%Z by (change 0%Z with (Qfloor 0); apply Qfloor_resp_le; exact P).
  destruct (Z.leb_spec (- 2 ^ 31) (Qfloor (f_val b))); [|lia]. destruct (Z.ltb_spec (Qfloor (f_val b)) (2 ^ 31)); [reflexivity|lia].
Qed.
Lemma F100_val : f_finite F100 = true /\ f_val F100 == 100. Proof. split; [reflexivity|vm_compute; reflexivity]. Qed.
Lemma HALF_val : f_finite F_HALF = true /\ f_val F_HALF == 1 # 2. Proof. split; [reflexivity|vm_compute; reflexivity]. Qed.
Lemma kilograms_near : forall a e x v, near a e x v -> 0 <= a -> 0 <= e -> a <= 1 # 524288 -> e <= 1 # 100000000000000000000 -> x <= 2100000 ->
  exists n, kilograms v = Some n /\ (exists t, n = (10 * t)%Z) /\
  - ((a + (4 # 16777216)) * (1000 * x) + (501 # 100)) <= inject_Z n - 1000 * x <= (a + (4 # 16777216)) * (1000 * x) + (501 # 100).
Proof.
  intros a e x v N A E A1 E1 X1. destruct F100_val as [F1 F2]. destruct HALF_val as [H1 H2].
  assert (X0 : 0 <= x) by apply N.
  assert (S : near (a + 0 + (2 # 16777216)) (2 * (0 * 2100000 + e * 100) + z) (x * 100) (f_mul v F100)).
  { apply near_mul; try assumption; try (unfold TINY; lra); try (vm_compute; discriminate). apply near_exact; [exact F1|exact F2|lra]. }
  destruct S as (FM & _ & HM). set (w := f_mul v F100) in *.
  assert (Z0 : 0 <= z <= 1 # 1000000000000000000000) by (split; vm_compute; discriminate).
  assert (AX : a * x <= (1 # 524288) * x) by (apply Qmult_le_compat_r; assumption). assert (AX0 : 0 <= a * x) by (apply Qmult_le_0_compat; assumption).
  assert (GQ : (a + 0 + (2 # 16777216)) * (x * 100) == 100 * (a * x) + (200 # 16777216) * x) by ring. rewrite GQ in HM.
  assert (GR : (a + (4 # 16777216)) * (1000 * x) == 1000 * (a * x) + (4000 # 16777216) * x) by ring.
  set (k := a * x) in *. set (zz := z) in *. set (vw := f_val w) in *.
  assert (MB : Qabs (f_val w + f_val F_HALF) <= p2 127).
  { assert (K2 : 300000000 <= p2 127) by (vm_compute; discriminate). apply abs_iff. rewrite H2. fold vw. set (P := p2 127) in *. lra. }
  destruct (add_rel w F_HALF FM H1 MB) as [FA HA]. apply abs_iff in HA. rewrite H2 in HA. fold vw zz in HA.
  assert (AB : Qabs (vw + (1 # 2)) <= 100 * x + 100 * k + (200 # 16777216) * x + (200 * e + zz) + (1 # 2)) by (apply abs_iff; lra).
  set (ab := Qabs (vw + (1 # 2))) in *. set (t := f_add w F_HALF) in *. set (vt := f_val t) in *.
  assert (T : - (100 * k + (400 # 16777216) * x + (1 # 2000)) <= vt - (100 * x + (1 # 2)) <= 100 * k + (400 # 16777216) * x + (1 # 2000)) by (split; lra).
  assert (T0 : 0 <= vt) by lra. assert (T1 : vt <= 214000000) by lra.
  pose proof (Qfloor_le vt) as FL1. pose proof (Qlt_floor vt) as FL2. rewrite inject_Z_plus in FL2. change (inject_Z 1) with 1 in FL2.
  assert (FU : (Qfloor vt <= 214000000)%Z) by (rewrite Zle_Qle; change (inject_Z 214000000) with 214000000; lra).
  assert (F0 : (0 <= Qfloor vt)%Z) by (change 0%Z with (Qfloor 0); apply Qfloor_resp_le; exact T0).
  exists (10 * Qfloor vt)%Z. unfold kilograms. fold w. fold t. rewrite (to_s32_pos t FA T0) by (fold vt; lia). fold vt.
  split; [destruct (Z.leb_spec (- 2 ^ 31) (10 * Qfloor vt)); [|lia]; destruct (Z.ltb_spec (10 * Qfloor vt) (2 ^ 31)); [reflexivity|lia]|].
  split; [exists (Qfloor vt); reflexivity|]. rewrite inject_Z_mult. change (inject_Z 10) with 10. rewrite GR. set (fl := inject_Z (Qfloor vt)) in *. split; lra.
Qed.
