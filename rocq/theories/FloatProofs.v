(** Lemmas about the arithmetic of [float]. *)
From Coq Require Import ZArith List Bool Lia QArith Qround Qpower Qabs Lqa.
From Verif Require Import Base FTextModel FTextProofs FloatModel.
Import ListNotations.
Open Scope Q_scope.

(** * Rounding of magnitudes *)

Lemma rne_mono x y : x <= y -> (rne x <= rne y)%Z.
Proof.
  intros H. destruct (Z_le_gt_dec (rne x) (rne y)) as [G|G]; [exact G|]. exfalso.
  pose proof (rne_near x) as [A B]. pose proof (rne_near y) as [C D].
  assert (E : inject_Z (rne y) + 1 <= inject_Z (rne x)).
  { change 1 with (inject_Z 1). rewrite <- inject_Z_plus. rewrite <- Zle_Qle. lia. }
  assert (x == y) by lra. rewrite (rne_comp x y) in G by assumption. lia.
Qed.
Lemma rne_int n : rne (inject_Z n) = n.
Proof. apply rne_unique; setoid_replace (inject_Z n - inject_Z n) with 0 by ring; reflexivity. Qed.

Lemma lg_low b n : 1 <= b -> forall top x, x < Qpower b (top - Z.of_nat n) -> lg b n top x = (top - Z.of_nat n)%Z.
Proof.
  intros Hb. induction n as [|n IH]; intros top x H; cbn [lg]; [lia|].
  destruct (Qle_bool (Qpower b top) x) eqn:E.
  - apply Qle_bool_iff in E. pose proof (qpow_le b (top - Z.of_nat (S n)) top Hb ltac:(lia)). lra.
  - rewrite IH; [lia|]. replace (top - 1 - Z.of_nat n)%Z with (top - Z.of_nat (S n))%Z by lia. exact H.
Qed.

Lemma nearest_low x : 0 <= x -> x < p2 (-173) -> nearest x = 0%Z.
Proof.
  intros H0 H. unfold nearest. rewrite lg_low by (try discriminate; exact H).
  change (127 - Z.of_nat 300 - 23)%Z with (-196)%Z. cbv zeta. change (-196 <? -149)%Z with true. cbv iota.
  change ((-149 + 149) * 2 ^ 23)%Z with 0%Z. rewrite Z.add_0_l. 
  assert (B : x * p2 (- -149) < 1 # 2).
  { assert (p2 (-173) * p2 (- -149) < 1 # 2) by (vm_compute; reflexivity). pose proof (p2_pos (- -149)). nra. }
  assert (A : 0 <= x * p2 (- -149)) by (pose proof (p2_pos (- -149)); nra).
  apply rne_unique; change (inject_Z 0) with 0; lra.
Qed.
Lemma lg_top b n top x : Qpower b top <= x -> lg b (S n) top x = top.
Proof. intros H. cbn [lg]. rewrite (proj2 (Qle_bool_iff _ _) H). reflexivity. Qed.
Lemma nearest_high x : p2 128 <= x -> (INF <= nearest x)%Z.
Proof.
  intros H. unfold nearest. change 300%nat with (S 299). rewrite lg_top.
  2: { pose proof (qpow_le 2 127 128 ltac:(discriminate) ltac:(lia)) as X. fold (p2 128) in X. lra. }
  cbv zeta. change (127 - 23 <? -149)%Z with false. cbv iota.
  assert (R : (rne (inject_Z (2 ^ 24)) <= rne (x * p2 (- (127 - 23))))%Z).
  { apply rne_mono. assert (Y : inject_Z (2 ^ 24) == p2 128 * p2 (- (127 - 23))) by (vm_compute; reflexivity).
    rewrite Y. pose proof (p2_pos (- (127 - 23))). nra. }
  rewrite rne_int in R. unfold INF. lia.
Qed.
Lemma nearest_pos x : 0 <= x -> (0 <= nearest x)%Z.
Proof.
  intros H. destruct (Qlt_le_dec x (p2 (-173))) as [L|L]; [rewrite nearest_low by assumption; lia|].
  destruct (Qlt_le_dec x (p2 128)) as [U|U]; [|pose proof (nearest_high x U); unfold INF in *; lia].
  destruct (nearest_spec x (conj L U)) as (e & m & -> & E & M & _). unfold mk. lia.
Qed.

Lemma nearest_mono x y : 0 <= x -> x <= y -> y < p2 128 -> (nearest x <= nearest y)%Z.
Proof.
  intros H0 H U. destruct (Qlt_le_dec x (p2 (-173))) as [L|L].
  { rewrite nearest_low by assumption. apply nearest_pos. lra. }
  assert (L' : p2 (-173) <= y) by lra. assert (U' : x < p2 128) by lra.
  destruct (nearest_spec x (conj L U')) as (e1 & m1 & -> & E1 & M1 & N1 & A1 & B1 & R1 & _).
  destruct (nearest_spec y (conj L' U)) as (e2 & m2 & -> & E2 & M2 & N2 & A2 & B2 & R2 & _).
  assert (LE : (e1 <= e2)%Z).
  { destruct A1 as [A1|A1]; [lia|]. assert (e1 + 23 < e2 + 24)%Z; [|lia].
    apply (qpow_lt_inv 2); [discriminate|]. fold (p2 (e1 + 23)). fold (p2 (e2 + 24)). lra. }
  destruct (Z.eq_dec e1 e2) as [->|NE].
  - unfold mk. assert (m1 <= m2)%Z; [|lia]. subst m1 m2. apply rne_mono. pose proof (p2_pos (- e2)). nra.
  - unfold mk. destruct N2 as [N2|N2]; lia.
Qed.

Lemma mag_eq x : mag x = Z.min (nearest x) INF.
Proof. reflexivity. Qed.
Lemma mag_range x : 0 <= x -> (0 <= mag x <= INF)%Z.
Proof. intros H. pose proof (nearest_pos x H). rewrite mag_eq. unfold INF in *. lia. Qed.
Lemma mag_mono x y : 0 <= x -> x <= y -> (mag x <= mag y)%Z.
Proof.
  intros H0 H. rewrite !mag_eq. destruct (Qlt_le_dec y (p2 128)) as [U|U].
  - pose proof (nearest_mono x y H0 H U). lia.
  - pose proof (nearest_high y U). lia.
Qed.
Lemma mag_comp x y : x == y -> mag x = mag y.
Proof. intros H. rewrite !mag_eq. rewrite (nearest_comp _ _ H). reflexivity. Qed.

Lemma f_mag_range b : (0 <= f_mag b < 2 ^ 31)%Z.
Proof. unfold f_mag. apply Z.mod_pos_bound. lia. Qed.
Lemma f_abs_pos b : f_finite b = true -> 0 <= f_abs b.
Proof.
  intros F. destruct (f_mk b F) as (_ & M & _). unfold f_abs. pose proof (p2_pos (f_e b)).
  assert (0 <= inject_Z (f_m b)) by (change 0 with (inject_Z 0); rewrite <- Zle_Qle; lia). nra.
Qed.
Lemma f_abs_top b : f_finite b = true -> f_abs b < p2 128.
Proof.
  intros F. destruct (f_mk b F) as (E & M & _). unfold f_abs.
  assert (A : inject_Z (f_m b) < p2 24) by (change (p2 24) with (inject_Z (2 ^ 24)); rewrite <- Zlt_Qlt; lia).
  pose proof (p2_pos (f_e b)). pose proof (qpow_le 2 (24 + f_e b) 128 ltac:(discriminate) ltac:(lia)) as X.
  fold (p2 (24 + f_e b)) in X. fold (p2 128) in X. rewrite p2_plus in X. nra.
Qed.

(** A float is nearest to itself. *)
Lemma nearest_exact b : f_finite b = true -> nearest (f_abs b) = f_mag b.
Proof.
  intros F. destruct (f_mk b F) as (E & M & N & MG). rewrite MG. 
  destruct (Z.eq_dec (f_m b) 0) as [Z0|NZ].
  { rewrite (nearest_comp _ 0); [|unfold f_abs; rewrite Z0; ring].
    rewrite nearest_low by (try apply Qle_refl; apply p2_pos). unfold mk. lia. }
  pose proof (f_abs_top b F) as U.
  assert (P1 : 1 <= inject_Z (f_m b)) by (change 1 with (inject_Z 1); rewrite <- Zle_Qle; lia).
  pose proof (p2_pos (f_e b)) as P.
  assert (L : p2 (-173) <= f_abs b).
  { pose proof (qpow_le 2 (-173) (f_e b) ltac:(discriminate) ltac:(lia)) as X. fold (p2 (-173)) in X. fold (p2 (f_e b)) in X.
    unfold f_abs. nra. }
  destruct (nearest_spec _ (conj L U)) as (e & m & -> & E' & M' & N' & A & B & R & _).
  assert (UP : f_abs b < p2 (f_e b + 24)).
  { rewrite p2_plus. change (p2 24) with (inject_Z (2 ^ 24)). unfold f_abs.
    assert (inject_Z (f_m b) < inject_Z (2 ^ 24)) by (rewrite <- Zlt_Qlt; lia). nra. }
  assert (LO : f_e b = (-149)%Z \/ p2 (f_e b + 23) <= f_abs b).
  { destruct N as [N|N]; [left; exact N|right]. rewrite p2_plus. change (p2 23) with (inject_Z (2 ^ 23)). unfold f_abs.
    assert (inject_Z (2 ^ 23) <= inject_Z (f_m b)) by (rewrite <- Zle_Qle; lia). nra. }
  assert (EE : e = f_e b).
  { assert (G1 : (e <= f_e b)%Z).
    { destruct A as [A|A]; [lia|]. assert (e + 23 < f_e b + 24)%Z; [|lia].
      apply (qpow_lt_inv 2); [discriminate|]. fold (p2 (e + 23)). fold (p2 (f_e b + 24)). lra. }
    destruct LO as [LO|LO]; [lia|]. assert (f_e b + 23 < e + 24)%Z; [|lia].
    apply (qpow_lt_inv 2); [discriminate|]. fold (p2 (e + 24)). fold (p2 (f_e b + 23)). lra. }
  subst e. f_equal. rewrite R. etransitivity; [|apply (rne_int (f_m b))]. apply rne_comp. unfold f_abs.
  pose proof (p2_inv (f_e b)) as I. setoid_replace (inject_Z (f_m b) * p2 (f_e b) * p2 (- f_e b)) with (inject_Z (f_m b) * (p2 (f_e b) * p2 (- f_e b))) by ring.
  rewrite I. ring.
Qed.
Lemma mag_exact b : f_finite b = true -> mag (f_abs b) = f_mag b.
Proof. intros F. rewrite mag_eq. rewrite nearest_exact by exact F. unfold f_finite, INF in *. lia. Qed.

Lemma half_ulp e x : p2 (e + 23) <= x -> p2 e * (1 # 2) <= x * p2 (-24).
Proof.
  intros H. rewrite p2_plus in H. change (p2 23) with 8388608 in H. change (p2 (-24)) with (1 # 16777216). lra.
Qed.
(** The error of rounding. *)
Lemma nearest_error x : 0 <= x -> x < p2 128 ->
  - (x * p2 (-24) + p2 (-150)) <= f_abs (nearest x) - x <= x * p2 (-24) + p2 (-150).
Proof.
  intros H U. destruct (Qlt_le_dec x (p2 (-173))) as [L|L].
  { rewrite nearest_low by assumption. assert (Z0 : f_abs 0 == 0) by (vm_compute; reflexivity). rewrite Z0.
    pose proof (qpow_le 2 (-173) (-150) ltac:(discriminate) ltac:(lia)) as X. fold (p2 (-173)) in X. fold (p2 (-150)) in X.
    pose proof (p2_pos (-24)). assert (0 <= x * p2 (-24)) by nra. lra. }
  destruct (nearest_spec x (conj L U)) as (e & m & -> & E & M & N & A & B & R & C1 & C2).
  destruct (mk_val e m E M N) as (_ & V). rewrite V.
  assert (HU : p2 e * (1 # 2) <= x * p2 (-24) + p2 (-150)).
  { pose proof (p2_pos (-150)). pose proof (p2_pos (-24)). destruct A as [->|A].
    - assert (p2 (-149) * (1 # 2) == p2 (-150)) by (vm_compute; reflexivity). assert (0 <= x * p2 (-24)) by nra. lra.
    - pose proof (half_ulp e x A). lra. }
  lra.
Qed.

(** * Bit patterns *)

Lemma signed_parts s m : (0 <= m < 2 ^ 31)%Z -> f_neg (signed s m) = s /\ f_mag (signed s m) = m.
Proof.
  intros M. unfold f_neg, f_mag, signed. destruct s; split; try lia.
  - symmetry. apply Z.mod_unique_pos with 1%Z; lia.
  - apply Z.mod_small; lia.
Qed.
Lemma f_isnan_not b : f_isnan b = false -> f_finite b = false -> f_isinf b = true.
Proof. unfold f_isnan, f_finite, f_isinf, INF. lia. Qed.
Lemma finite_not b : f_finite b = true -> f_isnan b = false /\ f_isinf b = false.
Proof. unfold f_isnan, f_finite, f_isinf, INF. lia. Qed.
Lemma isinf_not b : f_isinf b = true -> f_isnan b = false /\ f_finite b = false /\ f_iszero b = false.
Proof. unfold f_isnan, f_finite, f_isinf, f_iszero, INF. lia. Qed.
Lemma not_isinf b : f_isnan b = false -> f_isinf b = false -> f_finite b = true.
Proof. unfold f_isnan, f_finite, f_isinf, INF. lia. Qed.
Lemma f_abs_mag a b : f_mag a = f_mag b -> f_abs a = f_abs b.
Proof. intros H. unfold f_abs, f_m, f_e. rewrite H. reflexivity. Qed.

(** Magnitudes are ordered as the numbers. *)
Lemma abs_lt a b : f_finite a = true -> f_finite b = true -> f_abs a < f_abs b -> (f_mag a < f_mag b)%Z.
Proof.
  intros A B H. rewrite <- (mag_exact a A), <- (mag_exact b B).
  pose proof (mag_mono (f_abs a) (f_abs b) (f_abs_pos a A) ltac:(lra)) as M.
  destruct (Z.eq_dec (mag (f_abs a)) (mag (f_abs b))) as [E|E]; [|lia].
  rewrite (mag_exact a A), (mag_exact b B) in E. rewrite (f_abs_mag a b E) in H. lra.
Qed.
Lemma abs_le a b : f_finite a = true -> f_finite b = true -> f_abs a <= f_abs b -> (f_mag a <= f_mag b)%Z.
Proof.
  intros A B H. rewrite <- (mag_exact a A), <- (mag_exact b B). apply mag_mono; [apply f_abs_pos; exact A|exact H].
Qed.
Lemma le_abs a b : f_finite a = true -> f_finite b = true -> (f_mag a <= f_mag b)%Z -> f_abs a <= f_abs b.
Proof.
  intros A B H. destruct (Qlt_le_dec (f_abs b) (f_abs a)) as [L|L]; [|exact L].
  pose proof (abs_lt b a B A L). lia.
Qed.
Lemma zero_abs b : f_finite b = true -> (f_mag b = 0%Z <-> f_abs b == 0).
Proof.
  intros F. assert (F0 : f_finite 0 = true) by reflexivity. assert (Z0 : f_abs 0 == 0) by (vm_compute; reflexivity).
  pose proof (f_mag_range b). split; intros H1.
  - rewrite (f_abs_mag b 0) by exact H1. exact Z0.
  - pose proof (abs_le b 0 F F0 ltac:(lra)). change (f_mag 0) with 0%Z in *. lia.
Qed.

Lemma val_le a b : f_finite a = true -> f_finite b = true -> (f_val a <= f_val b <-> (key a <= key b)%Z).
Proof.
  intros A B. pose proof (f_abs_pos a A). pose proof (f_abs_pos b B). pose proof (f_mag_range a). pose proof (f_mag_range b).
  pose proof (zero_abs a A) as [ZA1 ZA2]. pose proof (zero_abs b B) as [ZB1 ZB2].
  unfold f_val, key. destruct (f_neg a), (f_neg b); split; intros H3.
  - assert (f_mag b <= f_mag a)%Z; [|lia]. apply abs_le; [exact B|exact A|lra].
  - assert (f_abs b <= f_abs a); [|lra]. apply le_abs; [exact B|exact A|lia].
  - lia.
  - lra.
  - assert (f_abs a == 0) by lra. assert (f_abs b == 0) by lra. rewrite ZA2, ZB2 by assumption. lia.
  - assert (f_mag a = 0)%Z by lia. assert (f_mag b = 0)%Z by lia. rewrite ZA1, ZB1 by assumption. lra.
  - apply abs_le; assumption.
  - apply le_abs; assumption.
Qed.
Lemma val_lt a b : f_finite a = true -> f_finite b = true -> (f_val a < f_val b <-> (key a < key b)%Z).
Proof.
  intros A B. pose proof (val_le b a B A) as [H1 H2]. split; intros H.
  - destruct (Z_lt_le_dec (key a) (key b)) as [|G]; [assumption|]. specialize (H2 G). lra.
  - destruct (Qlt_le_dec (f_val a) (f_val b)) as [|G]; [assumption|]. specialize (H1 G). lia.
Qed.
Lemma val_eq a b : f_finite a = true -> f_finite b = true -> (f_val a == f_val b <-> key a = key b).
Proof.
  intros A B. pose proof (val_le b a B A) as [H1 H2]. pose proof (val_le a b A B) as [H3 H4]. split; intros H.
  - assert (key b <= key a)%Z by (apply H1; lra). assert (key a <= key b)%Z by (apply H3; lra). lia.
  - assert (f_val b <= f_val a) by (apply H2; lia). assert (f_val a <= f_val b) by (apply H4; lia). lra.
Qed.

(** * Rounding *)

(** Position of the rounded number. *)
Definition rk (x : Q) : Z := match Qcompare x 0 with Lt => - mag (- x) | Eq => 0 | Gt => mag x end.

Lemma key_signed s m : (0 <= m <= INF)%Z ->
  key (signed s m) = (if s then - m else m)%Z /\ f_isnan (signed s m) = false /\ f_mag (signed s m) = m.
Proof.
  intros M. unfold INF in M. destruct (signed_parts s m ltac:(lia)) as (A & B). unfold key, f_isnan. rewrite A, B.
  split; [reflexivity|]. split; [lia|reflexivity].
Qed.
Lemma signed_false m : signed false m = m.
Proof. reflexivity. Qed.
Lemma round_parts s x : key (f_round s x) = rk x /\ f_isnan (f_round s x) = false /\ f_mag (f_round s x) = Z.abs (rk x).
Proof.
  unfold f_round, rk. destruct (Qcompare_spec x 0) as [E|E|E].
  - destruct (key_signed s 0 ltac:(unfold INF; lia)) as (-> & -> & ->). destruct s; auto.
  - pose proof (mag_range (- x) ltac:(lra)) as M. destruct (key_signed true (mag (- x)) M) as (-> & -> & ->).
    generalize dependent (mag (- x)). intros m M. unfold INF in M. split; [reflexivity|split; [reflexivity|lia]].
  - pose proof (mag_range x ltac:(lra)) as M. rewrite <- (signed_false (mag x)). destruct (key_signed false (mag x) M) as (-> & -> & ->).
    rewrite signed_false.
    generalize dependent (mag x). intros m M. unfold INF in M. split; [reflexivity|split; [reflexivity|lia]].
Qed.
Lemma rk_comp x y : x == y -> rk x = rk y.
Proof.
  intros E. unfold rk. assert (H : (x ?= 0) = (y ?= 0)) by (rewrite E; reflexivity). rewrite H.
  rewrite (mag_comp _ _ E). rewrite (mag_comp (- x) (- y)) by (rewrite E; reflexivity). reflexivity.
Qed.
Lemma rk_mono x y : x <= y -> (rk x <= rk y)%Z.
Proof.
  intros H. unfold rk. destruct (Qcompare_spec x 0) as [E|E|E], (Qcompare_spec y 0) as [F|F|F]; try lra; try lia.
  - pose proof (mag_range y ltac:(lra)). lia.
  - pose proof (mag_range (- x) ltac:(lra)). lia.
  - pose proof (mag_mono (- y) (- x) ltac:(lra) ltac:(lra)). lia.
  - pose proof (mag_range (- x) ltac:(lra)). pose proof (mag_range y ltac:(lra)). lia.
  - apply mag_mono; lra.
Qed.
Lemma rk_range x : (- INF <= rk x <= INF)%Z.
Proof.
  unfold rk. destruct (Qcompare_spec x 0) as [E|E|E].
  - unfold INF. lia.
  - pose proof (mag_range (- x) ltac:(lra)). unfold INF in *. lia.
  - pose proof (mag_range x ltac:(lra)). unfold INF in *. lia.
Qed.
(** A float rounds to itself. *)
Lemma rk_exact b : f_finite b = true -> rk (f_val b) = key b.
Proof.
  intros F. pose proof (f_abs_pos b F). pose proof (mag_exact b F). pose proof (zero_abs b F) as [Z1 Z2].
  unfold rk, key, f_val. destruct (f_neg b).
  - destruct (Qcompare_spec (- f_abs b) 0) as [E|E|E]; [rewrite Z2 by lra; reflexivity| |lra].
    rewrite (mag_comp _ (f_abs b)) by ring. lia.
  - destruct (Qcompare_spec (f_abs b) 0) as [E|E|E]; [rewrite Z2 by lra; reflexivity|lra|assumption].
Qed.
Lemma rk_opp x : rk (- x) = (- rk x)%Z.
Proof.
  unfold rk. destruct (Qcompare_spec x 0) as [E|E|E], (Qcompare_spec (- x) 0) as [F|F|F]; try lra; try reflexivity.
  - rewrite Z.opp_involutive. reflexivity.
  - rewrite (mag_comp (- - x) x) by ring. reflexivity.
Qed.

(** Rounding stays between two floats. *)
Lemma round_between s a b x : f_finite a = true -> f_finite b = true -> f_val a <= x <= f_val b ->
  f_finite (f_round s x) = true /\ f_val a <= f_val (f_round s x) <= f_val b.
Proof.
  intros A B [H1 H2]. destruct (round_parts s x) as (K & N & M).
  pose proof (rk_mono _ _ H1) as K1. pose proof (rk_mono _ _ H2) as K2. rewrite (rk_exact a A) in K1. rewrite (rk_exact b B) in K2.
  assert (F : f_finite (f_round s x) = true).
  { unfold f_finite in *. rewrite M. unfold key in *. pose proof (f_mag_range a). pose proof (f_mag_range b). destruct (f_neg a), (f_neg b); lia. }
  split; [exact F|]. split; apply val_le; try assumption; rewrite K; assumption.
Qed.

(** The number after rounding, when it is in range. *)
Lemma mag_finite y : 0 < y -> (mag y < INF)%Z -> mag y = nearest y /\ y < p2 128.
Proof.
  intros Y H. rewrite mag_eq in *.
  assert (D : forall n i : Z, (Z.min n i < i -> Z.min n i = n /\ n < i)%Z) by (clear; lia).
  destruct (D _ _ H) as (E & G). split; [exact E|].
  destruct (Qlt_le_dec y (p2 128)) as [U|U]; [exact U|]. pose proof (nearest_high y U) as X.
  exfalso. exact (Zlt_not_le _ _ G X).
Qed.
Lemma mag_error y : 0 < y -> (mag y < INF)%Z ->
  - (y * p2 (-24) + p2 (-150)) <= f_abs (mag y) - y <= y * p2 (-24) + p2 (-150).
Proof. intros Y H. destruct (mag_finite y Y H) as (-> & B). apply nearest_error; [lra|exact B]. Qed.
Lemma val_signed s m : (0 <= m < 2 ^ 31)%Z -> f_val (signed s m) = (if s then - f_abs m else f_abs m).
Proof.
  intros M. destruct (signed_parts s m M) as (A & B). unfold f_val. rewrite A.
  rewrite (f_abs_mag (signed s m) m); [reflexivity|]. rewrite B. unfold f_mag. symmetry. apply Z.mod_small. exact M.
Qed.
Lemma finite_lt b : f_finite b = true <-> (f_mag b < INF)%Z.
Proof. unfold f_finite, INF. lia. Qed.
Lemma round_error s x : f_finite (f_round s x) = true ->
  - (Qabs x * p2 (-24) + p2 (-150)) <= f_val (f_round s x) - x <= Qabs x * p2 (-24) + p2 (-150).
Proof.
  intros F. pose proof (p2_pos (-24)) as P24. pose proof (p2_pos (-150)) as P150.
  destruct (round_parts s x) as (K & N & M). apply finite_lt in F. rewrite M in F. clear K N M.
  assert (II : (INF < 2 ^ 31)%Z) by reflexivity.
  unfold rk, f_round in *. destruct (Qcompare_spec x 0) as [E|E|E].
  - rewrite val_signed by lia. assert (V : f_abs 0 == 0) by reflexivity.
    assert (W : (if s then - f_abs 0 else f_abs 0) == 0) by (destruct s; rewrite V; reflexivity). rewrite W, E. change (Qabs 0) with 0. lra.
  - pose proof (mag_range (- x) ltac:(lra)) as R. rewrite val_signed by (unfold INF in *; lia).
    assert (F' : (mag (- x) < INF)%Z) by (clear - F R; lia).
    pose proof (mag_error (- x) ltac:(lra) F') as [C1 C2]. rewrite Qabs_neg by lra. cbv beta iota. lra.
  - pose proof (mag_range x ltac:(lra)) as R. 
    assert (V : f_val (mag x) = f_abs (mag x)) by (rewrite <- (signed_false (mag x)) at 1; apply val_signed; unfold INF in *; lia).
    rewrite V, Qabs_pos by lra. assert (F' : (mag x < INF)%Z) by (clear - F R; lia).
    pose proof (mag_error x ltac:(lra) F') as [C1 C2]. lra.
Qed.
