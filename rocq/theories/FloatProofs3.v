(** Lemmas about the arithmetic of [float]: exact and approximate results. *)
From Coq Require Import ZArith List Bool Lia QArith Qround Qpower Qabs Lqa.
From Verif Require Import Base FTextModel FTextProofs FloatModel FloatProofs FloatProofs2.
Open Scope Q_scope.

Lemma lt_inf n : (n < INF -> n < 2 ^ 31)%Z.
Proof. unfold INF. lia. Qed.

(** * Integers *)

Lemma p2_nonneg_Z e : (0 <= e)%Z -> p2 e == inject_Z (2 ^ e).
Proof. apply p2_Z. Qed.

Lemma nearest_int z : (0 < z < 2 ^ 24)%Z -> f_abs (nearest (inject_Z z)) == inject_Z z /\ (nearest (inject_Z z) < INF)%Z.
Proof.
  intros R.
  assert (L : p2 (-173) <= inject_Z z).
  { assert (p2 (-173) <= 1) by (vm_compute; discriminate). assert (1 <= inject_Z z) by (change 1 with (inject_Z 1); rewrite <- Zle_Qle; lia). lra. }
  assert (U : inject_Z z < p2 128).
  { assert (X : inject_Z z < inject_Z (2 ^ 24)) by (rewrite <- Zlt_Qlt; lia).
    assert (Y : inject_Z (2 ^ 24) <= p2 128) by (vm_compute; discriminate). lra. }
  destruct (nearest_spec _ (conj L U)) as (e & m & -> & E & M & N & A & B & RM & _).
  assert (X1 : (e <= 0)%Z).
  { destruct A as [A|A]; [lia|]. assert (inject_Z z < p2 24) by (change (p2 24) with (inject_Z (2 ^ 24)); rewrite <- Zlt_Qlt; lia).
    assert (e + 23 < 24)%Z; [|lia]. apply (qpow_lt_inv 2); [discriminate|]. fold (p2 (e + 23)). fold (p2 24). lra. }
  assert (MZ : m = (z * 2 ^ (- e))%Z).
  { rewrite RM. rewrite (rne_comp _ (inject_Z (z * 2 ^ (- e)))); [apply rne_int|].
    rewrite inject_Z_mult, p2_Z by lia. reflexivity. }
  destruct (mk_val e m E M N) as (_ & V). rewrite V. split.
  - rewrite MZ, inject_Z_mult, <- p2_Z by lia. pose proof (p2_inv e) as I.
    setoid_replace (inject_Z z * p2 (- e) * p2 e) with (inject_Z z * (p2 e * p2 (- e))) by ring. rewrite I. ring.
  - unfold mk, INF. lia.
Qed.
Lemma of_Z_exact z : (- 2 ^ 24 < z < 2 ^ 24)%Z -> f_finite (f_of_Z z) = true /\ f_val (f_of_Z z) == inject_Z z.
Proof.
  intros R. unfold f_of_Z, f_round. destruct (Qcompare_spec (inject_Z z) 0) as [E|E|E].
  - split; [reflexivity|]. rewrite E. reflexivity.
  - assert (z < 0)%Z by (rewrite Zlt_Qlt; exact E).
    assert (EQ : - inject_Z z == inject_Z (- z)) by (rewrite inject_Z_opp; reflexivity).
    rewrite (mag_comp _ _ EQ). destruct (nearest_int (- z) ltac:(lia)) as (V & I).
    pose proof (nearest_pos (inject_Z (- z)) ltac:(lra)) as P.
    rewrite mag_eq, Z.min_l by lia. split.
    + unfold f_finite. rewrite (proj2 (signed_parts true _ (conj P (lt_inf _ I)))). unfold INF in I. lia.
    + rewrite val_signed by (split; [exact P|exact (lt_inf _ I)]). rewrite V. lra.
  - assert (0 < z)%Z by (rewrite Zlt_Qlt; exact E). destruct (nearest_int z ltac:(lia)) as (V & I).
    pose proof (nearest_pos (inject_Z z) ltac:(lra)) as P.
    rewrite mag_eq, Z.min_l by lia. generalize dependent (nearest (inject_Z z)). intros n V I P.
    rewrite <- (signed_false n). split.
    + unfold f_finite. rewrite (proj2 (signed_parts false n (conj P (lt_inf _ I)))). unfold INF in I. lia.
    + rewrite val_signed by (split; [exact P|exact (lt_inf _ I)]). exact V.
Qed.
Lemma of_Z_key_le a b : (- 2 ^ 24 < a < 2 ^ 24)%Z -> (- 2 ^ 24 < b < 2 ^ 24)%Z -> (key (f_of_Z a) <= key (f_of_Z b) <-> a <= b)%Z.
Proof.
  intros A B. destruct (of_Z_exact a A) as (FA & VA). destruct (of_Z_exact b B) as (FB & VB).
  rewrite <- (val_le _ _ FA FB), VA, VB. rewrite <- Zle_Qle. reflexivity.
Qed.
Lemma of_Z_nn z : (- 2 ^ 24 < z < 2 ^ 24)%Z -> f_isnan (f_of_Z z) = false.
Proof. intros R. apply finite_not. apply of_Z_exact. exact R. Qed.
Lemma of_Z_lt a b : (- 2 ^ 24 < a < 2 ^ 24)%Z -> (- 2 ^ 24 < b < 2 ^ 24)%Z -> f_lt (f_of_Z a) (f_of_Z b) = (a <? b)%Z.
Proof.
  intros A B. unfold f_lt. rewrite !of_Z_nn by assumption. cbn [negb andb]. pose proof (of_Z_key_le b a B A).
  destruct (Z.ltb_spec a b), (Z.ltb_spec (key (f_of_Z a)) (key (f_of_Z b))); try reflexivity; lia.
Qed.
Lemma of_Z_le a b : (- 2 ^ 24 < a < 2 ^ 24)%Z -> (- 2 ^ 24 < b < 2 ^ 24)%Z -> f_le (f_of_Z a) (f_of_Z b) = (a <=? b)%Z.
Proof.
  intros A B. unfold f_le. rewrite !of_Z_nn by assumption. cbn [negb andb]. pose proof (of_Z_key_le a b A B).
  destruct (Z.leb_spec a b), (Z.leb_spec (key (f_of_Z a)) (key (f_of_Z b))); try reflexivity; lia.
Qed.
Lemma of_Z_eq a b : (- 2 ^ 24 < a < 2 ^ 24)%Z -> (- 2 ^ 24 < b < 2 ^ 24)%Z -> f_eq (f_of_Z a) (f_of_Z b) = (a =? b)%Z.
Proof.
  intros A B. unfold f_eq. rewrite !of_Z_nn by assumption. cbn [negb andb]. pose proof (of_Z_key_le b a B A). pose proof (of_Z_key_le a b A B).
  destruct (Z.eqb_spec a b), (Z.eqb_spec (key (f_of_Z a)) (key (f_of_Z b))); try reflexivity; lia.
Qed.

(** * Approximate results *)

(** Values up to 2^127. *)
Definition BIG : Z := 254 * 2 ^ 23.
Lemma big_val : f_val BIG == p2 127 /\ f_val (signed true BIG) == - p2 127.
Proof. split; vm_compute; reflexivity. Qed.
Lemma round_near s x B : - B <= x -> x <= B -> B <= p2 127 ->
  f_finite (f_round s x) = true /\ - (B * p2 (-24) + p2 (-150)) <= f_val (f_round s x) - x /\ f_val (f_round s x) - x <= B * p2 (-24) + p2 (-150).
Proof.
  intros H1 H2 H3. destruct big_val as (V1 & V2).
  destruct (round_between s (signed true BIG) BIG x eq_refl eq_refl) as (F & _); [rewrite V1, V2; lra|].
  split; [exact F|]. pose proof (round_error s x F) as [E1 E2].
  assert (A : Qabs x <= B) by (apply Qabs_Qle_condition; lra). pose proof (p2_pos (-24)).
  assert (Qabs x * p2 (-24) <= B * p2 (-24)) by nra. lra.
Qed.

Lemma add_near a b B : f_finite a = true -> f_finite b = true -> - B <= f_val a + f_val b -> f_val a + f_val b <= B -> B <= p2 127 ->
  f_finite (f_add a b) = true /\
  - (B * p2 (-24) + p2 (-150)) <= f_val (f_add a b) - (f_val a + f_val b) /\ f_val (f_add a b) - (f_val a + f_val b) <= B * p2 (-24) + p2 (-150).
Proof. intros A B' H1 H2 H3. rewrite add_finite by assumption. apply round_near; assumption. Qed.
Lemma sub_near a b B : f_finite a = true -> f_finite b = true -> - B <= f_val a - f_val b -> f_val a - f_val b <= B -> B <= p2 127 ->
  f_finite (f_sub a b) = true /\
  - (B * p2 (-24) + p2 (-150)) <= f_val (f_sub a b) - (f_val a - f_val b) /\ f_val (f_sub a b) - (f_val a - f_val b) <= B * p2 (-24) + p2 (-150).
Proof.
  intros A B' H1 H2 H3. destruct (sub_finite a b A B') as (s & y & -> & E).
  destruct (round_near s y B) as (F & G1 & G2); [rewrite E; exact H1|rewrite E; exact H2|exact H3|].
  rewrite E in G1 at 2. rewrite E in G2 at 2. auto.
Qed.
Lemma mul_near a b B : f_finite a = true -> f_finite b = true -> - B <= f_val a * f_val b -> f_val a * f_val b <= B -> B <= p2 127 ->
  f_finite (f_mul a b) = true /\
  - (B * p2 (-24) + p2 (-150)) <= f_val (f_mul a b) - (f_val a * f_val b) /\ f_val (f_mul a b) - (f_val a * f_val b) <= B * p2 (-24) + p2 (-150).
Proof. intros A B' H1 H2 H3. rewrite mul_finite by assumption. apply round_near; assumption. Qed.
Lemma div_near a b B : f_finite a = true -> f_finite b = true -> ~ f_val b == 0 -> - B <= f_val a / f_val b -> f_val a / f_val b <= B -> B <= p2 127 ->
  f_finite (f_div a b) = true /\
  - (B * p2 (-24) + p2 (-150)) <= f_val (f_div a b) - (f_val a / f_val b) /\ f_val (f_div a b) - (f_val a / f_val b) <= B * p2 (-24) + p2 (-150).
Proof.
  intros A B' NZ H1 H2 H3. rewrite div_finite; [apply round_near; assumption|assumption|assumption|].
  intros E. apply NZ. apply val_zero_key; assumption.
Qed.

(** * Differences *)

(** Every float is a multiple of the smallest one. *)
Lemma val_multiple b : f_finite b = true -> exists k : Z, f_val b == inject_Z k * p2 (-149).
Proof.
  intros F. destruct (f_mk b F) as (E & M & _).
  assert (A : f_abs b == inject_Z (f_m b * 2 ^ (f_e b + 149)) * p2 (-149)).
  { unfold f_abs. rewrite inject_Z_mult, <- p2_Z by lia. rewrite <- Qmult_assoc, <- p2_plus.
    replace (f_e b + 149 + -149)%Z with (f_e b) by lia. reflexivity. }
  unfold f_val. destruct (f_neg b); [|eexists; exact A].
  exists (- (f_m b * 2 ^ (f_e b + 149)))%Z. rewrite A, inject_Z_opp. ring.
Qed.
(** The difference of different floats is not zero. *)
Lemma sub_nonzero a b : f_finite a = true -> f_finite b = true -> ~ f_val a == f_val b -> key (f_sub a b) <> 0%Z /\
  (f_val b < f_val a -> (0 < key (f_sub a b))%Z).
Proof.
  intros A B N. destruct (sub_finite a b A B) as (s & y & -> & E). destruct (round_parts s y) as (-> & _).
  destruct (val_multiple a A) as (i & I). destruct (val_multiple b B) as (j & J).
  assert (Y : y == inject_Z (i - j) * p2 (-149)).
  { rewrite E, I, J. unfold Z.sub. rewrite inject_Z_plus, inject_Z_opp. ring. }
  assert (NZ : (i - j <> 0)%Z).
  { intros Z0. apply N. assert (f_val a - f_val b == 0) by (rewrite <- E, Y, Z0; ring). lra. }
  assert (ONE : f_val 1 == p2 (-149) /\ rk (f_val 1) = 1%Z).
  { split; [vm_compute; reflexivity|]. rewrite rk_exact by reflexivity. reflexivity. }
  destruct ONE as (V1 & R1). pose proof (p2_pos (-149)) as P.
  destruct (Z_lt_le_dec 0 (i - j)) as [L|L].
  - assert (1 <= inject_Z (i - j)) by (change 1 with (inject_Z 1); rewrite <- Zle_Qle; lia).
    pose proof (rk_mono (f_val 1) y ltac:(rewrite V1, Y; nra)). rewrite R1 in *. split; [lia|intros _; lia].
  - assert (inject_Z (i - j) <= -1) by (change (-1) with (inject_Z (-1)); rewrite <- Zle_Qle; lia).
    pose proof (rk_mono (f_val 1) (- y) ltac:(rewrite V1, Y; nra)) as X. rewrite R1, rk_opp in X. split; [lia|].
    intros G. assert (y < 0) by (rewrite Y; nra). lra.
Qed.

(** * Results that are numbers *)

Lemma add_is_nn a b : f_finite a = true -> f_isnan b = false -> f_isnan (f_add a b) = false.
Proof.
  intros A B. unfold f_add. destruct (finite_not a A) as (-> & ->). rewrite B. cbn [orb].
  destruct (nn_cases b B) as [[-> _]|[-> _]]; [exact B|]. apply round_parts.
Qed.
Lemma add_is_nn2 a b : f_isnan a = false -> f_finite b = true -> f_isnan (f_add a b) = false.
Proof. intros A B. destruct (add_comm a b) as (-> & _). apply add_is_nn; assumption. Qed.
Lemma sub_is_nn a b : f_isnan a = false -> f_finite b = true -> f_isnan (f_sub a b) = false.
Proof. intros A B. unfold f_sub. apply add_is_nn2; [exact A|]. rewrite opp_finite. exact B. Qed.
Lemma mul_is_nn a b : f_finite a = true -> key a <> 0%Z -> f_isnan b = false -> f_isnan (f_mul a b) = false.
Proof.
  intros A NZ B. unfold f_mul. destruct (finite_not a A) as (-> & ->). rewrite B. cbn [orb]. cbv zeta.
  destruct (f_iszero a) eqn:Z0; [apply key_zero in Z0; contradiction|].
  destruct (f_isinf b); [destruct (xorb _ _); reflexivity|]. apply round_parts.
Qed.
Lemma div_is_nn a b : f_isnan a = false -> f_finite b = true -> key b <> 0%Z -> f_isnan (f_div a b) = false.
Proof.
  intros A B NZ. unfold f_div. destruct (finite_not b B) as (-> & ->). rewrite A. cbn [orb]. cbv zeta.
  destruct (f_iszero b) eqn:Z0; [apply key_zero in Z0; contradiction|].
  destruct (f_isinf a); [destruct (xorb _ _); reflexivity|]. apply round_parts.
Qed.
