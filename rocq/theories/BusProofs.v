(** Bits of shared bytes. *)
From Coq Require Import ZArith List Bool Lia.
From Verif Require Import Base TimeModel BusModel BusSpec.
Import ListNotations.
Open Scope Z_scope.

Lemma has_bit x j : 0 <= j -> has x (2 ^ j) = Z.testbit x j.
Proof.
  intros J. unfold has.
  assert (P : 0 < 2 ^ j) by (apply Z.pow_pos_nonneg; lia).
  assert (E : Z.land x (2 ^ j) = if Z.testbit x j then 2 ^ j else 0).
  { apply Z.bits_inj'. intros k Hk. rewrite Z.land_spec, Z.pow2_bits_eqb by assumption.
    destruct (j =? k) eqn:F.
    - apply Z.eqb_eq in F. subst k. rewrite andb_true_r. destruct (Z.testbit x j).
      + symmetry. apply Z.pow2_bits_true. assumption.
      + symmetry. apply Z.bits_0.
    - rewrite andb_false_r. destruct (Z.testbit x j).
      + rewrite Z.pow2_bits_eqb by assumption. symmetry. exact F.
      + symmetry. apply Z.bits_0. }
  rewrite E. destruct (Z.testbit x j); lia.
Qed.
Lemma has1 x : has x 1 = Z.testbit x 0. Proof. exact (has_bit x 0 ltac:(lia)). Qed.
Lemma has2 x : has x 2 = Z.testbit x 1. Proof. exact (has_bit x 1 ltac:(lia)). Qed.
Lemma has4 x : has x 4 = Z.testbit x 2. Proof. exact (has_bit x 2 ltac:(lia)). Qed.
Lemma has8 x : has x 8 = Z.testbit x 3. Proof. exact (has_bit x 3 ltac:(lia)). Qed.

Lemma even_mod n : Z.even n = (n mod 2 =? 0).
Proof. rewrite Zeven_mod. unfold Zeq_bool. destruct (Z.compare_spec (n mod 2) 0), (Z.eqb_spec (n mod 2) 0); try lia; reflexivity. Qed.
Lemma half_byte n : 0 <= n -> as_byte n = half n / 2.
Proof.
  intros H. unfold as_byte, half. destruct (n <? 32) eqn:E.
  - replace (16 + n) with (n + 8 * 2) by lia. rewrite Z.div_add by lia. lia.
  - apply Z.ltb_ge in E.
    assert (n mod 2 = 0 \/ n mod 2 = 1) by (pose proof (Z.mod_pos_bound n 2); lia).
    pose proof (Z.div_mod n 2 ltac:(lia)). pose proof (Z.div_mod (n - 32) 2 ltac:(lia)).
    pose proof (Z.mod_pos_bound (n - 32) 2). pose proof (Z.div_mod (17 + n) 2 ltac:(lia)). pose proof (Z.mod_pos_bound (17 + n) 2). change (32 / 2) with 16. lia.
Qed.
Lemma half_shift n : as_shift n = lowest n.
Proof.
  unfold as_shift, lowest, half. rewrite even_mod. destruct (n <? 32) eqn:E.
  - apply Z.ltb_lt in E. replace (32 <=? n) with false by lia. cbn [andb]. rewrite orb_false_r.
    replace (16 + n) with (n + 8 * 2) by lia. rewrite Z.mod_add by lia. reflexivity.
  - apply Z.ltb_ge in E. replace (32 <=? n) with true by lia. cbn [andb orb].
    assert (n mod 2 = 0 \/ n mod 2 = 1) by (pose proof (Z.mod_pos_bound n 2); lia).
    pose proof (Z.div_mod n 2 ltac:(lia)). pose proof (Z.div_mod (17 + n) 2 ltac:(lia)). pose proof (Z.mod_pos_bound (17 + n) 2).
    destruct (n mod 2 =? 1) eqn:F; destruct ((17 + n) mod 2 =? 0) eqn:G; lia.
Qed.
Lemma lowest_cases n : lowest n = 0 \/ lowest n = 4.
Proof. unfold lowest. destruct (Z.even _); auto. Qed.
Lemma state_bit m a n k : 0 <= k -> Z.testbit (state_data m (Some a) n) k = Z.testbit (m (a + as_byte n)) (lowest n + k).
Proof.
  intros H. unfold state_data. rewrite <- half_shift. unfold as_shift. cbv zeta.
  assert (n mod 2 = 0 \/ n mod 2 = 1) by (pose proof (Z.mod_pos_bound n 2); lia).
  destruct (n <? 32) eqn:E.
  - replace (32 <=? n) with false by lia. cbn [andb]. rewrite orb_false_r. destruct (n mod 2 =? 0).
    + rewrite Z.shiftr_spec by assumption. f_equal. lia.
    + f_equal.
  - replace (32 <=? n) with true by lia. cbn [andb orb]. destruct (n mod 2 =? 1).
    + rewrite Z.shiftr_spec by assumption. f_equal. lia.
    + f_equal.
Qed.

Lemma t1 j : Z.testbit 1 j = (j =? 0).
Proof. change 1 with (2 ^ 0). rewrite Z.pow2_bits_eqb by lia. apply Z.eqb_sym. Qed.
Lemma t2 j : Z.testbit 2 j = (j =? 1).
Proof. change 2 with (2 ^ 1). rewrite Z.pow2_bits_eqb by lia. apply Z.eqb_sym. Qed.
Lemma t4 j : Z.testbit 4 j = (j =? 2).
Proof. change 4 with (2 ^ 2). rewrite Z.pow2_bits_eqb by lia. apply Z.eqb_sym. Qed.
Lemma t8 j : Z.testbit 8 j = (j =? 3).
Proof. change 8 with (2 ^ 3). rewrite Z.pow2_bits_eqb by lia. apply Z.eqb_sym. Qed.

(** Bits of a byte. *)
Ltac bits8 k H :=
  assert (k = 0 \/ k = 1 \/ k = 2 \/ k = 3 \/ k = 4 \/ k = 5 \/ k = 6 \/ k = 7) as H by lia.

Definition mine (c : conf) (a k : Z) : bool :=
  (a =? base c 0 + half (num c 0) / 2) && (lowest (num c 0) <=? k) && (k <? lowest (num c 0) + 4).

Lemma as_off_bits c now m s :
  gateway c = true -> good c ->
  exists m', as_off c now m s = Some (m', if bit m (sol c 0) then wt now s else s) /\
    forall a k, 0 <= k < 8 -> bit m' (a, k) = if mine c a k then false else bit m (a, k).
Proof.
  intros G H. unfold good in H. rewrite G in H. destruct H as (H & N). unfold as_off.
  destruct (ch c 0) as [b|] eqn:B; [|congruence].
  eexists. split.
  - f_equal. f_equal. unfold sol. rewrite G. unfold bit. cbn [fst snd]. change (0 =? 0) with true. cbv iota.
    unfold C_S1. rewrite has2, state_bit by lia. rewrite half_byte by assumption. unfold base. rewrite B. reflexivity.
  - intros a k Hk. unfold bit, put, mine, base. cbn [fst snd]. rewrite B, <- half_byte by assumption.
    destruct (Z.eqb_spec a (b + as_byte (num c 0))) as [->|Na]; cbn [andb]; [|reflexivity].
    rewrite Z.land_spec, half_shift. destruct (lowest_cases (num c 0)) as [->| ->].
    + change (Z.shiftr 240 0) with 240. bits8 k Hk'. destruct Hk' as [->|[->|[->|[->|[->|[->|[->| ->]]]]]]]; cbn;
        rewrite ?andb_false_r, ?andb_true_r; reflexivity.
    + change (Z.shiftr 240 4) with 15. bits8 k Hk'. destruct Hk' as [->|[->|[->|[->|[->|[->|[->| ->]]]]]]]; cbn;
        rewrite ?andb_false_r, ?andb_true_r; reflexivity.
Qed.

Lemma as_on_bits c now m s :
  gateway c = true -> good c ->
  exists m', as_on c now m s = Some (m', if bit m (sol c 0) then s else wt now s) /\
    forall a k, 0 <= k < 8 ->
      bit m' (a, k) = if mine c a k then (if k =? lowest (num c 0) then bit m (a, k) else k =? lowest (num c 0) + 1) else bit m (a, k).
Proof.
  intros G H. unfold good in H. rewrite G in H. destruct H as (H & N). unfold as_on.
  destruct (ch c 0) as [b|] eqn:B; [|congruence].
  eexists. split.
  - f_equal. f_equal. unfold sol. rewrite G. unfold bit. cbn [fst snd]. change (0 =? 0) with true. cbv iota.
    unfold C_S1. rewrite has2, state_bit by lia. rewrite half_byte by assumption. unfold base. rewrite B. reflexivity.
  - intros a k Hk. unfold bit, put, mine, base. cbn [fst snd]. rewrite B, <- half_byte by assumption.
    destruct (Z.eqb_spec a (b + as_byte (num c 0))) as [->|Na]; cbn [andb]; [|reflexivity].
    rewrite !Z.land_spec, !Z.lnot_spec, Z.lor_spec, !Z.shiftl_spec by lia. rewrite half_shift.
    unfold upper_mask, lower_mask, C_S1, C_S2, C_S3. rewrite t2.
    assert (E : forall j, negb (Z.testbit (if rev c then 4 else 8) j) && negb (Z.testbit (if rev c then 8 else 4) j) = negb (j =? 2) && negb (j =? 3)).
    { intros j. destruct (rev c); rewrite t4, t8; [reflexivity|apply andb_comm]. }
    rewrite <- andb_assoc, E.
    destruct (lowest_cases (num c 0)) as [->| ->]; bits8 k Hk'; destruct Hk' as [->|[->|[->|[->|[->|[->|[->| ->]]]]]]]; cbn;
        rewrite ?andb_false_r, ?andb_true_r, ?orb_false_r, ?orb_true_r; reflexivity.
Qed.

Definition seat_bit (c : conf) (upper : bool) : Z := if Bool.eqb upper (rev c) then 2 else 3.
Definition seat_mask (c : conf) (upper : bool) : Z := if upper then upper_mask c else lower_mask c.
Lemma seat_mask_bit c u x : has x (seat_mask c u) = Z.testbit x (seat_bit c u).
Proof. unfold seat_mask, seat_bit, upper_mask, lower_mask, C_S2, C_S3. destruct u, (rev c); cbn [Bool.eqb]; rewrite ?has4, ?has8; reflexivity. Qed.
Lemma seat_mask_test c u j : Z.testbit (seat_mask c u) j = (j =? seat_bit c u).
Proof. unfold seat_mask, seat_bit, upper_mask, lower_mask, C_S2, C_S3. destruct u, (rev c); cbn [Bool.eqb]; rewrite ?t4, ?t8; reflexivity. Qed.
Lemma seat_bit_range c u : 2 <= seat_bit c u <= 3.
Proof. unfold seat_bit. destruct (Bool.eqb u (rev c)); lia. Qed.

Lemma as_seat_bits c u now m s :
  gateway c = true -> good c ->
  exists m', as_seat c (seat_mask c u) now m s = Some (m', wt now s) /\
    forall a k, 0 <= k < 8 ->
      bit m' (a, k) = if mine c a k then k =? lowest (num c 0) + seat_bit c u else bit m (a, k).
Proof.
  intros G H. destruct (as_off_bits c now m s G H) as (m1 & E & F). unfold as_seat. rewrite E.
  unfold good in H. rewrite G in H. destruct H as (H & N).
  destruct (ch c 0) as [b|] eqn:B; [|congruence]. pose proof (seat_bit_range c u) as J.
  assert (L := lowest_cases (num c 0)).
  assert (M : mine c (b + as_byte (num c 0)) (lowest (num c 0) + seat_bit c u) = true).
  { unfold mine, base. rewrite B, <- half_byte by assumption. lia. }
  eexists. split.
  - f_equal. f_equal. rewrite seat_mask_bit, state_bit by lia.
    change (Z.testbit (m1 (b + as_byte (num c 0))) (lowest (num c 0) + seat_bit c u)) with (bit m1 (b + as_byte (num c 0), lowest (num c 0) + seat_bit c u)).
    rewrite F by (destruct L; lia). rewrite M. destruct (bit m (sol c 0)); reflexivity.
  - intros a k Hk. unfold bit at 1. unfold put. cbn [fst snd].
    destruct (Z.eqb_spec a (b + as_byte (num c 0))) as [->|Na].
    + rewrite Z.lor_spec, Z.shiftl_spec by lia. rewrite seat_mask_test, half_shift.
      change (Z.testbit (m1 (b + as_byte (num c 0))) k) with (bit m1 (b + as_byte (num c 0), k)). rewrite F by assumption.
      destruct (mine c (b + as_byte (num c 0)) k) eqn:Mk.
      * cbn [orb]. lia.
      * replace (k - lowest (num c 0) =? seat_bit c u) with false; [apply orb_false_r|].
        unfold mine, base in Mk. rewrite B, <- half_byte in Mk by assumption. lia.
    + change (Z.testbit (m1 a) k) with (bit m1 (a, k)). rewrite F by assumption.
      replace (mine c a k) with false; [reflexivity|]. unfold mine, base. rewrite B, <- half_byte by assumption. lia.
Qed.

(** Terminals. *)
Definition at_ (c : conf) (i a k : Z) : bool := (a =? fst (sol c i)) && (k =? snd (sol c i)).
Lemma set_bits c m i a k : gateway c = false -> ch c i <> None -> 0 <= k ->
  bit (set_bit c m i) (a, k) = if at_ c i a k then true else bit m (a, k).
Proof.
  intros G H Hk. unfold set_bit, at_, sol. rewrite G. unfold base. destruct (ch c i) as [b|]; [|congruence].
  cbv zeta. unfold bit, put. cbn [fst snd]. destruct (Z.eqb_spec a (b + (num c i - 1) / 8)) as [->|N]; cbn [andb]; [|reflexivity].
  rewrite Z.lor_spec, Z.shiftl_spec, t1 by assumption.
  replace (k - (num c i - 1) mod 8 =? 0) with (k =? (num c i - 1) mod 8) by lia.
  destruct (k =? (num c i - 1) mod 8); [apply orb_true_r|apply orb_false_r].
Qed.
Lemma reset_bits c m i a k : gateway c = false -> ch c i <> None -> 0 <= k ->
  bit (reset_bit c m i) (a, k) = if at_ c i a k then false else bit m (a, k).
Proof.
  intros G H Hk. unfold reset_bit, at_, sol. rewrite G. unfold base. destruct (ch c i) as [b|]; [|congruence].
  cbv zeta. unfold bit, put. cbn [fst snd]. destruct (Z.eqb_spec a (b + (num c i - 1) / 8)) as [->|N]; cbn [andb]; [|reflexivity].
  rewrite Z.land_spec, Z.lnot_spec, Z.shiftl_spec, t1 by assumption.
  replace (k - (num c i - 1) mod 8 =? 0) with (k =? (num c i - 1) mod 8) by lia.
  destruct (k =? (num c i - 1) mod 8); [apply andb_false_r|apply andb_true_r].
Qed.
Lemma is_as_gateway c : is_as (kind c) = gateway c. Proof. reflexivity. Qed.
Lemma outs_sols c : gateway c = false -> outs c = sols c.
Proof. unfold gateway, outs, sols, seats. destruct (kind c); congruence || reflexivity. Qed.
Lemma good_check c : gateway c = false -> good c -> check c = true.
Proof.
  intros G H. unfold good in H. rewrite G in H. destruct H as (H & _). unfold check. rewrite (outs_sols c G).
  apply forallb_forall. intros i Hi. destruct (H i Hi) as (A & B). destruct (ch c i); [lia|congruence].
Qed.
