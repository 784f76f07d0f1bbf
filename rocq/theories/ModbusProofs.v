From Coq Require Import ZArith List Bool Lia.
From Verif Require Import Base ModbusModel ModbusSpec.
Import ListNotations.
Open Scope Z_scope.

Lemma put_same m a v : put m a v a = v.
Proof. unfold put. rewrite Z.eqb_refl. reflexivity. Qed.
Lemma put_other m a v x : x <> a -> put m a v x = m x.
Proof. intros H. unfold put. destruct (Z.eqb_spec x a); congruence. Qed.

Ltac puts := repeat first [ rewrite put_same | rewrite put_other by lia ].

(** * Scalars *)

Lemma bytes2 v : 0 <= v < 65536 -> byte v 0 + 256 * byte v 1 = v.
Proof.
  intros H. unfold byte. change (2 ^ (8 * 0)) with 1. change (2 ^ (8 * 1)) with 256.
  rewrite Z.div_1_r. pose proof (Z.div_mod v 256 ltac:(lia)).
  rewrite (Z.mod_small (v / 256)); [lia|]. split; [apply Z.div_pos; lia|].
  apply Z.div_lt_upper_bound; lia.
Qed.

Lemma bytes4 v : 0 <= v < 2 ^ 32 ->
  byte v 0 + 2 ^ 8 * byte v 1 + 2 ^ 16 * byte v 2 + 2 ^ 24 * byte v 3 = v.
Proof.
  intros H. unfold byte. change (2 ^ (8 * 0)) with 1. change (2 ^ (8 * 1)) with 256.
  change (2 ^ (8 * 2)) with 65536. change (2 ^ (8 * 3)) with 16777216.
  change (2 ^ 8) with 256. change (2 ^ 16) with 65536. change (2 ^ 24) with 16777216.
  change (2 ^ 32) with 4294967296 in H.
  Z.to_euclidean_division_equations. lia.
Qed.

Lemma byte_range v k : 0 <= byte v k < 256.
Proof. unfold byte. apply Z.mod_pos_bound. lia. Qed.

Lemma byte_mod v k : 0 <= k < 4 -> byte (v mod 2 ^ 32) k = byte v k.
Proof.
  intros H. unfold byte.
  replace (2 ^ 32) with (2 ^ (8 * k) * 2 ^ (32 - 8 * k)).
  2:{ rewrite <- Z.pow_add_r by lia. f_equal. lia. }
  assert (P1 : 0 < 2 ^ (8 * k)) by (apply Z.pow_pos_nonneg; lia).
  assert (P2 : 0 < 2 ^ (32 - 8 * k)) by (apply Z.pow_pos_nonneg; lia).
  rewrite Z.rem_mul_r by lia.
  replace (v mod 2 ^ (8 * k) + 2 ^ (8 * k) * ((v / 2 ^ (8 * k)) mod 2 ^ (32 - 8 * k)))
    with ((v / 2 ^ (8 * k)) mod 2 ^ (32 - 8 * k) * 2 ^ (8 * k) + v mod 2 ^ (8 * k)) by ring.
  rewrite Z.div_add_l by lia.
  rewrite (Z.div_small (v mod 2 ^ (8 * k))) by (apply Z.mod_pos_bound; lia).
  rewrite Z.add_0_r.
  replace (2 ^ (32 - 8 * k)) with (256 * 2 ^ (24 - 8 * k)).
  2:{ change 256 with (2 ^ 8). rewrite <- Z.pow_add_r by lia. f_equal. lia. }
  assert (P3 : 0 < 2 ^ (24 - 8 * k)) by (apply Z.pow_pos_nonneg; lia).
  rewrite Z.rem_mul_r by lia. rewrite (Z.mul_comm 256), Z.mod_add by lia. apply Z.mod_mod. lia.
Qed.

Lemma word_rt v m a : 0 <= v < 65536 -> unpack_word (pack_word v m a) a = v.
Proof. intros H. unfold unpack_word, pack_word. puts. apply bytes2; auto. Qed.

Lemma int16_rt v m a : - 2 ^ 15 <= v < 2 ^ 15 -> unpack_int16 (pack_int16 v m a) a = v.
Proof.
  intros H. unfold unpack_int16, pack_int16. puts. rewrite bytes2 by apply u16_range.
  unfold s16, u16. rewrite Zplus_mod_idemp_l. rewrite Z.mod_small by lia. lia.
Qed.

Lemma long_rt_gen v m a : unpack_long (pack_long v m a) a = v mod 2 ^ 32.
Proof.
  unfold unpack_long, pack_long. puts.
  rewrite <- (byte_mod v 0), <- (byte_mod v 1), <- (byte_mod v 2), <- (byte_mod v 3) by lia.
  apply bytes4. apply Z.mod_pos_bound. lia.
Qed.

Lemma long_rt v m a : 0 <= v < 2 ^ 32 -> unpack_long (pack_long v m a) a = v.
Proof. intros H. rewrite long_rt_gen. apply Z.mod_small. auto. Qed.

Lemma int32_rt v m a : - 2 ^ 31 <= v < 2 ^ 31 ->
  unpack_int32 (pack_long (v mod 2 ^ 32) m a) a = v.
Proof.
  intros H. unfold unpack_int32. rewrite long_rt by (apply Z.mod_pos_bound; lia).
  unfold s32. rewrite Zplus_mod_idemp_l, Z.mod_small by lia. lia.
Qed.

Lemma word_frame v m a : same_outside m (pack_word v m a) a 2.
Proof. intros x H. unfold pack_word. puts. reflexivity. Qed.
Lemma int16_frame v m a : same_outside m (pack_int16 v m a) a 2.
Proof. intros x H. unfold pack_int16. puts. reflexivity. Qed.
Lemma long_frame v m a : same_outside m (pack_long v m a) a 4.
Proof. intros x H. unfold pack_long. puts. reflexivity. Qed.

(** * Bits *)

Lemma testbit_255_xor p q : 0 <= p < 8 -> 0 <= q < 8 ->
  Z.testbit (Z.lxor 255 (Z.shiftl 1 p)) q = negb (q =? p).
Proof.
  intros Hp Hq. rewrite Z.lxor_spec, Z.shiftl_spec by lia.
  assert (Z.testbit 255 q = true) as ->.
  { change 255 with (Z.ones 8). apply Z.ones_spec_low. lia. }
  destruct (Z.eqb_spec q p) as [->|].
  - rewrite Z.sub_diag. reflexivity.
  - destruct (Z.lt_ge_cases q p).
    + rewrite Z.testbit_neg_r by lia. reflexivity.
    + assert (Z.testbit 1 (q - p) = false) as ->; [|reflexivity].
      change 1 with (2 ^ 0). rewrite Z.pow2_bits_eqb by lia. lia.
Qed.

Lemma testbit_shift p q : 0 <= p -> 0 <= q -> Z.testbit (Z.shiftl 1 p) q = (q =? p).
Proof.
  intros Hp Hq. rewrite Z.shiftl_1_l. rewrite Z.pow2_bits_eqb by lia. apply Z.eqb_sym.
Qed.

Lemma force_bit_spec n m a b k : 0 <= n -> 0 <= k ->
  bit_at (force_bit n m a b) a k = if k =? n then b else bit_at m a k.
Proof.
  intros Hn Hk. unfold bit_at, force_bit.
  pose proof (Z.mod_pos_bound n 8 ltac:(lia)). pose proof (Z.mod_pos_bound k 8 ltac:(lia)).
  pose proof (Z.div_mod n 8 ltac:(lia)). pose proof (Z.div_mod k 8 ltac:(lia)).
  destruct (Z.eq_dec (k / 8) (n / 8)) as [E|E].
  - rewrite E, put_same. destruct b.
    + rewrite Z.lor_spec, testbit_shift by lia.
      destruct (Z.eqb_spec k n) as [->|].
      * rewrite Z.eqb_refl. apply orb_true_r.
      * replace (k mod 8 =? n mod 8) with false by lia. apply orb_false_r.
    + rewrite Z.land_spec, testbit_255_xor by lia.
      destruct (Z.eqb_spec k n) as [->|].
      * rewrite Z.eqb_refl. apply andb_false_r.
      * replace (k mod 8 =? n mod 8) with false by lia. apply andb_true_r.
  - rewrite put_other by lia. destruct (Z.eqb_spec k n); [congruence|reflexivity].
Qed.

Lemma byte_of_bits x : (forall i, 8 <= i -> Z.testbit x i = false) -> 0 <= x < 256.
Proof.
  intros H. assert (E : x = x mod 2 ^ 8).
  { apply Z.bits_inj'. intros i Hi. destruct (Z.lt_ge_cases i 8).
    - rewrite Z.mod_pow2_bits_low by lia. reflexivity.
    - rewrite Z.mod_pow2_bits_high by lia. apply H. lia. }
  rewrite E. apply Z.mod_pos_bound. lia.
Qed.

Lemma bits_of_byte x i : 0 <= x < 256 -> 8 <= i -> Z.testbit x i = false.
Proof.
  intros Hx Hi. replace x with (x mod 2 ^ 8) by (apply Z.mod_small; lia).
  apply Z.mod_pow2_bits_high. lia.
Qed.

Lemma force_bit_byte n m a b : 0 <= n -> (forall x, 0 <= m x < 256) ->
  forall x, 0 <= force_bit n m a b x < 256.
Proof.
  intros Hn Hm x. unfold force_bit, put. destruct (x =? _); auto.
  specialize (Hm (a + n / 8)). pose proof (Z.mod_pos_bound n 8 ltac:(lia)).
  apply byte_of_bits. intros i Hi. destruct b.
  - rewrite Z.lor_spec, testbit_shift, bits_of_byte by lia. cbn [orb]. lia.
  - rewrite Z.land_spec, bits_of_byte by lia. reflexivity.
Qed.

Lemma force_bit_frame n m a b x : x <> a + n / 8 -> force_bit n m a b x = m x.
Proof. intros H. unfold force_bit. apply put_other. auto. Qed.

Lemma force_bits_spec bits : forall i m a k, 0 <= i -> 0 <= k ->
  bit_at (force_bits i bits m a) a k =
  if (i <=? k) && (k <? i + Z.of_nat (length bits))
  then nth (Z.to_nat (k - i)) bits false else bit_at m a k.
Proof.
  induction bits as [|b bits IH]; intros i m a k Hi Hk; cbn [force_bits length].
  - destruct ((i <=? k) && (k <? i + Z.of_nat 0)) eqn:E; [lia|reflexivity].
  - rewrite IH by lia.
    destruct (Z.eq_dec k i) as [->|Hne].
    + replace ((i + 1 <=? i) && (i <? i + 1 + Z.of_nat (length bits))) with false by lia.
      rewrite force_bit_spec by lia. rewrite Z.eqb_refl.
      replace ((i <=? i) && (i <? i + Z.of_nat (S (length bits)))) with true by lia.
      rewrite Z.sub_diag. reflexivity.
    + rewrite force_bit_spec by lia. replace (k =? i) with false by lia.
      destruct ((i + 1 <=? k) && (k <? i + 1 + Z.of_nat (length bits))) eqn:E.
      * replace ((i <=? k) && (k <? i + Z.of_nat (S (length bits)))) with true by lia.
        replace (Z.to_nat (k - i)) with (S (Z.to_nat (k - (i + 1)))) by lia. reflexivity.
      * replace ((i <=? k) && (k <? i + Z.of_nat (S (length bits)))) with false by lia.
        reflexivity.
Qed.

Lemma force_bits_frame bits : forall i m a x, 0 <= i ->
  x < a \/ a + (i + Z.of_nat (length bits) + 7) / 8 <= x ->
  force_bits i bits m a x = m x.
Proof.
  induction bits as [|b bits IH]; intros i m a x Hi Hx; cbn [force_bits length] in *; auto.
  rewrite IH by (try lia; replace (i + 1 + Z.of_nat (length bits)) with
    (i + Z.of_nat (S (length bits))) by lia; auto).
  apply force_bit_frame.
  assert (0 <= i / 8) by (apply Z.div_pos; lia).
  assert (i / 8 < (i + Z.of_nat (S (length bits)) + 7) / 8).
  { pose proof (Z.div_le_mono (i + 8) (i + Z.of_nat (S (length bits)) + 7) 8).
    replace (i + 8) with (i + 1 * 8) in H0 at 2 by lia. rewrite Z.div_add in H0 by lia. lia. }
  lia.
Qed.

Lemma number_of_bytes_ok n : 0 <= n <= 2040 -> number_of_bytes n = (n + 7) / 8.
Proof.
  intros H. unfold number_of_bytes.
  assert (0 <= n / 8 <= 255) by (split; [apply Z.div_pos; lia|apply Z.div_le_upper_bound; lia]).
  rewrite u8_small by lia.
  pose proof (Z.div_mod n 8 ltac:(lia)). pose proof (Z.mod_pos_bound n 8 ltac:(lia)).
  destruct (Z.eqb_spec (n mod 8) 0) as [E|E].
  - apply Z.div_unique with 7; lia.
  - rewrite u8_small by lia. apply Z.div_unique with (n mod 8 - 1); lia.
Qed.

Lemma read_coils_ok n bits out :
  0 <= n <= 2040 -> Z.of_nat (length bits) = n ->
  let '(len, m) := read_coils n bits out in
  len = 3 + (n + 7) / 8 /\ m 2 = (n + 7) / 8 /\
  (forall i, 0 <= i < n -> bit_at m 3 i = nth (Z.to_nat i) bits false) /\
  (forall i, n <= i -> bit_at m 3 i = bit_at out 3 i) /\
  same_outside out m 2 (1 + (n + 7) / 8).
Proof.
  intros Hn Hl. unfold read_coils. rewrite number_of_bytes_ok by auto.
  assert (Hbit : forall v i, 0 <= i -> bit_at (put out 2 v) 3 i = bit_at out 3 i).
  { intros v i Hi. unfold bit_at. assert (0 <= i / 8) by (apply Z.div_pos; lia).
    rewrite put_other by lia. reflexivity. }
  split; [reflexivity|]. split; [|split; [|split]].
  - rewrite force_bits_frame by lia. apply put_same.
  - intros i Hi. rewrite force_bits_spec by lia.
    replace ((0 <=? i) && (i <? 0 + Z.of_nat (length bits))) with true by lia.
    rewrite Z.sub_0_r. reflexivity.
  - intros i Hi. rewrite force_bits_spec by lia.
    replace ((0 <=? i) && (i <? 0 + Z.of_nat (length bits))) with false by lia.
    apply Hbit. lia.
  - intros x Hx. rewrite force_bits_frame.
    + apply put_other. assert (0 <= (n + 7) / 8) by (apply Z.div_pos; lia). lia.
    + lia.
    + rewrite Hl. assert (0 <= (n + 7) / 8) by (apply Z.div_pos; lia). rewrite Z.add_0_l. lia.
Qed.

(** * Strings *)

Lemma store_in l : forall m a k, (k < length l)%nat -> store l m a (a + Z.of_nat k) = nth k l 0.
Proof.
  assert (Hlow : forall l' m a x, x < a -> store l' m a x = m x).
  { induction l' as [|y l' IH]; intros m a x Hx; cbn [store]; auto.
    rewrite IH by lia. apply put_other. lia. }
  induction l as [|x l IH]; intros m a k Hk; cbn [length] in Hk; [lia|].
  cbn [store]. destruct k as [|k].
  - rewrite Z.add_0_r, Hlow by lia. apply put_same.
  - replace (a + Z.of_nat (S k)) with (a + 1 + Z.of_nat k) by lia. apply IH. lia.
Qed.

Lemma store_frame l : forall m a, same_outside m (store l m a) a (Z.of_nat (length l)).
Proof.
  induction l as [|y l IH]; intros m a x Hx; cbn [store length] in *; auto.
  rewrite IH by lia. apply put_other. lia.
Qed.

Lemma digits_ok s : 0 <= s < 360000 -> (s / 3600) mod 100 = s / 3600.
Proof.
  intros H. apply Z.mod_small. split; [apply Z.div_pos; lia|apply Z.div_lt_upper_bound; lia].
Qed.

Lemma pack_time_text (t : Z) (units : bool) m a :
  let s := if units then t else t / 1000 in
  0 <= s < 360000 ->
  panel_text (pack_time t units m a) a 4 = hh_mm_ss s /\
  same_outside m (pack_time t units m a) a 9 /\
  pack_time t units m a (a + 8) = 0.
Proof.
  cbn zeta. intros Hs. unfold pack_time.
  set (s := if units then t else t / 1000) in *. rewrite digits_ok by auto.
  set (l := [digit ((s / 3600) mod 10); digit (s / 3600 / 10); digit ((s / 60) mod 60 / 10); 58; 58;
             digit ((s / 60) mod 60 mod 10); digit (s mod 60 mod 10); digit (s mod 60 / 10); 0]).
  pose proof (store_in l m a) as Hst. split; [|split].
  - unfold panel_text. cbn [seq flat_map app].
    change (Z.of_nat 0) with 0. change (Z.of_nat 1) with 1. change (Z.of_nat 2) with 2.
    change (Z.of_nat 3) with 3.
    rewrite <- !Z.add_assoc.
    change (2 * 0 + 1) with (Z.of_nat 1). change (2 * 0) with (Z.of_nat 0).
    change (2 * 1 + 1) with (Z.of_nat 3). change (2 * 1) with (Z.of_nat 2).
    change (2 * 2 + 1) with (Z.of_nat 5). change (2 * 2) with (Z.of_nat 4).
    change (2 * 3 + 1) with (Z.of_nat 7). change (2 * 3) with (Z.of_nat 6).
    rewrite !Hst by (cbn; lia). reflexivity.
  - apply (store_frame l m a).
  - apply (Hst 8%nat). cbn. lia.
Qed.

(** PackString *)

(** What the buffer holds after packing [s] when [i] characters are already
    there: character [i + k] at the swapped position. *)
Definition swap (i : Z) : Z := if i mod 2 =? 0 then i + 1 else i - 1.

Lemma swap_inj i j : 0 <= i -> 0 <= j -> swap i = swap j -> i = j.
Proof.
  unfold swap. intros Hi Hj.
  pose proof (Z.div_mod i 2 ltac:(lia)). pose proof (Z.div_mod j 2 ltac:(lia)).
  pose proof (Z.mod_pos_bound i 2 ltac:(lia)). pose proof (Z.mod_pos_bound j 2 ltac:(lia)).
  destruct (Z.eqb_spec (i mod 2) 0), (Z.eqb_spec (j mod 2) 0); lia.
Qed.

Lemma pack_chars_eq i c m a :
  (if i mod 2 =? 0 then put m (a + i + 1) c else put m (a + i - 1) c) = put m (a + swap i) c.
Proof. unfold swap. destruct (i mod 2 =? 0); f_equal; lia. Qed.

Lemma pack_chars_spec s : forall i m a, 0 <= i ->
  snd (pack_chars i s m a) = i + Z.of_nat (length s) /\
  (forall k, (k < length s)%nat -> fst (pack_chars i s m a) (a + swap (i + Z.of_nat k)) = nth k s 0) /\
  (forall x, (forall k, (k < length s)%nat -> x <> a + swap (i + Z.of_nat k)) ->
     fst (pack_chars i s m a) x = m x).
Proof.
  induction s as [|c s IH]; intros i m a Hi; cbn [pack_chars].
  - cbn [fst snd length]. split; [lia|]. split; [intros k Hk; lia|auto].
  - rewrite pack_chars_eq.
    destruct (IH (i + 1) (put m (a + swap i) c) a ltac:(lia)) as (H1 & H2 & H3).
    cbn [length]. split; [rewrite H1; lia|]. split.
    + intros [|k] Hk; cbn [nth].
      * rewrite H3.
        -- rewrite Z.add_0_r. apply put_same.
        -- intros k Hk' E. assert (swap (i + Z.of_nat 0) = swap (i + 1 + Z.of_nat k)) as E' by lia.
           apply swap_inj in E'; lia.
      * rewrite <- H2 by lia. f_equal. f_equal. f_equal. lia.
    + intros x Hx. rewrite H3.
      * apply put_other. specialize (Hx 0%nat ltac:(lia)). rewrite Z.add_0_r in Hx. auto.
      * intros k Hk. specialize (Hx (S k) ltac:(lia)).
        replace (i + Z.of_nat (S k)) with (i + 1 + Z.of_nat k) in Hx by lia. auto.
Qed.

Lemma panel_text_length m a r : length (panel_text m a r) = (2 * r)%nat.
Proof.
  unfold panel_text. cut (forall n, length (flat_map (fun k => [m (a + 2 * Z.of_nat k + 1);
    m (a + 2 * Z.of_nat k)]) (seq n r)) = (2 * r)%nat); [auto|].
  induction r as [|r IH]; intros n; cbn [seq flat_map]; auto.
  rewrite app_length, IH. cbn [length]. lia.
Qed.

Lemma panel_text_nth m a r k : (k < 2 * r)%nat ->
  nth k (panel_text m a r) 0 = m (a + swap (Z.of_nat k)).
Proof.
  unfold panel_text. intros Hk.
  assert (G : forall n, nth k (flat_map (fun j => [m (a + 2 * Z.of_nat j + 1); m (a + 2 * Z.of_nat j)]) (seq n r)) 0
              = m (a + swap (Z.of_nat (2 * n + k)))).
  { revert k Hk. induction r as [|r IH]; intros k Hk n; [lia|].
    cbn [seq flat_map app]. destruct k as [|[|k]]; cbn [nth].
    - rewrite Nat.add_0_r. unfold swap.
      replace (Z.of_nat (2 * n) mod 2 =? 0) with true; [f_equal; lia|].
      replace (Z.of_nat (2 * n)) with (Z.of_nat n * 2) by lia. rewrite Z.mod_mul by lia. reflexivity.
    - unfold swap. replace (Z.of_nat (2 * n + 1) mod 2 =? 0) with false; [f_equal; lia|].
      replace (Z.of_nat (2 * n + 1)) with (1 + Z.of_nat n * 2) by lia. rewrite Z.mod_add by lia.
      reflexivity.
    - rewrite IH by lia. do 3 f_equal. lia. }
  rewrite (G 0%nat). reflexivity.
Qed.

Lemma even_mod n : Nat.even n = (Z.of_nat n mod 2 =? 0).
Proof.
  destruct (Nat.even n) eqn:E.
  - apply Nat.even_spec in E as [k ->]. replace (Z.of_nat (2 * k)) with (Z.of_nat k * 2) by lia.
    rewrite Z.mod_mul by lia. reflexivity.
  - assert (Nat.odd n = true) as O by (unfold Nat.odd; rewrite E; reflexivity).
    apply Nat.odd_spec in O as [k ->].
    replace (Z.of_nat (2 * k + 1)) with (1 + Z.of_nat k * 2) by lia.
    rewrite Z.mod_add by lia. reflexivity.
Qed.

Lemma pack_string_text s m a :
  let '(m', n) := pack_string s m a in
  n = Z.of_nat (length (padded s)) /\
  panel_text m' a (length (padded s) / 2) = padded s /\
  same_outside m m' a n.
Proof.
  unfold pack_string. pose proof (pack_chars_spec s 0 m a ltac:(lia)) as (H1 & H2 & H3).
  destruct (pack_chars 0 s m a) as [m1 i]. cbn [fst snd] in *. rewrite Z.add_0_l in H1. subst i.
  unfold padded. rewrite even_mod.
  assert (Hsw : forall j, 0 <= j -> 0 <= swap j < j + 2 /\ (j mod 2 = 1 -> swap j < j)).
  { intros j Hj. unfold swap. pose proof (Z.div_mod j 2 ltac:(lia)).
    pose proof (Z.mod_pos_bound j 2 ltac:(lia)). destruct (Z.eqb_spec (j mod 2) 0); lia. }
  destruct (Z.eqb_spec (Z.of_nat (length s) mod 2) 0) as [E|E].
  - assert (Hev : exists r, length s = (2 * r)%nat).
    { exists (length s / 2)%nat. pose proof (Z.div_mod (Z.of_nat (length s)) 2 ltac:(lia)).
      rewrite <- (Nat2Z.inj_div (length s) 2) in H || idtac.
      change 2 with (Z.of_nat 2) in E. rewrite <- Nat2Z.inj_mod in E.
      pose proof (Nat.div_mod (length s) 2). lia. }
    destruct Hev as [r Hr]. split; [reflexivity|]. split.
    + rewrite Hr. replace (2 * r / 2)%nat with r by (rewrite Nat.mul_comm, Nat.div_mul; lia).
      apply nth_ext with (d := 0) (d' := 0).
      * rewrite panel_text_length. lia.
      * intros k Hk. rewrite panel_text_length in Hk. rewrite panel_text_nth by lia.
        rewrite <- (H2 k) by lia. f_equal.
    + intros x Hx. apply H3. intros k Hk ->. apply Hx.
      pose proof (Hsw (0 + Z.of_nat k) ltac:(lia)) as [B1 B2].
      assert (Hk2 : (0 + Z.of_nat k) mod 2 = 1 \/ Z.of_nat k + 1 < Z.of_nat (length s)).
      { pose proof (Z.mod_pos_bound (Z.of_nat k) 2 ltac:(lia)).
        pose proof (Z.div_mod (Z.of_nat k) 2 ltac:(lia)). rewrite Z.add_0_l. lia. }
      lia.
  - assert (Hod : exists r, length s = (2 * r + 1)%nat).
    { exists (length s / 2)%nat.
      change 2 with (Z.of_nat 2) in E. rewrite <- Nat2Z.inj_mod in E.
      pose proof (Nat.div_mod (length s) 2). pose proof (Nat.mod_upper_bound (length s) 2). lia. }
    destruct Hod as [r Hr]. rewrite app_length. cbn [length]. split; [lia|]. split.
    + rewrite Hr. replace ((2 * r + 1 + 1) / 2)%nat with (r + 1)%nat.
      2:{ replace (2 * r + 1 + 1)%nat with ((r + 1) * 2)%nat by lia. rewrite Nat.div_mul; lia. }
      apply nth_ext with (d := 0) (d' := 0).
      * rewrite panel_text_length, app_length. cbn [length]. lia.
      * intros k Hk. rewrite panel_text_length in Hk. rewrite panel_text_nth by lia.
        destruct (Nat.eq_dec k (2 * r + 1)) as [->|Hne].
        -- rewrite app_nth2 by lia. rewrite Hr, Nat.sub_diag. cbn [nth].
           unfold swap. replace (Z.of_nat (2 * r + 1) mod 2 =? 0) with false.
           2:{ replace (Z.of_nat (2 * r + 1)) with (1 + Z.of_nat r * 2) by lia.
               rewrite Z.mod_add by lia. reflexivity. }
           replace (a + (Z.of_nat (2 * r + 1) - 1)) with (a + Z.of_nat (2 * r + 1) - 1) by lia.
           apply put_same.
        -- rewrite app_nth1 by lia. rewrite put_other.
           ++ rewrite <- (H2 k) by lia. f_equal.
           ++ intros E'. assert (swap (Z.of_nat k) = swap (Z.of_nat (2 * r + 1))) as E2.
              { replace (swap (Z.of_nat (2 * r + 1))) with (Z.of_nat (length s) - 1); [lia|].
                unfold swap. replace (Z.of_nat (2 * r + 1) mod 2 =? 0) with false; [lia|].
                replace (Z.of_nat (2 * r + 1)) with (1 + Z.of_nat r * 2) by lia.
                rewrite Z.mod_add by lia. reflexivity. }
              apply swap_inj in E2; lia.
    + intros x Hx. rewrite put_other by lia. apply H3. intros k Hk ->. apply Hx.
      pose proof (Hsw (0 + Z.of_nat k) ltac:(lia)) as [B1 B2]. lia.
Qed.

(** * Code pages *)

Definition cells (m : mem) (a : Z) (k : Z) : Z * Z := (m (a + 2 * k), m (a + 2 * k + 1)).

Lemma to_unicode_cells s : forall m a,
  (forall k, (k < length s)%nat ->
     cells (cp1251_to_unicode s m a) a (Z.of_nat k) = uni_char (nth k s 0)) /\
  cells (cp1251_to_unicode s m a) a (Z.of_nat (length s)) = (0, 0) /\
  same_outside m (cp1251_to_unicode s m a) a (2 * Z.of_nat (length s) + 2).
Proof.
  induction s as [|c s IH]; intros m a; cbn [cp1251_to_unicode length].
  - split; [intros k Hk; lia|]. split.
    + unfold cells. cbn [Z.of_nat]. rewrite Z.mul_0_r, !Z.add_0_r. puts. reflexivity.
    + intros x Hx. puts. reflexivity.
  - destruct (IH (put (put m a (fst (uni_char c))) (a + 1) (snd (uni_char c))) (a + 2))
      as (H1 & H2 & H3). split; [|split].
    + intros [|k] Hk; cbn [nth].
      * unfold cells. cbn [Z.of_nat]. rewrite Z.mul_0_r, !Z.add_0_r.
        rewrite !H3 by lia. puts. destruct (uni_char c); reflexivity.
      * rewrite <- H1 by lia. unfold cells. f_equal; f_equal; lia.
    + rewrite <- H2. unfold cells. f_equal; f_equal; lia.
    + intros x Hx. rewrite H3 by lia. puts. reflexivity.
Qed.

(** Finite facts about the table, checked by computation. *)
Definition uni_ok (c : Z) : bool :=
  let '(u, l) := uni_char c in
  if c =? 152 then (u =? 0) && (l =? 0)
  else negb ((u =? 0) && (l =? 0)) &&
       (if (u =? 0) && (l <? 128) then l =? c
        else match table_find u l 0 UTable with Some j => 128 + j =? c | None => false end).

Lemma uni_table : forallb uni_ok (map Z.of_nat (seq 1 255)) = true.
Proof. vm_compute. reflexivity. Qed.

Lemma uni_ok_char c : char_ok c -> uni_ok c = true.
Proof.
  intros H. pose proof uni_table as T. rewrite forallb_forall in T. apply T.
  apply in_map_iff. exists (Z.to_nat c). unfold char_ok in H. split; [lia|]. apply in_seq. lia.
Qed.

Lemma from_unicode_loop fuel : forall s i buf a out o,
  (fuel > 0)%nat -> 0 <= i -> Forall char_ok s ->
  (forall k, (k < length s)%nat -> cells buf a (i + Z.of_nat k) = uni_char (nth k s 0)) ->
  cells buf a (i + Z.of_nat (length s)) = (0, 0) ->
  let r := firstn (fuel - 1) (until_undefined s) in
  let out' := unicode_to_cp1251_loop fuel i buf a out o in
  (forall k, (k < length r)%nat -> out' (o + i + Z.of_nat k) = nth k r 0) /\
  out' (o + i + Z.of_nat (length r)) = 0 /\
  same_outside out out' (o + i) (Z.of_nat (length r) + 1).
Proof.
  induction fuel as [|fuel IH]; intros s i buf a out o Hf Hi Hs Hc He; [lia|].
  cbn zeta. cbn [unicode_to_cp1251_loop].
  set (up := buf (a + 2 * i)). set (lo := buf (a + 2 * i + 1)).
  assert (Hstop : forall r : list Z, r = [] ->
    (forall k, (k < length r)%nat -> put out (o + i) 0 (o + i + Z.of_nat k) = nth k r 0) /\
    put out (o + i) 0 (o + i + Z.of_nat (length r)) = 0 /\
    same_outside out (put out (o + i) 0) (o + i) (Z.of_nat (length r) + 1)).
  { intros r ->. cbn [length Z.of_nat]. split; [intros k Hk; lia|]. split.
    - rewrite Z.add_0_r. apply put_same.
    - intros x Hx. apply put_other. lia. }
  destruct fuel as [|fuel'].
  { cbn [orb]. apply Hstop. reflexivity. }
  destruct s as [|c s].
  { cbn [length Z.of_nat] in He. rewrite Z.add_0_r in He. 
    assert (E1 : up = 0) by exact (f_equal fst He).
    assert (E2 : lo = 0) by exact (f_equal snd He). rewrite E1, E2. cbn [Z.eqb andb orb].
    apply Hstop. cbn [until_undefined]. apply firstn_nil. }
  cbn [orb].
  pose proof (Hc 0%nat ltac:(cbn [length]; lia)) as H0. cbn [Z.of_nat nth] in H0.
  rewrite Z.add_0_r in H0. unfold cells in H0. fold up lo in H0.
  inversion_clear Hs as [|? ? Hc0 Hs'].
  pose proof (uni_ok_char c Hc0) as Hok. unfold uni_ok in Hok. rewrite <- H0 in Hok.
  cbn [until_undefined].
  destruct (Z.eqb_spec c 152) as [E|E].
  { rewrite Hok. apply Hstop. apply firstn_nil. }
  apply andb_true_iff in Hok as [Hnz Hok]. apply negb_true_iff in Hnz. rewrite Hnz.
  set (out1 := if (up =? 0) && (lo <? 128) then put out (o + i) lo
     else match table_find up lo 0 UTable with Some j => put out (o + i) (128 + j) | None => out end).
  assert (Hout1 : out1 = put out (o + i) c).
  { unfold out1. destruct ((up =? 0) && (lo <? 128)).
    - f_equal. lia.
    - destruct (table_find up lo 0 UTable); [f_equal; lia|discriminate]. }
  rewrite Hout1.
  specialize (IH s (i + 1) buf a (put out (o + i) c) o ltac:(lia) ltac:(lia) Hs').
  cbn zeta in IH.
  replace (S (S fuel') - 1)%nat with (S fuel') by lia. cbn [firstn length].
  replace (S fuel' - 1)%nat with fuel' in IH by lia.
  destruct IH as (I1 & I2 & I3).
  { intros k Hk. specialize (Hc (S k)). cbn [length nth] in Hc. rewrite <- Hc by lia.
    unfold cells. f_equal; f_equal; lia. }
  { cbn [length] in He. rewrite <- He. unfold cells. f_equal; f_equal; lia. }
  split; [|split].
  - intros [|k] Hk; cbn [nth].
    + rewrite Z.add_0_r. rewrite I3 by lia. apply put_same.
    + rewrite <- I1 by lia. f_equal. lia.
  - etransitivity; [|exact I2]. f_equal. lia.
  - intros x Hx. rewrite I3 by lia. apply put_other. lia.
Qed.

Lemma until_undefined_chars s : Forall char_ok s -> Forall char_ok (until_undefined s).
Proof.
  induction 1 as [|c s Hc Hs IH]; cbn [until_undefined]; [constructor|].
  destruct (c =? 152); constructor; auto.
Qed.

Lemma unicode_rt s m a n out o : Forall char_ok s -> 0 < n ->
  let r := firstn (Z.to_nat n - 1) (until_undefined s) in
  let out' := unicode_to_cp1251 (cp1251_to_unicode s m a) a n out o in
  c_string out' o r /\ same_outside out out' o (Z.of_nat (length r) + 1).
Proof.
  cbn zeta. intros Hs Hn. unfold unicode_to_cp1251.
  destruct (to_unicode_cells s m a) as (H1 & H2 & _).
  pose proof (from_unicode_loop (Z.to_nat n) s 0 (cp1251_to_unicode s m a) a out o
    ltac:(lia) ltac:(lia) Hs) as L.
  cbn zeta in L. rewrite Z.add_0_l in L.
  specialize (L ltac:(intros k Hk; rewrite Z.add_0_l; auto) H2).
  rewrite Z.add_0_r in L. destruct L as (L1 & L2 & L3).
  split; [|exact L3]. split; [|exact L2].
  intros k Hk. split; [apply L1; auto|].
  pose proof (until_undefined_chars s Hs) as Hu.
  assert (Hf : Forall char_ok (firstn (Z.to_nat n - 1) (until_undefined s))).
  { rewrite <- (firstn_skipn (Z.to_nat n - 1) (until_undefined s)) in Hu.
    apply Forall_app in Hu. tauto. }
  rewrite Forall_forall in Hf. specialize (Hf (nth k (firstn (Z.to_nat n - 1) (until_undefined s)) 0)
    (nth_In _ _ Hk)). unfold char_ok in Hf. lia.
Qed.

(** * List update flags *)

Lemma upd_inv ops line : 0 < line < 11 ->
  (Forall (fun o => match o with UWrite l _ => 0 < l < 11 | _ => True end) ops) ->
  let n := acks_since_set line (rev ops) in
  0 <= n /\
  u_flag (upd_run ops) line = (n <? 10) /\ u_ctr (upd_run ops) line = n mod 10.
Proof.
  intros Hl. unfold upd_run. induction ops as [|o ops IH] using rev_ind; intros Hf; cbn zeta.
  - cbn. split; [lia|auto].
  - apply Forall_app in Hf as [Hf Ho]. inversion_clear Ho as [|? ? Ho' _].
    specialize (IH Hf). cbn zeta in IH. destruct IH as (H0 & H1 & H2).
    rewrite rev_app_distr, fold_left_app. cbn [rev app fold_left].
    set (u := fold_left upd_step ops upd_init) in *.
    destruct o as [l k| |l]; cbn [acks_since_set upd_step].
    + unfold MAX_UPDATE_CONFIRMS.
      destruct (Z.eqb_spec l line) as [->|Hne].
      * destruct (Z.eqb_spec k 0) as [->|Hk]; cbn [negb].
        -- set (n := acks_since_set line (rev ops)) in *.
           rewrite H2. pose proof (Z.mod_pos_bound n 10 ltac:(lia)).
           pose proof (Z.div_mod n 10 ltac:(lia)).
           destruct (Z.leb_spec 10 (n mod 10 + 1)); cbn [u_flag u_ctr]; unfold fput;
             rewrite ?Z.eqb_refl.
           ++ split; [lia|]. split; [lia|]. apply Z.mod_unique with (n / 10 + 1); lia.
           ++ split; [lia|]. split.
              ** rewrite H1. lia.
              ** apply Z.mod_unique with (n / 10); lia.
        -- cbn [u_flag u_ctr]. unfold fput. rewrite Z.eqb_refl. split; [lia|]. auto.
      * destruct (negb (k =? 0)); [|destruct (10 <=? u_ctr u l + 1)]; cbn [u_flag u_ctr]; unfold fput;
          replace (line =? l) with false by lia; auto.
    + cbn [u_flag u_ctr]. replace ((0 <=? line) && (line <? 11)) with true by lia.
      split; [lia|auto].
    + destruct (Z.eqb_spec l line) as [->|Hne].
      * replace ((0 <? line) && (line <? 11)) with true by lia. cbn [u_flag u_ctr].
        unfold fput. rewrite Z.eqb_refl. split; [lia|auto].
      * destruct ((0 <? l) && (l <? 11)); auto. cbn [u_flag u_ctr]. unfold fput.
        replace (line =? l) with false by lia. auto.
Qed.

(** * Register layout *)

Lemma word_reg v m a : 0 <= v < 65536 -> register (pack_word v m a) a 0 = v.
Proof.
  intros H. rewrite <- (word_rt v m a H) at 2. unfold register, unpack_word.
  replace (a + 2 * 0) with a by lia. lia.
Qed.

Lemma int16_reg v m a : register (pack_int16 v m a) a 0 = v mod 2 ^ 16.
Proof.
  unfold register, pack_int16. replace (a + 2 * 0) with a by lia. puts.
  rewrite Z.add_comm. apply bytes2. apply u16_range.
Qed.

Lemma long_reg v m a : 0 <= v < 2 ^ 32 ->
  register (pack_long v m a) a 0 = v mod 2 ^ 16 /\ register (pack_long v m a) a 1 = v / 2 ^ 16.
Proof.
  intros H. pose proof (bytes4 v H) as B.
  unfold register, pack_long. replace (a + 2 * 0) with a by lia. replace (a + 2 * 1) with (a + 2) by lia.
  replace (a + 2 + 1) with (a + 3) by lia. puts.
  pose proof (byte_range v 0). pose proof (byte_range v 1).
  pose proof (byte_range v 2). pose proof (byte_range v 3).
  change (2 ^ 16) with 65536 in *. change (2 ^ 24) with 16777216 in *. change (2 ^ 8) with 256 in *.
  split; Z.to_euclidean_division_equations; lia.
Qed.

Lemma pack_bytes v m a : (forall x, 0 <= m x < 256) ->
  forall x, 0 <= pack_long v m a x < 256 /\ 0 <= pack_word v m a x < 256 /\ 0 <= pack_int16 v m a x < 256.
Proof.
  intros H x. unfold pack_long, pack_word, pack_int16, put.
  repeat match goal with |- context [if ?b then _ else _] => destruct b end;
    repeat split; try apply byte_range; apply H.
Qed.

Lemma code_point_table : forallb (fun c =>
  match code_point c with
  | Some u => 256 * fst (uni_char c) + snd (uni_char c) =? u
  | None => true
  end) (map Z.of_nat (seq 1 255)) = true.
Proof. vm_compute. reflexivity. Qed.

Lemma unicode_registers s m a : Forall char_ok s ->
  (forall k u, (k < length s)%nat -> code_point (nth k s 0) = Some u ->
     register (cp1251_to_unicode s m a) a (Z.of_nat k) = u) /\
  register (cp1251_to_unicode s m a) a (Z.of_nat (length s)) = 0.
Proof.
  intros Hs. destruct (to_unicode_cells s m a) as (H1 & H2 & _). split.
  - intros k u Hk Hu. specialize (H1 k Hk). unfold cells in H1. unfold register.
    assert (E1 := f_equal fst H1). assert (E2 := f_equal snd H1). cbn [fst snd] in E1, E2.
    rewrite E1, E2. pose proof code_point_table as T. rewrite forallb_forall in T.
    rewrite Forall_forall in Hs. pose proof (Hs _ (nth_In s 0 Hk)) as Hc.
    specialize (T (nth k s 0)). rewrite Hu in T. apply Z.eqb_eq. apply T.
    apply in_map_iff. exists (Z.to_nat (nth k s 0)). unfold char_ok in Hc. split; [lia|].
    apply in_seq. lia.
  - unfold cells in H2. unfold register.
    assert (E1 := f_equal fst H2). assert (E2 := f_equal snd H2). cbn [fst snd] in E1, E2.
    rewrite E1, E2. reflexivity.
Qed.
