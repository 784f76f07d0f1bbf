From Coq Require Import ZArith List Bool Lia.
From Verif Require Import Base ModbusModel ModbusSpec ModbusProofs McModel McSpec.
Import ListNotations.
Open Scope Z_scope.

(** * Data area *)

Lemma u32_dbl a : 0 <= a < 2 ^ 31 -> u32 (a * 2) = a * 2.
Proof. intros H. unfold u32. apply Z.mod_small. lia. Qed.

Ltac consts := unfold buff_size, write_buff_start, read_buff_start in *.

Lemma set_int2_cases a v m : 0 <= a < 2 ^ 31 ->
  (a <= 120 -> set_int2 a v m = pack_int16 v m (13 + 2 * a)) /\
  (120 < a -> set_int2 a v m = m).
Proof.
  intros Ha. unfold set_int2. rewrite u32_dbl by auto. consts.
  destruct (Z.ltb_spec (256 - 13 - 2) (a * 2)); split; intros; try lia; auto.
  f_equal. lia.
Qed.

Lemma set_int4_cases a v m : 0 <= a < 2 ^ 31 ->
  (a <= 119 -> set_int4 a v m = pack_long (v mod 2 ^ 32) m (13 + 2 * a)) /\
  (119 < a -> set_int4 a v m = m).
Proof.
  intros Ha. unfold set_int4. rewrite u32_dbl by auto. consts.
  destruct (Z.ltb_spec (256 - 13 - 4) (a * 2)); split; intros; try lia; auto.
  f_equal. lia.
Qed.

Lemma frame_all a v m x : 0 <= a < 2 ^ 32 -> ~ (13 <= x < 256) ->
  set_int2 a v m x = m x /\ set_int4 a v m x = m x.
Proof.
  intros Ha Hx. unfold set_int2, set_int4. consts.
  assert (0 <= u32 (a * 2)) by apply u32_range.
  split.
  - destruct (Z.ltb_spec (256 - 13 - 2) (u32 (a * 2))); auto. apply int16_frame. lia.
  - destruct (Z.ltb_spec (256 - 13 - 4) (u32 (a * 2))); auto. apply long_frame. lia.
Qed.

Lemma get_set_int2 a v m : 0 <= a <= 120 -> - 2 ^ 15 <= v < 2 ^ 15 ->
  get_int2 (a + 2) (set_int2 a v m) = v.
Proof.
  intros Ha Hv. rewrite (proj1 (set_int2_cases a v m ltac:(lia))) by lia.
  unfold get_int2. rewrite u32_dbl by lia. consts.
  destruct (Z.ltb_spec (256 - 9 - 2) ((a + 2) * 2)); [lia|].
  replace (9 + (a + 2) * 2) with (13 + 2 * a) by lia. apply int16_rt. auto.
Qed.

Lemma get_set_int4 a v m : 0 <= a <= 119 -> - 2 ^ 31 <= v < 2 ^ 31 ->
  get_int4 (a + 2) (set_int4 a v m) = v.
Proof.
  intros Ha Hv. rewrite (proj1 (set_int4_cases a v m ltac:(lia))) by lia.
  unfold get_int4, get_float. rewrite u32_dbl by lia. consts.
  destruct (Z.ltb_spec (256 - 9 - 4) ((a + 2) * 2)); [lia|].
  replace (9 + (a + 2) * 2) with (13 + 2 * a) by lia.
  change (s32 (unpack_long (pack_long (v mod 2 ^ 32) m (13 + 2 * a)) (13 + 2 * a)))
    with (unpack_int32 (pack_long (v mod 2 ^ 32) m (13 + 2 * a)) (13 + 2 * a)).
  apply int32_rt. auto.
Qed.

Lemma get_set_float a v m : 0 <= a <= 119 -> 0 <= v < 2 ^ 32 ->
  get_float (a + 2) (set_int4 a v m) = v.
Proof.
  intros Ha Hv. rewrite (proj1 (set_int4_cases a v m ltac:(lia))) by lia.
  unfold get_float. rewrite u32_dbl by lia. consts.
  destruct (Z.ltb_spec (256 - 9 - 4) ((a + 2) * 2)); [lia|].
  replace (9 + (a + 2) * 2) with (13 + 2 * a) by lia.
  rewrite Z.mod_small by lia. apply long_rt. auto.
Qed.

(** * Bits of the data area *)

Lemma bit_store_spec b p v q : 0 <= b < 256 -> 0 <= p < 8 -> 0 <= q < 8 ->
  Z.testbit (bit_store b p v) q = if q =? p then v else Z.testbit b q.
Proof.
  intros Hb Hp Hq. unfold bit_store, u8. change 256 with (2 ^ 8).
  rewrite Z.mod_pow2_bits_low by lia.
  rewrite Z.lxor_spec, Z.land_spec, Z.lxor_spec, testbit_shift by lia.
  destruct (Z.eqb_spec q p) as [->|].
  - rewrite andb_true_r. destruct v.
    + change (- (1)) with (-1). rewrite Z.bits_m1 by lia. destruct (Z.testbit b p); reflexivity.
    + change (- (0)) with 0. rewrite Z.bits_0. destruct (Z.testbit b p); reflexivity.
  - rewrite andb_false_r, xorb_false_r. reflexivity.
Qed.

Lemma bit_store_range b p v : 0 <= bit_store b p v < 256.
Proof. unfold bit_store. apply u8_range. Qed.

Lemma land_shift_bit b p : 0 <= p -> negb (Z.land b (Z.shiftl 1 p) =? 0) = Z.testbit b p.
Proof.
  intros Hp. destruct (Z.testbit b p) eqn:E.
  - apply negb_true_iff. apply Z.eqb_neq. intros H.
    assert (Z.testbit (Z.land b (Z.shiftl 1 p)) p = true).
    { rewrite Z.land_spec, testbit_shift, E, Z.eqb_refl by lia. reflexivity. }
    rewrite H, Z.bits_0 in H0. discriminate.
  - apply negb_false_iff. apply Z.eqb_eq. apply Z.bits_inj'. intros i Hi.
    rewrite Z.land_spec, testbit_shift, Z.bits_0 by lia.
    destruct (Z.eqb_spec i p) as [->|]; [rewrite E|]; cbn; auto using andb_false_r.
Qed.

Definition bytes_ok (m : mem) : Prop := forall x, 0 <= m x < 256.

Lemma set_bit_spec n v m k : bytes_ok m -> 0 <= n -> 0 <= k ->
  bit_at (set_bit n v m) 13 k = if k =? n then v else bit_at m 13 k.
Proof.
  intros Hm Hn Hk. unfold bit_at, set_bit. consts.
  pose proof (Z.mod_pos_bound n 8 ltac:(lia)). pose proof (Z.mod_pos_bound k 8 ltac:(lia)).
  pose proof (Z.div_mod n 8 ltac:(lia)). pose proof (Z.div_mod k 8 ltac:(lia)).
  destruct (Z.eq_dec (k / 8) (n / 8)) as [E|E].
  - rewrite E, put_same, bit_store_spec by (auto; lia).
    destruct (Z.eqb_spec k n) as [->|].
    + rewrite Z.eqb_refl. reflexivity.
    + replace (k mod 8 =? n mod 8) with false by lia. reflexivity.
  - rewrite put_other by lia. destruct (Z.eqb_spec k n); [congruence|reflexivity].
Qed.

Lemma set_bit_frame n v m x : x <> 13 + n / 8 -> set_bit n v m x = m x.
Proof. intros H. unfold set_bit. consts. apply put_other. auto. Qed.

Lemma get_bit_spec n m : 0 <= n -> get_bit n m = bit_at m 9 n.
Proof.
  intros Hn. unfold get_bit, bit_at. consts. apply land_shift_bit.
  pose proof (Z.mod_pos_bound n 8 ltac:(lia)). lia.
Qed.

(** Bit [k] of a register. *)
Lemma register_bit m a r k : bytes_ok m -> 0 <= k < 16 ->
  Z.testbit (register m a r) k =
  if k <? 8 then Z.testbit (m (a + 2 * r + 1)) k else Z.testbit (m (a + 2 * r)) (k - 8).
Proof.
  intros Hm Hk. unfold register. set (h := m (a + 2 * r)). set (l := m (a + 2 * r + 1)).
  assert (Hl : 0 <= l < 256) by apply Hm.
  assert (E : 256 * h + l = Z.lor (Z.shiftl h 8) l).
  { rewrite Z.shiftl_mul_pow2 by lia. rewrite <- Z.add_nocarry_lxor || idtac.
    rewrite <- Z.lxor_lor, <- Z.add_nocarry_lxor; try (change (2 ^ 8) with 256; lia).
    - apply Z.bits_inj'. intros i Hi. rewrite Z.land_spec, Z.bits_0.
      destruct (Z.lt_ge_cases i 8).
      + rewrite Z.mul_pow2_bits_low by lia. reflexivity.
      + rewrite (bits_of_byte l) by lia. apply andb_false_r.
    - apply Z.bits_inj'. intros i Hi. rewrite Z.land_spec, Z.bits_0.
      destruct (Z.lt_ge_cases i 8).
      + rewrite Z.mul_pow2_bits_low by lia. reflexivity.
      + rewrite (bits_of_byte l) by lia. apply andb_false_r. }
  rewrite E, Z.lor_spec, Z.shiftl_spec by lia.
  destruct (Z.ltb_spec k 8).
  - rewrite (Z.testbit_neg_r h) by lia. reflexivity.
  - rewrite (bits_of_byte l) by lia. apply orb_false_r.
Qed.

Lemma put_bytes_ok m a v : bytes_ok m -> 0 <= v < 256 -> bytes_ok (put m a v).
Proof. intros Hm Hv x. unfold put. destruct (x =? a); auto. Qed.

Lemma reg_set_bit_spec r k v m r' k' : bytes_ok m -> 0 <= k < 16 -> 0 <= k' < 16 ->
  Z.testbit (register (reg_set_bit r k v m) 13 r') k' =
  if (r' =? r) && (k' =? k) then v else Z.testbit (register m 13 r') k'.
Proof.
  intros Hm Hk Hk'.
  assert (Hm' : bytes_ok (reg_set_bit r k v m)) by (apply put_bytes_ok; [auto|apply bit_store_range]).
  rewrite !register_bit by auto. unfold reg_set_bit. consts.
  assert (Ek : k mod 8 = if k <? 8 then k else k - 8).
  { destruct (Z.ltb_spec k 8); [apply Z.mod_small; lia|].
    symmetry. apply Z.mod_unique with 1; lia. }
  rewrite Ek.
  destruct (Z.ltb_spec k 8); destruct (Z.ltb_spec k' 8).
  - destruct (Z.eqb_spec r' r) as [->|]; cbn [andb].
    + replace (13 + 2 * r + 1) with (13 + (r * 2 + 1)) by lia.
      rewrite put_same, bit_store_spec by (auto; lia). reflexivity.
    + rewrite put_other by lia. reflexivity.
  - rewrite put_other by lia. replace (k' =? k) with false by lia. rewrite andb_false_r. reflexivity.
  - rewrite put_other by lia. replace (k' =? k) with false by lia. rewrite andb_false_r. reflexivity.
  - destruct (Z.eqb_spec r' r) as [->|]; cbn [andb].
    + replace (13 + 2 * r) with (13 + (r * 2 + 0)) by lia.
      rewrite put_same, bit_store_spec by (auto; lia).
      replace (k' - 8 =? k - 8) with (k' =? k) by lia. reflexivity.
    + rewrite put_other by lia. reflexivity.
Qed.

Lemma reg_get_bit_spec r k m : bytes_ok m -> 0 <= k < 16 ->
  reg_get_bit r k m = Z.testbit (register m 9 r) k.
Proof.
  intros Hm Hk. rewrite register_bit by auto. unfold reg_get_bit. consts.
  rewrite land_shift_bit by (pose proof (Z.mod_pos_bound k 8 ltac:(lia)); lia).
  destruct (Z.ltb_spec k 8).
  - rewrite Z.mod_small by lia. f_equal. f_equal. lia.
  - replace (k mod 8) with (k - 8) by (apply Z.mod_unique with 1; lia). f_equal. f_equal. lia.
Qed.

(** * Masks *)

Lemma masks_spec h : Forall (fun pv => 0 <= fst pv < 16) h ->
  let k := fold_left (fun k pv => mask_set_bit k (fst pv) (snd pv)) (rev h) mask_reset in
  forall i, 0 <= i < 16 ->
  Z.testbit (andmask k) i = match last_assigned i h with Some _ => false | None => true end /\
  Z.testbit (ormask k) i = match last_assigned i h with Some v => v | None => false end.
Proof.
  induction h as [|[p v] h IH]; intros Hf; cbn zeta.
  - intros i Hi. cbn [rev fold_left last_assigned mask_reset andmask ormask].
    change 0xFFFF with (Z.ones 16). rewrite Z.ones_spec_low by lia. rewrite Z.bits_0. auto.
  - inversion_clear Hf as [|? ? Hp Hf']. cbn [fst] in Hp. specialize (IH Hf'). cbn zeta in IH.
    intros i Hi. cbn [rev]. rewrite fold_left_app. cbn [fold_left fst snd].
    set (k := fold_left _ (rev h) mask_reset) in *.
    destruct (IH i Hi) as [I1 I2]. unfold mask_set_bit.
    replace ((p <? 0) || (15 <? p)) with false by lia. cbn [andmask ormask last_assigned].
    rewrite Z.land_spec, Z.lnot_spec, testbit_shift by lia. rewrite (Z.eqb_sym p i).
    split.
    + destruct (i =? p); cbn [negb]; [apply andb_false_r|]. rewrite andb_true_r. exact I1.
    + destruct v.
      * rewrite Z.lor_spec, testbit_shift by lia. destruct (i =? p); [apply orb_true_r|].
        rewrite orb_false_r. exact I2.
      * rewrite Z.land_spec, Z.lnot_spec, testbit_shift by lia.
        destruct (i =? p); cbn [negb]; [apply andb_false_r|]. rewrite andb_true_r. exact I2.
Qed.

Lemma mask_ignores k p v : ~ (0 <= p < 16) -> mask_set_bit k p v = k.
Proof. intros H. unfold mask_set_bit. replace ((p <? 0) || (15 <? p)) with true by lia. reflexivity. Qed.

Lemma last_assigned_filter i h : 0 <= i < 16 ->
  last_assigned i (filter (fun pv => (0 <=? fst pv) && (fst pv <? 16)) h) = last_assigned i h.
Proof.
  intros Hi. induction h as [|[p v] h IH]; auto. cbn [filter fst last_assigned].
  destruct ((0 <=? p) && (p <? 16)) eqn:E; cbn [last_assigned]; rewrite IH; auto.
  destruct (Z.eqb_spec p i); [lia|reflexivity].
Qed.

Lemma fold_filter h : forall k,
  fold_left (fun k pv => mask_set_bit k (fst pv) (snd pv)) (rev h) k =
  fold_left (fun k pv => mask_set_bit k (fst pv) (snd pv))
    (rev (filter (fun pv => (0 <=? fst pv) && (fst pv <? 16)) h)) k.
Proof.
  induction h as [|[p v] h IH]; intros k; auto. cbn [rev filter fst].
  rewrite fold_left_app. cbn [fold_left fst snd]. rewrite IH.
  destruct ((0 <=? p) && (p <? 16)) eqn:E.
  - cbn [rev]. rewrite fold_left_app. reflexivity.
  - apply mask_ignores. lia.
Qed.

Lemma masked_spec h cur i : 0 <= i < 16 ->
  let k := fold_left (fun k pv => mask_set_bit k (fst pv) (snd pv)) (rev h) mask_reset in
  Z.testbit (masked cur (andmask k) (ormask k)) i =
  match last_assigned i h with Some v => v | None => Z.testbit cur i end.
Proof.
  intros Hi. cbn zeta. rewrite fold_filter, <- (last_assigned_filter i h) by auto.
  set (h' := filter _ h).
  assert (Hf : Forall (fun pv : Z * bool => 0 <= fst pv < 16) h').
  { apply Forall_forall. intros x Hx. apply filter_In in Hx. lia. }
  destruct (masks_spec h' Hf i Hi) as [I1 I2]. cbn zeta in I1, I2.
  unfold masked. rewrite Z.lor_spec, !Z.land_spec, Z.lnot_spec, I1, I2 by lia.
  destruct (last_assigned i h') as [[]|]; cbn [negb andb]; rewrite ?andb_false_r, ?andb_true_r, ?orb_false_r; reflexivity.
Qed.

Lemma masks_range h :
  let k := fold_left (fun k pv => mask_set_bit k (fst pv) (snd pv)) (rev h) mask_reset in
  w16 (andmask k) /\ w16 (ormask k).
Proof.
  cbn zeta. assert (H16 : forall x, (forall i, 16 <= i -> Z.testbit x i = false) -> w16 x).
  { intros x H. unfold w16. assert (E : x = x mod 2 ^ 16).
    { apply Z.bits_inj'. intros i Hi. destruct (Z.lt_ge_cases i 16).
      - rewrite Z.mod_pow2_bits_low by lia. reflexivity.
      - rewrite Z.mod_pow2_bits_high by lia. apply H. lia. }
    rewrite E. apply Z.mod_pos_bound. lia. }
  assert (B : forall i, 16 <= i ->
    let k := fold_left (fun k pv => mask_set_bit k (fst pv) (snd pv)) (rev h) mask_reset in
    Z.testbit (andmask k) i = false /\ Z.testbit (ormask k) i = false).
  { intros i Hi. cbn zeta. induction h as [|[p v] h IH].
    - cbn [rev fold_left mask_reset andmask ormask]. change 0xFFFF with (Z.ones 16).
      rewrite Z.ones_spec_high by lia. rewrite Z.bits_0. auto.
    - cbn [rev]. rewrite fold_left_app. cbn [fold_left fst snd].
      set (k := fold_left _ (rev h) mask_reset) in *. destruct IH as [I1 I2].
      unfold mask_set_bit. destruct ((p <? 0) || (15 <? p)) eqn:E; [auto|].
      cbn [andmask ormask]. rewrite Z.land_spec, I1. split; [reflexivity|].
      destruct v; [rewrite Z.lor_spec, testbit_shift, I2 by lia; cbn; lia|].
      rewrite Z.land_spec, I2. reflexivity. }
  split; apply H16; intros i Hi; apply (B i Hi).
Qed.

(** * Bit shuffling *)

Lemma reverse_table : forallb (fun b => forallb (fun i =>
    Bool.eqb (Z.testbit (reverse b) i) (Z.testbit b (7 - i))) [0;1;2;3;4;5;6;7] &&
    (0 <=? reverse b) && (reverse b <? 256))
  (map Z.of_nat (seq 0 256)) = true.
Proof. vm_compute. reflexivity. Qed.

Lemma reverse_spec b i : 0 <= b < 256 -> 0 <= i < 8 ->
  Z.testbit (reverse b) i = Z.testbit b (7 - i) /\ 0 <= reverse b < 256.
Proof.
  intros Hb Hi. pose proof reverse_table as T. rewrite forallb_forall in T.
  specialize (T b ltac:(apply in_map_iff; exists (Z.to_nat b); split; [lia|apply in_seq; lia])).
  apply andb_true_iff in T as [T T3]. apply andb_true_iff in T as [T T2].
  rewrite forallb_forall in T.
  assert (In i [0;1;2;3;4;5;6;7]) as Hin by (cbn; lia).
  specialize (T i Hin). apply eqb_prop in T. split; [exact T|lia].
Qed.

Lemma swap_bit x p1 p2 n k : 0 <= x < 2 ^ 32 -> 0 <= n -> 0 <= p1 -> p1 + n <= p2 -> p2 + n <= 32 -> 0 <= k < 32 ->
  Z.testbit (swapBits x p1 p2 n) k =
  if (p1 <=? k) && (k <? p1 + n) then Z.testbit x (k - p1 + p2)
  else if (p2 <=? k) && (k <? p2 + n) then Z.testbit x (k - p2 + p1)
  else Z.testbit x k.
Proof.
  intros Hx Hn H1 H2 H3 Hk. unfold swapBits.
  assert (Hmask : forall y i, 0 <= i -> Z.testbit (Z.land y (Z.shiftl 1 n - 1)) i = Z.testbit y i && (i <? n)).
  { intros y i Hi. rewrite Z.shiftl_1_l. rewrite <- Z.ones_equiv || idtac.
    replace (2 ^ n - 1) with (Z.ones n) by (rewrite Z.ones_equiv; lia).
    rewrite Z.land_spec. f_equal. destruct (Z.ltb_spec i n).
    - apply Z.ones_spec_low. lia.
    - apply Z.ones_spec_high. lia. }
  rewrite Z.lxor_spec, Z.lor_spec.
  unfold u32. rewrite !Z.mod_pow2_bits_low by lia. rewrite !Z.shiftl_spec by lia.
  assert (Hxor : forall i, Z.testbit (Z.lxor (Z.land (Z.shiftr x p1) (Z.shiftl 1 n - 1))
      (Z.land (Z.shiftr x p2) (Z.shiftl 1 n - 1))) i =
      if (0 <=? i) && (i <? n) then xorb (Z.testbit x (i + p1)) (Z.testbit x (i + p2)) else false).
  { intros i. destruct (Z.ltb_spec i 0).
    - rewrite Z.testbit_neg_r by lia. replace ((0 <=? i) && (i <? n)) with false by lia. reflexivity.
    - rewrite Z.lxor_spec, !Hmask, !Z.shiftr_spec by lia. replace (0 <=? i) with true by lia. cbn [andb].
      destruct (i <? n); rewrite ?andb_true_r, ?andb_false_r; reflexivity. }
  rewrite !Hxor.
  destruct ((p1 <=? k) && (k <? p1 + n)) eqn:E1.
  - replace ((0 <=? k - p1) && (k - p1 <? n)) with true by lia.
    replace ((0 <=? k - p2) && (k - p2 <? n)) with false by lia.
    replace (k - p1 + p1) with k by lia. rewrite orb_false_r.
    destruct (Z.testbit x k), (Z.testbit x (k - p1 + p2)); reflexivity.
  - replace ((0 <=? k - p1) && (k - p1 <? n)) with false by lia. cbn [orb].
    destruct ((p2 <=? k) && (k <? p2 + n)) eqn:E2.
    + replace ((0 <=? k - p2) && (k - p2 <? n)) with true by lia.
      replace (k - p2 + p2) with k by lia.
      destruct (Z.testbit x k), (Z.testbit x (k - p2 + p1)); reflexivity.
    + replace ((0 <=? k - p2) && (k - p2 <? n)) with false by lia. apply xorb_false_r.
Qed.

Lemma swap_range x p1 p2 n : 0 <= x < 2 ^ 32 -> 0 <= swapBits x p1 p2 n < 2 ^ 32.
Proof.
  intros Hx. assert (H32 : forall y, (forall i, 32 <= i -> Z.testbit y i = false) -> 0 <= y < 2 ^ 32).
  { intros y H. assert (E : y = y mod 2 ^ 32).
    { apply Z.bits_inj'. intros i Hi. destruct (Z.lt_ge_cases i 32).
      - rewrite Z.mod_pow2_bits_low by lia. reflexivity.
      - rewrite Z.mod_pow2_bits_high by lia. apply H. lia. }
    rewrite E. apply Z.mod_pos_bound. lia. }
  apply H32. intros i Hi. unfold swapBits, u32. rewrite Z.lxor_spec, Z.lor_spec.
  rewrite !Z.mod_pow2_bits_high by lia.
  replace x with (x mod 2 ^ 32) by (apply Z.mod_small; lia). rewrite Z.mod_pow2_bits_high by lia. reflexivity.
Qed.

Lemma swap_twice x p1 p2 n : 0 <= x < 2 ^ 32 -> 0 <= n -> 0 <= p1 -> p1 + n <= p2 -> p2 + n <= 32 ->
  swapBits (swapBits x p1 p2 n) p1 p2 n = x.
Proof.
  intros Hx Hn H1 H2 H3. apply Z.bits_inj'. intros k Hk.
  destruct (Z.lt_ge_cases k 32).
  - pose proof (swap_range x p1 p2 n Hx). rewrite swap_bit by lia.
    destruct ((p1 <=? k) && (k <? p1 + n)) eqn:E1.
    + rewrite swap_bit by lia.
      replace ((p1 <=? k - p1 + p2) && (k - p1 + p2 <? p1 + n)) with false by lia.
      replace ((p2 <=? k - p1 + p2) && (k - p1 + p2 <? p2 + n)) with true by lia.
      f_equal. lia.
    + destruct ((p2 <=? k) && (k <? p2 + n)) eqn:E2.
      * rewrite swap_bit by lia.
        replace ((p1 <=? k - p2 + p1) && (k - p2 + p1 <? p1 + n)) with true by lia.
        f_equal. lia.
      * rewrite swap_bit by lia. rewrite E1, E2. reflexivity.
  - pose proof (swap_range x p1 p2 n Hx) as R.
    assert (B : forall y, 0 <= y < 2 ^ 32 -> Z.testbit y k = false).
    { intros y Hy. replace y with (y mod 2 ^ 32) by (apply Z.mod_small; lia).
      apply Z.mod_pow2_bits_high. lia. }
    rewrite !B; auto. apply swap_range. auto.
Qed.

(** * Frames *)

Lemma hi_spec x : w16 x -> hi x = x / 256.
Proof.
  unfold w16, hi, u8, s16. intros H. rewrite Z.shiftr_div_pow2 by lia.
  change (2 ^ 8) with 256. Z.to_euclidean_division_equations. lia.
Qed.
Lemma lo_spec x : w16 x -> lo x = x mod 256.
Proof.
  unfold w16, lo, s16. intros H. change 0xFF with (Z.ones 8). rewrite Z.land_ones by lia.
  change (2 ^ 8) with 256. Z.to_euclidean_division_equations. lia.
Qed.

Lemma sent_split st r m : Z.of_nat (length (header st r)) <= send_length r ->
  sent_bytes st r m = header st r ++
    bytes_at m (Z.of_nat (length (header st r))) (send_length r - Z.of_nat (length (header st r))).
Proof.
  intros H. unfold sent_bytes, bytes_at. set (hd := header st r) in *. set (L := send_length r) in *.
  replace (Z.to_nat L) with (length hd + Z.to_nat (L - Z.of_nat (length hd)))%nat by lia.
  rewrite seq_app, map_app. f_equal.
  - apply nth_ext with (d := 0) (d' := 0).
    + rewrite map_length, seq_length. reflexivity.
    + intros k Hk. rewrite map_length, seq_length in Hk.
      rewrite (nth_indep _ 0 (store hd m 0 (Z.of_nat 0))) by (rewrite map_length, seq_length; auto).
      rewrite (map_nth (fun k => store hd m 0 (Z.of_nat k))), seq_nth by auto.
      cbn [Nat.add]. pose proof (store_in hd m 0 k Hk) as S. rewrite Z.add_0_l in S. exact S.
  - rewrite Nat.add_0_l.
    assert (Hs : forall j n, map (fun k => store hd m 0 (Z.of_nat k)) (seq (length hd + j) n) =
       map (fun k => m (Z.of_nat (length hd) + Z.of_nat k)) (seq j n)).
    { intros j n. revert j. induction n as [|n IH]; intros j; auto. cbn [seq map]. f_equal.
      - rewrite (store_frame hd m 0 (Z.of_nat (length hd + j))) by lia. f_equal. lia.
      - rewrite <- (IH (S j)). do 2 f_equal. lia. }
    specialize (Hs 0%nat). rewrite Nat.add_0_r in Hs. apply Hs.
Qed.

Lemma len_bytes_at m a n : length (bytes_at m a n) = Z.to_nat n.
Proof. unfold bytes_at. rewrite map_length, seq_length. reflexivity. Qed.

Lemma bytecount q : 0 <= q < 256 -> u8 (u8 q / 8 + (if u8 q mod 8 =? 0 then 0 else 1)) = ceil8 q.
Proof.
  intros H. rewrite (u8_small q) by auto. unfold ceil8, u8.
  destruct (Z.eqb_spec (q mod 8) 0); Z.to_euclidean_division_equations; lia.
Qed.

Lemma frame_correct st r m : fits r ->
  sent_bytes st r m = adu st (pdu r m) /\ Z.of_nat (length (sent_bytes st r m)) <= 256.
Proof.
  intros Hf. assert (Hlen : Z.of_nat (length (header st r)) <= send_length r /\ send_length r <= 256).
  { destruct r; cbn [fits] in Hf; cbn [header send_length length]; try lia.
    - destruct Hf as [_ Hq]. rewrite bytecount by auto. unfold ceil8.
      Z.to_euclidean_division_equations; lia.
    - destruct Hf as [_ Hq]. rewrite u8_small by lia. lia.
    - destruct Hf as (_ & _ & _ & Hq). rewrite u8_small by lia. lia. }
  split.
  2:{ unfold sent_bytes. rewrite map_length, seq_length. lia. }
  rewrite sent_split by tauto. destruct Hlen as [Hl _]. unfold adu.
  destruct r as [a q|a q|a q|a q|a v|a q|a q|ra rq wa wq|a am om]; cbn [fits] in Hf;
    cbn [header send_length length pdu app be16] in *.
  1-4: destruct Hf as [Ha Hq]; rewrite !hi_spec, !lo_spec by auto; reflexivity.
  - rewrite hi_spec, lo_spec by auto. destruct (v =? 0); reflexivity.
  - destruct Hf as [Ha Hq]. rewrite bytecount by auto. rewrite len_bytes_at.
    assert (Hc : 0 <= ceil8 q <= 32) by (unfold ceil8; Z.to_euclidean_division_equations; lia).
    rewrite !hi_spec, !lo_spec by (unfold w16 in *; lia).
    rewrite u8_small by lia.
    replace (1 + Z.of_nat (S (S (S (S (S (S (Z.to_nat (ceil8 q)))))))))
      with (7 + ceil8 q) by lia.
    rewrite (Z.div_small (7 + ceil8 q)), (Z.mod_small (7 + ceil8 q)) by lia.
    do 13 f_equal. unfold bytes_at. f_equal. f_equal. lia.
  - destruct Hf as [Ha Hq]. rewrite (u8_small (q * 2)) by lia. rewrite len_bytes_at.
    rewrite !hi_spec, !lo_spec by (unfold w16 in *; lia).
    replace (1 + Z.of_nat (S (S (S (S (S (S (Z.to_nat (2 * q)))))))))
      with (7 + q * 2) by lia.
    replace (2 * q) with (q * 2) by lia.
    do 13 f_equal. unfold bytes_at. f_equal. f_equal. lia.
  - destruct Hf as (Ha & Hq & Hb & Hw). rewrite (u8_small (wq * 2)) by lia. rewrite len_bytes_at.
    rewrite !hi_spec, !lo_spec by (unfold w16 in *; lia).
    replace (1 + Z.of_nat (S (S (S (S (S (S (S (S (S (S (Z.to_nat (2 * wq)))))))))))))
      with (11 + wq * 2) by lia.
    replace (2 * wq) with (wq * 2) by lia.
    do 17 f_equal. unfold bytes_at. f_equal. f_equal. lia.
  - destruct Hf as (Ha & H1 & H2). rewrite !hi_spec, !lo_spec by auto. reflexivity.
Qed.

Lemma expected_correct r : fits r -> expected_length r = reply_length r.
Proof.
  destruct r as [a q|a q|a q|a q|a v|a q|a q|ra rq wa wq|a am om]; cbn [fits expected_length reply_length];
    intros Hf; auto; unfold w16 in Hf.
  1-2: assert (E : q / 8 + (if q mod 8 =? 0 then 0 else 1) = ceil8 q) by
    (unfold ceil8; destruct (Z.eqb_spec (q mod 8) 0); Z.to_euclidean_division_equations; lia);
    rewrite <- Z.add_assoc, E; assert (0 <= ceil8 q <= 8192) by (unfold ceil8; Z.to_euclidean_division_equations; lia);
    rewrite u32_small by (unfold is_u32; lia); unfold s32; rewrite Z.mod_small by lia; lia.
  all: rewrite (u32_small (_ * 2)) by (unfold is_u32; lia); rewrite u32_small by (unfold is_u32; lia);
    unfold s32; rewrite Z.mod_small by lia; lia.
Qed.

(** * Asynchronous calls *)

(** A success is reported for the last request given to the transport. *)
Lemma mexp_inv es : match last (mc_run es) with
  | Some r => mexp (mc_run es) = expected_length r
  | None => ar (mc_run es) = 0 end.
Proof.
  unfold mc_run. induction es as [|e es IH] using rev_ind; [reflexivity|].
  rewrite fold_left_app. cbn [fold_left]. set (s := fold_left mc_step es mc_init) in *.
  destruct e as [r ok|len| |]; cbn [mc_step].
  - unfold mc_call. destruct (ar s =? AR_BUSY); cbn [snd]; auto.
    destruct ((0 <? ar s) && (ar s =? mexp s)); cbn [snd last mexp ar].
    { destruct (last s); auto. }
    destruct (match r with RWRegs _ _ _ _ => _ | _ => _ end); cbn [snd last mexp ar]; auto.
    destruct (last s); auto.
  - destruct (Z.eqb_spec (ar s) AR_BUSY) as [E|]; auto. cbn [last mexp ar].
    destruct (last s); auto. rewrite E in IH. discriminate.
  - destruct (Z.eqb_spec (ar s) AR_BUSY) as [E|]; auto. cbn [last mexp ar].
    destruct (last s); auto. rewrite E in IH. discriminate.
  - destruct (Z.eqb_spec (ar s) AR_BUSY) as [E|]; auto. cbn [last mexp ar].
    destruct (last s); auto. rewrite E in IH. discriminate.
Qed.

(** Invariant for disciplined scripts. *)
Definition cinv (s : mc) (cur : option req) : Prop :=
  match cur with
  | Some r => last s = Some r
  | None => ar s = 0
  end.

Lemma disc_success es : forall s cur, disciplined s cur es -> cinv s cur ->
  forall es1 r ok es2, es = es1 ++ Call r ok :: es2 ->
  let s1 := fold_left mc_step es1 s in
  fst (mc_call s1 r ok) = 1 -> last s1 = Some r.
Proof.
  induction es as [|e es IH]; intros s cur Hd Hi es1 r ok es2 E; cbn zeta.
  - destruct es1; discriminate.
  - destruct es1 as [|e1 es1]; cbn [app] in E; injection E as -> ->.
    + cbn [fold_left]. cbn [disciplined] in Hd. destruct Hd as [[-> | ->] _]; [|auto].
      cbn [cinv] in Hi. unfold mc_call. rewrite Hi. cbn [Z.eqb AR_BUSY Z.ltb Z.compare andb].
      destruct r; cbn [fst]; discriminate.
    + cbn [fold_left].
      destruct e1 as [r1 ok1|len| |]; cbn [disciplined] in Hd.
      * destruct Hd as [Hc Hd]. eapply IH; [exact Hd| |reflexivity].
        cbn [mc_step]. unfold mc_call.
        destruct (Z.eqb_spec (ar s) AR_BUSY) as [Eb|]; cbn [fst snd Z.eqb cinv].
        { destruct Hc as [-> | ->]; cbn [cinv] in Hi; auto. rewrite Eb in Hi. discriminate. }
        destruct ((0 <? ar s) && (ar s =? mexp s)); [reflexivity|].
        destruct (match r1 with RWRegs _ _ _ _ => _ | _ => _ end); reflexivity.
      * destruct Hd as [Hl Hd]. eapply IH; [exact Hd| |reflexivity]. cbn [mc_step].
        destruct (Z.eqb_spec (ar s) AR_BUSY) as [Eb|]; auto.
        destruct cur; cbn [cinv last] in *; auto. rewrite Eb in Hi. discriminate.
      * eapply IH; [exact Hd| |reflexivity]. cbn [mc_step].
        destruct (Z.eqb_spec (ar s) AR_BUSY) as [Eb|]; auto.
        destruct cur; cbn [cinv last] in *; auto. rewrite Eb in Hi. discriminate.
      * eapply IH; [exact Hd| |reflexivity]. cbn [mc_step].
        destruct (Z.eqb_spec (ar s) AR_BUSY) as [Eb|]; auto.
        destruct cur; cbn [cinv last] in *; auto. rewrite Eb in Hi. discriminate.
Qed.

(** A positive result is the length of a reply received after the last request
    was transmitted. *)
Definition answered (es : list mc_ev) (r : req) (len : Z) : Prop :=
  exists a b c, es = a ++ Call r true :: b ++ Reply len :: c /\ transmits (mc_run a) r /\
    (forall r' a' c', b ++ Reply len :: c = a' ++ Call r' true :: c' ->
       ~ transmits (mc_run (a ++ Call r true :: a')) r').
Definition pending (es : list mc_ev) (r : req) : Prop :=
  exists a b, es = a ++ Call r true :: b /\ transmits (mc_run a) r /\
    (forall r' a' c', b = a' ++ Call r' true :: c' ->
       ~ transmits (mc_run (a ++ Call r true :: a')) r').

Lemma snoc_split {A} (b : list A) e a' x c' : b ++ [e] = a' ++ x :: c' ->
  (exists c'', b = a' ++ x :: c'' /\ c' = c'' ++ [e]) \/ (b = a' /\ e = x /\ c' = []).
Proof.
  intros H. destruct c' as [|y c'] using rev_ind.
  - apply app_inj_tail in H as [-> ->]. right. auto.
  - clear IHc'. left. replace (a' ++ x :: c' ++ [y]) with ((a' ++ x :: c') ++ [y]) in H
      by (rewrite <- app_assoc; reflexivity).
    apply app_inj_tail in H as [-> ->]. eauto.
Qed.

Lemma pending_snoc es r e : pending es r ->
  (forall r', e = Call r' true -> ~ transmits (mc_run es) r') -> pending (es ++ [e]) r.
Proof.
  intros (a & b & -> & Ht & Hn) He. exists a, (b ++ [e]). split; [rewrite <- app_assoc; reflexivity|].
  split; auto. intros r' a' c' E. apply snoc_split in E as [(c'' & -> & ->)|(-> & -> & ->)].
  - apply (Hn r' a' c''). reflexivity.
  - apply He. reflexivity.
Qed.

Lemma answered_snoc es r len e : answered es r len ->
  (forall r', e = Call r' true -> ~ transmits (mc_run es) r') -> answered (es ++ [e]) r len.
Proof.
  intros (a & b & c & -> & Ht & Hn) He. exists a, b, (c ++ [e]).
  split. { repeat (rewrite <- app_assoc; cbn [app]). reflexivity. }
  split; auto. intros r' a' c' E.
  replace (b ++ Reply len :: c ++ [e]) with ((b ++ Reply len :: c) ++ [e]) in E
    by (rewrite <- app_assoc; reflexivity).
  apply snoc_split in E as [(c'' & E & ->)|(<- & -> & ->)].
  - apply (Hn r' a' c''). auto.
  - apply He. reflexivity.
Qed.

Lemma run_snoc es e : mc_run (es ++ [e]) = mc_step (mc_run es) e.
Proof. unfold mc_run. rewrite fold_left_app. reflexivity. Qed.

Lemma answered_inv es : Forall (fun e => match e with Reply l => 0 < l | _ => True end) es ->
  (ar (mc_run es) = AR_BUSY -> exists r, last (mc_run es) = Some r /\ pending es r) /\
  (0 < ar (mc_run es) -> exists r, last (mc_run es) = Some r /\ answered es r (ar (mc_run es))).
Proof.
  induction es as [|e es IH] using rev_ind; intros Hf.
  - cbn. split; intros H; discriminate.
  - apply Forall_app in Hf as [Hf He]. inversion_clear He as [|? ? He' _].
    specialize (IH Hf). destruct IH as [IB IA]. rewrite run_snoc.
    set (s := mc_run es) in *.
    destruct e as [r ok|len| |]; cbn [mc_step].
    + unfold mc_call. destruct (Z.eqb_spec (ar s) AR_BUSY) as [Eb|Enb]; cbn [snd].
      * split; [|rewrite Eb; discriminate]. intros _. destruct (IB Eb) as (r0 & Hl & Hp).
        exists r0. split; auto. apply pending_snoc; auto. intros r' [= -> ->] [Hnb _]. contradiction.
      * destruct ((0 <? ar s) && (ar s =? mexp s)) eqn:Eg; cbn [snd ar]; [split; discriminate|].
        destruct (match r with RWRegs _ _ _ _ => (0 <? ar s) && (ar s =? 9) | _ => false end) eqn:E9;
          cbn [snd ar]; [split; discriminate|].
        destruct ok; cbn [ar last]; [|split; discriminate]. split; [|discriminate].
        intros _. exists r. split; auto. exists es, []. split; [reflexivity|]. split.
        -- split; auto. fold s. cbn [mc_step]. unfold mc_call.
           destruct (Z.eqb_spec (ar s) AR_BUSY); [contradiction|]. rewrite Eg, E9. reflexivity.
        -- intros r' a' c' E. destruct a'; discriminate.
    + destruct (Z.eqb_spec (ar s) AR_BUSY) as [Eb|Enb].
      * cbn [ar last]. split; [intros ->; discriminate|]. intros _.
        destruct (IB Eb) as (r0 & Hl & (a & b & Hes & Ht & Hn)). exists r0. split; auto.
        exists a, b, []. split; [rewrite Hes, <- app_assoc; reflexivity|]. split; auto.
        intros r' a' c' E. apply snoc_split in E as [(c'' & E & _)|(_ & E & _)]; [|discriminate].
        apply (Hn r' a' c''). auto.
      * split; intros H.
        -- contradiction.
        -- destruct (IA H) as (r0 & Hl & Ha). exists r0. split; auto. apply answered_snoc; auto. discriminate.
    + destruct (Z.eqb_spec (ar s) AR_BUSY) as [Eb|Enb]; cbn [ar last]; [split; discriminate|].
      split; intros H; [contradiction|].
      destruct (IA H) as (r0 & Hl & Ha). exists r0. split; auto. apply answered_snoc; auto. discriminate.
    + destruct (Z.eqb_spec (ar s) AR_BUSY) as [Eb|Enb]; cbn [ar last]; [split; discriminate|].
      split; intros H; [contradiction|].
      destruct (IA H) as (r0 & Hl & Ha). exists r0. split; auto. apply answered_snoc; auto. discriminate.
Qed.

Lemma success_answered es r ok :
  Forall (fun e => match e with Reply l => 0 < l | _ => True end) es ->
  fst (mc_call (mc_run es) r ok) = 1 ->
  exists r0, last (mc_run es) = Some r0 /\ answered es r0 (expected_length r0).
Proof.
  intros Hf H. unfold mc_call in H.
  destruct (ar (mc_run es) =? AR_BUSY); [discriminate|].
  destruct ((0 <? ar (mc_run es)) && (ar (mc_run es) =? mexp (mc_run es))) eqn:E.
  - apply andb_true_iff in E as [E1 E2].
    destruct (proj2 (answered_inv es Hf) ltac:(lia)) as (r0 & Hl & Ha).
    pose proof (mexp_inv es) as M. rewrite Hl in M. exists r0. split; auto.
    replace (expected_length r0) with (ar (mc_run es)) by lia. auto.
  - destruct r; cbn [fst] in H; try discriminate.
    destruct ((0 <? ar (mc_run es)) && (ar (mc_run es) =? 9)); discriminate.
Qed.

Lemma disciplined_replies es : forall s cur, disciplined s cur es ->
  Forall (fun e => match e with Reply l => 0 < l | _ => True end) es.
Proof.
  induction es as [|e es IH]; intros s cur H; [constructor|].
  destruct e; cbn [disciplined] in H; constructor; auto; try tauto; eapply IH; try apply H; apply (proj2 H).
Qed.
