(** Proofs about the exchange with I/O couplers: data. *)
From Coq Require Import ZArith List Bool Lia.
From Verif Require Import Base ModbusModel ModbusSpec ModbusProofs McSpec IoModel IoSpec.
Import ListNotations.
Open Scope Z_scope.

Lemma land1 x : Z.land x 1 = Z.b2z (Z.odd x).
Proof.
  change 1 with (Z.ones 1). rewrite Z.land_ones by lia. change (2 ^ 1) with 2.
  rewrite Zmod_odd. destruct (Z.odd x); reflexivity.
Qed.

(** * Packing *)

Lemma ph_pack8_eq src p :
  ph_pack8 src 8 0 p 0 = (flags_byte src p, p + 8).
Proof.
  cbn [ph_pack8]. rewrite !land1. unfold flags_byte.
  replace (p + 0) with p by lia.
  replace (p + 1 + 1) with (p + 2) by lia. replace (p + 2 + 1) with (p + 3) by lia.
  replace (p + 3 + 1) with (p + 4) by lia. replace (p + 4 + 1) with (p + 5) by lia.
  replace (p + 5 + 1) with (p + 6) by lia. replace (p + 6 + 1) with (p + 7) by lia.
  replace (p + 7 + 1) with (p + 8) by lia.
  f_equal.
  destruct (Z.odd (src p)), (Z.odd (src (p + 1))), (Z.odd (src (p + 2))), (Z.odd (src (p + 3))),
    (Z.odd (src (p + 4))), (Z.odd (src (p + 5))), (Z.odd (src (p + 6))), (Z.odd (src (p + 7)));
    vm_compute; reflexivity.
Qed.

Lemma flags_byte_bit f p k : 0 <= k < 8 -> Z.testbit (flags_byte f p) k = Z.odd (f (p + k)).
Proof.
  intros Hk. unfold flags_byte.
  assert (E : k = 0 \/ k = 1 \/ k = 2 \/ k = 3 \/ k = 4 \/ k = 5 \/ k = 6 \/ k = 7) by lia.
  destruct E as [-> | [-> | [-> | [-> | [-> | [-> | [-> | ->]]]]]]];
  generalize (Z.odd (f (p + 0))), (Z.odd (f (p + 1))), (Z.odd (f (p + 2))), (Z.odd (f (p + 3))),
    (Z.odd (f (p + 4))), (Z.odd (f (p + 5))), (Z.odd (f (p + 6))), (Z.odd (f (p + 7)));
  intros [] [] [] [] [] [] [] []; vm_compute; reflexivity.
Qed.

Lemma flags_byte_range f p : 0 <= flags_byte f p < 256.
Proof.
  unfold flags_byte.
  destruct (Z.odd (f (p + 0))), (Z.odd (f (p + 1))), (Z.odd (f (p + 2))), (Z.odd (f (p + 3))),
    (Z.odd (f (p + 4))), (Z.odd (f (p + 5))), (Z.odd (f (p + 6))), (Z.odd (f (p + 7)));
    vm_compute; split; congruence.
Qed.

(** Flags beyond the count read as zero. *)
Definition bounded (src : Z -> Z) (cnt : Z) : Z -> Z := fun i => if i <? cnt then src i else 0.

Lemma pack8_step src cnt n k idx b :
  pack8 src cnt (S n) k idx b =
  pack8 src cnt n (k + 1) (if idx <? cnt then idx + 1 else idx)
    (Z.lor b (u8 (Z.shiftl (Z.land (bounded src cnt idx) 1) k))).
Proof.
  cbn [pack8]. unfold bounded. destruct (idx <? cnt); auto.
  change (Z.land 0 1) with 0. rewrite Z.shiftl_0_l. change (u8 0) with 0. rewrite Z.lor_0_r. auto.
Qed.

(* Positions saturate at the count. *)
Lemma pack8_bounded src cnt : forall n k p b, p <= cnt \/ True ->
  pack8 src cnt n k (Z.min p cnt) b =
  (fst (ph_pack8 (bounded src cnt) n k p b), Z.min (p + Z.of_nat n) cnt).
Proof.
  induction n as [|n IH]; intros k p b _.
  - cbn [pack8 ph_pack8 fst]. f_equal. f_equal. lia.
  - rewrite pack8_step. cbn [ph_pack8].
    assert (E1 : (if Z.min p cnt <? cnt then Z.min p cnt + 1 else Z.min p cnt) = Z.min (p + 1) cnt).
    { destruct (Z.ltb_spec (Z.min p cnt) cnt); lia. }
    assert (E2 : bounded src cnt (Z.min p cnt) = bounded src cnt p).
    { unfold bounded. destruct (Z.ltb_spec (Z.min p cnt) cnt), (Z.ltb_spec p cnt); try lia; auto.
      f_equal. lia. }
    rewrite E1, E2, IH by auto. f_equal. f_equal. lia.
Qed.

Lemma pack_block_spec src cnt : forall n j p m x, 
  pack_block src cnt n j (Z.min p cnt) m x =
  if (j + 13 <=? x) && (x <? j + 13 + Z.of_nat n)
  then flags_byte (bounded src cnt) (p + 8 * (x - 13 - j)) else m x.
Proof.
  induction n as [|n IH]; intros j p m x.
  - cbn [pack_block]. replace ((j + 13 <=? x) && (x <? j + 13 + Z.of_nat 0)) with false by lia. auto.
  - cbn [pack_block]. rewrite pack8_bounded by auto. rewrite ph_pack8_eq. cbn [fst].
    change (Z.of_nat 8) with 8. rewrite IH. unfold put.
    destruct (Z.eqb_spec x (j + 13)).
    + subst x. replace ((j + 1 + 13 <=? j + 13) && (j + 13 <? j + 1 + 13 + Z.of_nat n)) with false by lia.
      replace ((j + 13 <=? j + 13) && (j + 13 <? j + 13 + Z.of_nat (S n))) with true by lia.
      f_equal. lia.
    + destruct ((j + 1 + 13 <=? x) && (x <? j + 1 + 13 + Z.of_nat n)) eqn:E1.
      * replace ((j + 13 <=? x) && (x <? j + 13 + Z.of_nat (S n))) with true by lia.
        f_equal. lia.
      * replace ((j + 13 <=? x) && (x <? j + 13 + Z.of_nat (S n))) with false by lia. auto.
Qed.

Lemma bytes_for_ceil cnt : 0 <= cnt -> bytes_for cnt = ceil8 cnt.
Proof.
  intros H. unfold bytes_for, ceil8.
  pose proof (Z.div_mod cnt 8 ltac:(lia)). pose proof (Z.mod_pos_bound cnt 8 ltac:(lia)).
  destruct (Z.ltb_spec 0 (cnt mod 8)).
  - apply Z.div_unique with (cnt mod 8 - 1); lia.
  - apply Z.div_unique with (7 + cnt mod 8); lia.
Qed.

Lemma ceil8_bounds cnt : 0 <= cnt -> 8 * ceil8 cnt - 8 < cnt <= 8 * ceil8 cnt.
Proof.
  intros H. unfold ceil8. pose proof (Z.div_mod (cnt + 7) 8 ltac:(lia)).
  pose proof (Z.mod_pos_bound (cnt + 7) 8 ltac:(lia)). lia.
Qed.

(** * Buffers as lists *)

Lemma bytes_at_split m a n k : 0 <= n -> 0 <= k ->
  bytes_at m a (n + k) = bytes_at m a n ++ bytes_at m (a + n) k.
Proof.
  intros Hn Hk. unfold bytes_at. rewrite Z2Nat.inj_add by lia. rewrite seq_app, map_app. f_equal.
  rewrite Nat.add_0_l, <- (Nat.add_0_r (Z.to_nat n)).
  generalize (Z.to_nat k) as j. intros j.
  cut (forall s, map (fun k0 => m (a + Z.of_nat k0)) (seq (Z.to_nat n + s) j) =
                 map (fun k0 => m (a + n + Z.of_nat k0)) (seq s j)); [intros G; apply (G 0%nat)|].
  induction j as [|j IH]; intros s; cbn [seq map]; auto. f_equal; [f_equal; lia|].
  rewrite <- Nat.add_succ_r. apply IH.
Qed.

Lemma bytes_at_length m a n : 0 <= n -> Z.of_nat (length (bytes_at m a n)) = n.
Proof. intros H. unfold bytes_at. rewrite map_length, seq_length. lia. Qed.

Lemma bytes_at_nth m a n k : 0 <= k < n -> nth (Z.to_nat k) (bytes_at m a n) 0 = m (a + k).
Proof.
  intros H. unfold bytes_at.
  rewrite nth_indep with (d' := m (a + Z.of_nat 0)) by (rewrite map_length, seq_length; lia).
  rewrite (map_nth (fun k => m (a + Z.of_nat k)) _ 0%nat). rewrite seq_nth by lia. f_equal. lia.
Qed.

Lemma bytes_at_ext m m' a n : (forall x, a <= x < a + n -> m x = m' x) ->
  bytes_at m a n = bytes_at m' a n.
Proof.
  intros H. unfold bytes_at. apply map_ext_in. intros k Hk. apply in_seq in Hk. apply H. lia.
Qed.

Lemma bytes_at_store l m a : bytes_at (store l m a) a (Z.of_nat (length l)) = l.
Proof.
  apply nth_ext with 0 0.
  - pose proof (bytes_at_length (store l m a) a (Z.of_nat (length l))). lia.
  - intros k Hk. pose proof (bytes_at_length (store l m a) a (Z.of_nat (length l))).
    replace k with (Z.to_nat (Z.of_nat k)) at 1 by lia. rewrite bytes_at_nth by lia.
    apply store_in. lia.
Qed.

(** * WAGO discrete outputs *)

Lemma header_length cnt : length (wago_do_header cnt) = 13%nat.
Proof. reflexivity. Qed.

Lemma wago_do_mem nd m x : 0 <= dO_cnt nd ->
  fst (wago_do_request nd m) x =
  if (13 <=? x) && (x <? 13 + ceil8 (dO_cnt nd))
  then flags_byte (bounded (dO_ nd) (dO_cnt nd)) (8 * (x - 13))
  else store (wago_do_header (dO_cnt nd)) m 0 x.
Proof.
  intros H. unfold wago_do_request. cbn [fst].
  pose proof (pack_block_spec (dO_ nd) (dO_cnt nd) (Z.to_nat (bytes_for (dO_cnt nd))) 0 0
    (store (wago_do_header (dO_cnt nd)) m 0) x) as E.
  rewrite Z.min_l in E by lia. rewrite E. rewrite bytes_for_ceil by lia.
  pose proof (ceil8_bounds _ H). rewrite Z2Nat.id by lia.
  replace (0 + 13) with 13 by lia. replace (0 + 8 * (x - 13 - 0)) with (8 * (x - 13)) by lia. auto.
Qed.

Lemma wago_do_bits nd m i : 0 <= dO_cnt nd -> 0 <= i < 8 * ceil8 (dO_cnt nd) ->
  bit_at (fst (wago_do_request nd m)) 13 i = if i <? dO_cnt nd then Z.odd (dO_ nd i) else false.
Proof.
  intros H Hi. unfold bit_at. rewrite wago_do_mem by auto.
  pose proof (Z.div_mod i 8 ltac:(lia)). pose proof (Z.mod_pos_bound i 8 ltac:(lia)).
  replace ((13 <=? 13 + i / 8) && (13 + i / 8 <? 13 + ceil8 (dO_cnt nd))) with true by lia.
  rewrite flags_byte_bit by lia. replace (8 * (13 + i / 8 - 13) + i mod 8) with i by lia.
  unfold bounded. destruct (i <? dO_cnt nd); auto.
Qed.

Lemma shr_u8 c : Z.shiftr (Z.shiftr (u8 c) 7) 1 = 0.
Proof.
  rewrite Z.shiftr_shiftr by lia. change (7 + 1) with 8. rewrite Z.shiftr_div_pow2 by lia.
  apply Z.div_small. apply u8_range.
Qed.

Lemma land_u8 c : Z.land (u8 c) 0xFF = u8 c.
Proof.
  change 0xFF with (Z.ones 8). rewrite Z.land_ones by lia. apply Z.mod_small. apply u8_range.
Qed.

Lemma wago_do_header_eq cnt : 0 <= cnt <= 1984 ->
  wago_do_header cnt =
  [115; 115; 0; 0] ++ be16 (7 + ceil8 cnt) ++ [0; 15] ++ be16 0 ++ be16 (cnt mod 256) ++ [ceil8 cnt].
Proof.
  intros H. unfold wago_do_header. rewrite shr_u8, land_u8, bytes_for_ceil by lia.
  pose proof (ceil8_bounds cnt ltac:(lia)).
  rewrite (u8_small (7 + ceil8 cnt)), (u8_small (ceil8 cnt)) by lia.
  change (u8 cnt) with (cnt mod 256). unfold be16. cbn [app].
  rewrite (Z.div_small (7 + ceil8 cnt)), (Z.mod_small (7 + ceil8 cnt)) by lia.
  pose proof (Z.mod_pos_bound cnt 256 ltac:(lia)).
  rewrite (Z.div_small (cnt mod 256)), (Z.mod_small (cnt mod 256)) by lia. reflexivity.
Qed.

Lemma wago_do_frame nd m : 0 <= dO_cnt nd <= 1984 ->
  let '(m', len) := wago_do_request nd m in
  bytes_at m' 0 len =
  frame ([15] ++ be16 0 ++ be16 (dO_cnt nd mod 256) ++ [ceil8 (dO_cnt nd)]
         ++ bytes_at m' 13 (ceil8 (dO_cnt nd))).
Proof.
  intros H. destruct (wago_do_request nd m) as [m' len] eqn:E.
  assert (Hm : forall x, m' x = fst (wago_do_request nd m) x) by (intros; rewrite E; auto).
  assert (Hl : len = 13 + ceil8 (dO_cnt nd)).
  { apply (f_equal snd) in E. cbn [wago_do_request snd] in E. rewrite <- bytes_for_ceil by lia. lia. }
  subst len. pose proof (ceil8_bounds (dO_cnt nd) ltac:(lia)).
  rewrite bytes_at_split by lia. rewrite Z.add_0_l.
  rewrite (bytes_at_ext m' (store (wago_do_header (dO_cnt nd)) m 0) 0 13).
  2:{ intros x Hx. rewrite Hm, wago_do_mem by lia.
      replace (13 <=? x) with false by lia. reflexivity. }
  change 13 with (Z.of_nat (length (wago_do_header (dO_cnt nd)))) at 1. rewrite bytes_at_store.
  rewrite wago_do_header_eq by lia. unfold frame.
  assert (EL : 1 + Z.of_nat (length ([15] ++ be16 0 ++ be16 (dO_cnt nd mod 256) ++
     [ceil8 (dO_cnt nd)] ++ bytes_at m' 13 (ceil8 (dO_cnt nd)))) = 7 + ceil8 (dO_cnt nd)).
  { rewrite !app_length. cbn [length be16]. pose proof (bytes_at_length m' 13 (ceil8 (dO_cnt nd))). lia. }
  rewrite EL. rewrite <- !app_assoc. reflexivity.
Qed.

(** * Unpacking *)

Lemma unpack8_spec cnt b : forall n k p d i,
  fst (unpack8 cnt b n k (Z.min p cnt) d) i =
    (if (p <=? i) && (i <? p + Z.of_nat n) && (i <? cnt)
     then Z.land (Z.shiftr b (k + (i - p))) 1 else d i) /\
  snd (unpack8 cnt b n k (Z.min p cnt) d) = Z.min (p + Z.of_nat n) cnt.
Proof.
  induction n as [|n IH]; intros k p d i.
  - cbn [unpack8 fst snd]. split.
    + replace ((p <=? i) && (i <? p + Z.of_nat 0) && (i <? cnt)) with false by lia. auto.
    + f_equal. lia.
  - cbn [unpack8]. destruct (Z.ltb_spec (Z.min p cnt) cnt).
    + replace (Z.min p cnt + 1) with (Z.min (p + 1) cnt) by lia.
      specialize (IH (k + 1) (p + 1) (put d (Z.min p cnt) (Z.land (Z.shiftr b k) 1)) i) as [I1 I2].
      rewrite I1, I2. split; [|f_equal; lia]. replace (Z.min p cnt) with p by lia. unfold put.
      destruct (Z.eqb_spec i p).
      * subst i. replace ((p + 1 <=? p) && (p <? p + 1 + Z.of_nat n) && (p <? cnt)) with false by lia.
        replace ((p <=? p) && (p <? p + Z.of_nat (S n)) && (p <? cnt)) with true by lia.
        f_equal. f_equal. lia.
      * replace ((p <=? i) && (i <? p + Z.of_nat (S n)) && (i <? cnt)) with
          ((p + 1 <=? i) && (i <? p + 1 + Z.of_nat n) && (i <? cnt)) by lia.
        replace (k + 1 + (i - (p + 1))) with (k + (i - p)) by lia. auto.
    + replace (Z.min p cnt) with (Z.min (p + 1) cnt) by lia.
      specialize (IH (k + 1) (p + 1) d i) as [I1 I2].
      rewrite I1, I2. split; [|f_equal; lia].
      replace ((p <=? i) && (i <? p + Z.of_nat (S n)) && (i <? cnt)) with false by lia.
      replace ((p + 1 <=? i) && (i <? p + 1 + Z.of_nat n) && (i <? cnt)) with false by lia. auto.
Qed.

Lemma bit_land b k : 0 <= k -> Z.land (Z.shiftr b k) 1 = Z.b2z (Z.testbit b k).
Proof.
  intros H. rewrite land1, <- Z.bit0_odd, Z.shiftr_spec by lia. reflexivity.
Qed.

Lemma unpack_block_spec cnt m : forall n j p d i, 0 <= p ->
  unpack_block cnt m n j (Z.min p cnt) d i =
  if (p <=? i) && (i <? p + 8 * Z.of_nat n) && (i <? cnt)
  then Z.b2z (Z.testbit (m (j + 9 + (i - p) / 8)) ((i - p) mod 8)) else d i.
Proof.
  induction n as [|n IH]; intros j p d i Hp.
  - cbn [unpack_block]. replace ((p <=? i) && (i <? p + 8 * Z.of_nat 0) && (i <? cnt)) with false by lia. auto.
  - cbn [unpack_block]. destruct (unpack8 cnt (m (j + 9)) 8 0 (Z.min p cnt) d) as [d' idx'] eqn:E.
    assert (I1 : forall i, d' i = if (p <=? i) && (i <? p + 8) && (i <? cnt)
       then Z.land (Z.shiftr (m (j + 9)) (0 + (i - p))) 1 else d i).
    { intros i0. pose proof (unpack8_spec cnt (m (j + 9)) 8 0 p d i0) as [I _].
      rewrite E in I. exact I. }
    assert (I2 : idx' = Z.min (p + 8) cnt).
    { pose proof (unpack8_spec cnt (m (j + 9)) 8 0 p d 0) as [_ I]. rewrite E in I. exact I. }
    subst idx'. rewrite IH by lia. rewrite I1.
    destruct ((p + 8 <=? i) && (i <? p + 8 + 8 * Z.of_nat n) && (i <? cnt)) eqn:B1.
    + replace ((p <=? i) && (i <? p + 8 * Z.of_nat (S n)) && (i <? cnt)) with true by lia.
      f_equal. replace (i - (p + 8)) with (i - p + (-1) * 8) by lia.
      rewrite Z.div_add, Z.mod_add by lia. f_equal. f_equal. lia.
    + destruct ((p <=? i) && (i <? p + 8) && (i <? cnt)) eqn:B2.
      * replace ((p <=? i) && (i <? p + 8 * Z.of_nat (S n)) && (i <? cnt)) with true by lia.
        rewrite bit_land by lia. rewrite Z.div_small, Z.mod_small by lia. f_equal. f_equal; try f_equal; lia.
      * replace ((p <=? i) && (i <? p + 8 * Z.of_nat (S n)) && (i <? cnt)) with false by lia. auto.
Qed.

Lemma unpack_all cnt m d i : 0 <= cnt ->
  unpack_block cnt m (Z.to_nat (bytes_for cnt)) 0 0 d i =
  if (0 <=? i) && (i <? cnt) then Z.b2z (bit_at m 9 i) else d i.
Proof.
  intros H. pose proof (unpack_block_spec cnt m (Z.to_nat (bytes_for cnt)) 0 0 d i ltac:(lia)) as E.
  rewrite Z.min_l in E by lia. rewrite E. rewrite bytes_for_ceil by lia.
  pose proof (ceil8_bounds cnt H). rewrite Z2Nat.id by lia.
  replace ((0 <=? i) && (i <? 0 + 8 * ceil8 cnt) && (i <? cnt)) with ((0 <=? i) && (i <? cnt)) by lia.
  unfold bit_at. rewrite Z.sub_0_r. reflexivity.
Qed.

(** * Replies *)

Lemma receive_read asked r m x m' : receive asked (Some r) m = Some m' -> 0 <= x ->
  m' x = if (x <? asked) && (x <? Z.of_nat (length r)) then nth (Z.to_nat x) r 0 else m x.
Proof.
  intros E Hx. cbn [receive] in E. injection E as <-.
  pose proof (firstn_length (Z.to_nat asked) r) as HL.
  destruct ((x <? asked) && (x <? Z.of_nat (length r))) eqn:B.
  - replace x with (0 + Z.of_nat (Z.to_nat x)) at 1 by lia. rewrite store_in by lia.
    assert (G : forall n (l : list Z) k, (k < n)%nat -> nth k (firstn n l) 0 = nth k l 0).
    { induction n as [|n IH]; intros l k Hk; [lia|]. destruct l as [|y l]; cbn [firstn]; auto.
      destruct k; cbn [nth]; auto. apply IH. lia. }
    apply G. lia.
  - rewrite store_frame; auto. lia.
Qed.
