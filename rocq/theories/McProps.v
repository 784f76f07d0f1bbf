(** Properties C25, C26, C51, C52: the Modbus client. *)
From Coq Require Import ZArith List Bool Lia.
From Verif Require Import Base ModbusModel ModbusSpec ModbusProofs McModel McSpec McProofs.
Import ListNotations.
Open Scope Z_scope.

(** * C25 *)

(** Stores outside the 243 data bytes are ignored; every address stays in the
    buffer's data area. *)
Theorem C25_in_bounds : forall a v m,
  0 <= a < 2 ^ 32 ->
  same_outside m (set_int2 a v m) 13 243 /\ same_outside m (set_int4 a v m) 13 243.
Proof.
  intros a v m Ha. split; intros x Hx; apply (frame_all a v m x Ha); lia.
Qed.
Print Assumptions C25_in_bounds.

(** Below 2^31 an address means its own register(s), or is ignored: registers
    are the big-endian 16-bit cells from byte 13 (data sent) or 9 (received). *)
Theorem C25_stores : forall a v m, 0 <= a < 2 ^ 31 ->
  (if a <=? 120
   then register (set_int2 a v m) 13 a = v mod 2 ^ 16 /\
        same_outside m (set_int2 a v m) (13 + 2 * a) 2
   else set_int2 a v m = m) /\
  (if a <=? 119
   then register (set_int4 a v m) 13 a = v mod 2 ^ 16 /\
        register (set_int4 a v m) 13 (a + 1) = (v mod 2 ^ 32) / 2 ^ 16 /\
        same_outside m (set_int4 a v m) (13 + 2 * a) 4
   else set_int4 a v m = m).
Proof.
  intros a v m Ha.
  pose proof (set_int2_cases a v m Ha) as [A1 A2]. pose proof (set_int4_cases a v m Ha) as [B1 B2].
  split.
  - destruct (Z.leb_spec a 120); [|apply A2; lia]. rewrite A1 by lia. split; [|apply int16_frame].
    pose proof (int16_reg v m (13 + 2 * a)) as R. unfold register in *.
    replace (13 + 2 * a + 2 * 0) with (13 + 2 * a) in R by lia. exact R.
  - destruct (Z.leb_spec a 119); [|apply B2; lia]. rewrite B1 by lia.
    destruct (long_reg (v mod 2 ^ 32) m (13 + 2 * a) ltac:(apply Z.mod_pos_bound; lia)) as [R1 R2].
    unfold register in *.
    replace (13 + 2 * a + 2 * 0) with (13 + 2 * a) in R1 by lia.
    replace (13 + 2 * a + 2 * 1) with (13 + 2 * (a + 1)) in R2 by lia.
    split; [|split; [exact R2|apply long_frame]]. rewrite R1.
    symmetry. apply Znumtheory.Zmod_div_mod; try lia. exists (2 ^ 16). reflexivity.
Qed.
Print Assumptions C25_stores.

(** What is stored is read back: the read area begins two registers earlier. *)
Theorem C25_read_back : forall m a,
  (forall v, 0 <= a <= 120 -> - 2 ^ 15 <= v < 2 ^ 15 -> get_int2 (a + 2) (set_int2 a v m) = v) /\
  (forall v, 0 <= a <= 119 -> - 2 ^ 31 <= v < 2 ^ 31 -> get_int4 (a + 2) (set_int4 a v m) = v) /\
  (forall v, 0 <= a <= 119 -> 0 <= v < 2 ^ 32 -> get_float (a + 2) (set_int4 a v m) = v).
Proof.
  intros m a. split; [|split]; intros v Ha Hv;
    [apply get_set_int2|apply get_set_int4|apply get_set_float]; auto.
Qed.
Print Assumptions C25_read_back.

(** Addresses from 2^31 on are not refused: they alias small registers. *)
Theorem C25_large_addresses_ignored_refuted :
  ~ forall a v m, 120 < a < 2 ^ 32 -> set_int2 a v m = m.
Proof.
  intros H. specialize (H (2 ^ 31 + 5) 0x1234 (fun _ => 0) ltac:(lia)).
  assert (E : set_int2 (2 ^ 31 + 5) 0x1234 (fun _ => 0) 23 = 0x12) by (vm_compute; reflexivity).
  rewrite H in E. discriminate.
Qed.
Print Assumptions C25_large_addresses_ignored_refuted.

(** What a read returns: the received byte, register or pair of registers (low
    register first) at the address, and 0 for everything beyond the buffer. *)
Theorem C25_reads : forall m a, (forall x, 0 <= m x < 256) -> 0 <= a < 2 ^ 31 ->
  get_byte a m = (if a <=? 246 then m (9 + a) else 0) /\
  get_int2 a m = (if a <=? 122 then s16 (register m 9 a) else 0) /\
  get_float a m = (if a <=? 121 then register m 9 a + 2 ^ 16 * register m 9 (a + 1) else 0) /\
  get_int4 a m = (if a <=? 121 then s32 (register m 9 a + 2 ^ 16 * register m 9 (a + 1)) else 0).
Proof.
  intros m a Hm Ha.
  assert (U : u32 (a * 2) = 2 * a) by (unfold u32; rewrite Z.mod_small; lia).
  assert (F : get_float a m = if a <=? 121 then register m 9 a + 2 ^ 16 * register m 9 (a + 1) else 0).
  { unfold get_float. rewrite U. cbv zeta. unfold buff_size, read_buff_start. destruct (Z.leb_spec a 121).
    - replace (256 - 9 - 4 <? 2 * a) with false by lia. unfold unpack_long, register.
      pose proof (Hm (9 + 2 * a)). pose proof (Hm (9 + 2 * a + 1)).
      pose proof (Hm (9 + 2 * a + 2)). pose proof (Hm (9 + 2 * a + 3)).
      replace (9 + 2 * (a + 1)) with (9 + 2 * a + 2) by lia.
      replace (9 + 2 * a + 2 + 1) with (9 + 2 * a + 3) by lia. lia.
    - replace (256 - 9 - 4 <? 2 * a) with true by lia. reflexivity. }
  split; [|split; [|split; [exact F|]]].
  - unfold get_byte, buff_size, read_buff_start. destruct (Z.leb_spec a 246).
    + replace (256 - 9 - 1 <? a) with false by lia. replace (a + 9 <? 0) with false by lia. reflexivity.
    + replace (256 - 9 - 1 <? a) with true by lia. reflexivity.
  - unfold get_int2. rewrite U. cbv zeta. unfold buff_size, read_buff_start. destruct (Z.leb_spec a 122).
    + replace (256 - 9 - 2 <? 2 * a) with false by lia. unfold unpack_int16, register. f_equal. lia.
    + replace (256 - 9 - 2 <? 2 * a) with true by lia. reflexivity.
  - unfold get_int4. rewrite F. destruct (a <=? 121); reflexivity.
Qed.
Print Assumptions C25_reads.

(** Bits: exactly the addressed bit changes. *)
Theorem C25_bits : forall m, (forall x, 0 <= m x < 256) ->
  (forall n v k, 0 <= n -> 0 <= k ->
     bit_at (set_bit n v m) 13 k = if k =? n then v else bit_at m 13 k) /\
  (forall n v x, x <> 13 + n / 8 -> set_bit n v m x = m x) /\
  (forall n, 0 <= n -> get_bit n m = bit_at m 9 n) /\
  (forall r k v r' k', 0 <= k < 16 -> 0 <= k' < 16 ->
     Z.testbit (register (reg_set_bit r k v m) 13 r') k' =
     if (r' =? r) && (k' =? k) then v else Z.testbit (register m 13 r') k') /\
  (forall r k, 0 <= k < 16 -> reg_get_bit r k m = Z.testbit (register m 9 r) k).
Proof.
  intros m Hm. split; [|split; [|split; [|split]]]; intros.
  - apply set_bit_spec; auto.
  - apply set_bit_frame; auto.
  - apply get_bit_spec; auto.
  - apply reg_set_bit_spec; auto.
  - apply reg_get_bit_spec; auto.
Qed.
Print Assumptions C25_bits.

(** But bit access is not limited to the buffer. *)
Theorem C25_bits_in_bounds_refuted :
  ~ forall n v m, 0 <= n < 2 ^ 32 -> same_outside m (set_bit n v m) 0 256.
Proof.
  intros H. specialize (H 1944 true (fun _ => 0) ltac:(lia) 256 ltac:(lia)).
  vm_compute in H. discriminate.
Qed.
Print Assumptions C25_bits_in_bounds_refuted.

Example C25_example :
  let m := set_int4 3 (-2) (set_int2 1 0x1234 (fun _ => 7)) in
  map m [14; 15; 16; 17; 18; 19; 20; 21; 22; 23] = [7; 0x12; 0x34; 7; 7; 0xFF; 0xFE; 0xFF; 0xFF; 7] /\
  get_int2 3 m = 0x1234 /\ get_int4 5 m = -2.
Proof. vm_compute. repeat split. Qed.

(** * C26 *)

Theorem C26_reverse : forall b, 0 <= b < 256 ->
  0 <= reverse b < 256 /\ (forall i, 0 <= i < 8 -> Z.testbit (reverse b) i = Z.testbit b (7 - i)) /\
  reverse (reverse b) = b.
Proof.
  intros b Hb. assert (R : 0 <= reverse b < 256) by (apply (reverse_spec b 0 Hb); lia).
  split; auto. split; [intros i Hi; apply (reverse_spec b i Hb Hi)|].
  assert (R2 : 0 <= reverse (reverse b) < 256) by (apply (reverse_spec (reverse b) 0 R); lia).
  apply Z.bits_inj'. intros i Hi. destruct (Z.lt_ge_cases i 8).
  - rewrite (proj1 (reverse_spec (reverse b) i R ltac:(lia))).
    rewrite (proj1 (reverse_spec b (7 - i) Hb ltac:(lia))). f_equal. lia.
  - rewrite !bits_of_byte by lia. reflexivity.
Qed.
Print Assumptions C26_reverse.

(** A mask request built from any sequence of assignments (the latest first in
    [h]) sets in the slave's register exactly the assigned bits. *)
Theorem C26_masks : forall h cur i, 0 <= i < 16 ->
  let k := fold_left (fun k pv => mask_set_bit k (fst pv) (snd pv)) (rev h) mask_reset in
  Z.testbit (masked cur (andmask k) (ormask k)) i =
    match last_assigned i h with Some v => v | None => Z.testbit cur i end /\
  w16 (andmask k) /\ w16 (ormask k).
Proof. intros h cur i Hi. split; [apply masked_spec; auto|apply masks_range]. Qed.
Print Assumptions C26_masks.

(** Exchanging two disjoint bit groups of a 32-bit value. *)
Theorem C26_swap_bits : forall x p1 p2 n,
  0 <= x < 2 ^ 32 -> 0 <= n -> 0 <= p1 -> p1 + n <= p2 -> p2 + n <= 32 ->
  (forall k, 0 <= k < 32 -> Z.testbit (swapBits x p1 p2 n) k =
     if (p1 <=? k) && (k <? p1 + n) then Z.testbit x (k - p1 + p2)
     else if (p2 <=? k) && (k <? p2 + n) then Z.testbit x (k - p2 + p1)
     else Z.testbit x k) /\
  swapBits (swapBits x p1 p2 n) p1 p2 n = x.
Proof.
  intros x p1 p2 n Hx Hn H1 H2 H3. split; [intros k Hk; apply swap_bit; auto|apply swap_twice; auto].
Qed.
Print Assumptions C26_swap_bits.

Example C26_example :
  reverse 0xA1 = 0x85 /\ swapBits 0x12345678 0 16 8 = 0x12785634 /\
  let k := fold_left (fun k pv => mask_set_bit k (fst pv) (snd pv))
             [(0, true); (3, true); (3, false); (17, true)] mask_reset in
  andmask k = 0xFFF6 /\ ormask k = 1 /\ masked 0xFFFE (andmask k) (ormask k) = 0xFFF7.
Proof. vm_compute. repeat split. Qed.

(** * C51 *)

(** A call that reports success does so for a reply of the right length that
    arrived after the last transmitted request [r0] ... *)
Theorem C51_success_means_answered : forall es r ok,
  Forall (fun e => match e with Reply l => 0 < l | _ => True end) es ->
  fst (mc_call (mc_run es) r ok) = 1 ->
  exists r0 a b c,
    es = a ++ Call r0 true :: b ++ Reply (expected_length r0) :: c /\
    transmits (mc_run a) r0 /\
    (forall r' a' c', b ++ Reply (expected_length r0) :: c = a' ++ Call r' true :: c' ->
       ~ transmits (mc_run (a ++ Call r0 true :: a')) r').
Proof.
  intros es r ok Hf H. destruct (success_answered es r ok Hf H) as (r0 & _ & a & b & c & E).
  exists r0, a, b, c. exact E.
Qed.
Print Assumptions C51_success_means_answered.

(** ... and this is the request of the call itself if the script finishes one
    request before it starts another. *)
Theorem C51_success_for_own_request : forall es1 r ok es2,
  disciplined mc_init None (es1 ++ Call r ok :: es2) ->
  fst (mc_call (mc_run es1) r ok) = 1 ->
  exists a b c,
    es1 = a ++ Call r true :: b ++ Reply (expected_length r) :: c /\
    transmits (mc_run a) r.
Proof.
  intros es1 r ok es2 Hd H.
  assert (Hl : last (mc_run es1) = Some r).
  { apply (disc_success _ mc_init None Hd eq_refl es1 r ok es2 eq_refl H). }
  assert (Hf : Forall (fun e => match e with Reply l => 0 < l | _ => True end) es1).
  { apply disciplined_replies in Hd. apply Forall_app in Hd. tauto. }
  destruct (success_answered es1 r ok Hf H) as (r0 & Hr & a & b & c & E & Ht & _).
  rewrite Hl in Hr. injection Hr as <-. eauto 6.
Qed.
Print Assumptions C51_success_for_own_request.

(** Without that discipline a write can be reported done although it never was
    transmitted. *)
Theorem C51_any_script_refuted :
  ~ forall es r ok, Forall (fun e => match e with Reply l => 0 < l | _ => True end) es ->
      fst (mc_call (mc_run es) r ok) = 1 -> exists ok', In (Call r ok') es.
Proof.
  intros H. specialize (H [Call (RCoils 0 8) true; Reply 10] (WCoil 5 1) true).
  destruct H as [ok' [E|[E|[]]]]; try discriminate.
  repeat constructor. vm_compute. reflexivity.
Qed.
Print Assumptions C51_any_script_refuted.

Example C51_example :
  let es := [Call (WRegs 3 2) false; Call (WRegs 3 2) true; Call (WRegs 3 2) true; Reply 12] in
  disciplined mc_init None (es ++ [Call (WRegs 3 2) true; Call (RCoils 0 1) true]) /\
  fst (mc_call (mc_run es) (WRegs 3 2) true) = 1.
Proof. vm_compute. intuition auto. Qed.

(** * C52 *)

(** Every request that fits the buffer goes out as the frame the Modbus
    protocol defines, with the data area as its payload, and the reply length
    taken for success is the one of the protocol. *)
Theorem C52_frames : forall st r m, fits r ->
  sent_bytes st r m = adu st (pdu r m) /\
  Z.of_nat (length (sent_bytes st r m)) <= 256 /\
  expected_length r = reply_length r.
Proof.
  intros st r m Hf. destruct (frame_correct st r m Hf) as [H1 H2].
  split; auto. split; auto. apply expected_correct. auto.
Qed.
Print Assumptions C52_frames.

(** Writing 122 registers (the protocol allows 123) sends bytes from beyond the
    buffer. *)
Theorem C52_all_legal_writes_in_buffer_refuted :
  ~ forall st a q m, w16 a -> 1 <= q <= 123 ->
      Z.of_nat (length (sent_bytes st (WRegs a q) m)) <= 256.
Proof.
  intros H. specialize (H 1 0 122 (fun _ => 0) ltac:(unfold w16; lia) ltac:(lia)).
  vm_compute in H. apply H. reflexivity.
Qed.
Print Assumptions C52_all_legal_writes_in_buffer_refuted.

(** Writing 256 or more coils (up to 1968 are legal) yields a broken frame. *)
Theorem C52_many_coils_refuted :
  ~ forall st a q m, w16 a -> 1 <= q <= 1968 ->
      sent_bytes st (WCoils a q) m = adu st (pdu (WCoils a q) m).
Proof.
  intros H. specialize (H 1 0 256 (fun _ => 0) ltac:(unfold w16; lia) ltac:(lia)).
  vm_compute in H. discriminate.
Qed.
Print Assumptions C52_many_coils_refuted.

Example C52_example :
  fits (WRegs 0x1234 2) /\
  sent_bytes 1 (WRegs 0x1234 2) (set_int4 0 0x3FC00000 (fun _ => 0)) =
  [0;0;0;0;0;11; 1; 16; 0x12; 0x34; 0; 2; 4; 0; 0; 0x3F; 0xC0].
Proof. split; [unfold fits, w16; lia|]. vm_compute. reflexivity. Qed.
