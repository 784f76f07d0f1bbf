(** Properties C19-C24 and C49: the Modbus server's codecs. *)
From Coq Require Import ZArith List Bool Lia.
From Verif Require UtfSpec.
From Verif Require Import Base ModbusModel ModbusSpec ModbusProofs.
Import ListNotations.
Open Scope Z_scope.

(** * C19 *)

(** Every value comes back. *)
Theorem C19_scalars_round_trip : forall m a,
  (forall v, 0 <= v < 2 ^ 16 -> unpack_word (pack_word v m a) a = v) /\
  (forall v, - 2 ^ 15 <= v < 2 ^ 15 -> unpack_int16 (pack_int16 v m a) a = v) /\
  (forall v, 0 <= v < 2 ^ 32 -> unpack_long (pack_long v m a) a = v) /\
  (forall v, - 2 ^ 31 <= v < 2 ^ 31 -> unpack_int32 (pack_long (v mod 2 ^ 32) m a) a = v).
Proof.
  intros m a. repeat split; intros v Hv.
  - apply word_rt; auto.
  - apply int16_rt; auto.
  - apply long_rt; auto.
  - apply int32_rt; auto.
Qed.
Print Assumptions C19_scalars_round_trip.

(** Layout: each register high byte first, 32-bit values low word first. *)
Theorem C19_register_layout : forall m a,
  (forall v, 0 <= v < 2 ^ 16 -> register (pack_word v m a) a 0 = v) /\
  (forall v, register (pack_int16 v m a) a 0 = v mod 2 ^ 16) /\
  (forall v, 0 <= v < 2 ^ 32 ->
     register (pack_long v m a) a 0 = v mod 2 ^ 16 /\ register (pack_long v m a) a 1 = v / 2 ^ 16).
Proof.
  intros m a. split; [|split]; intros v; [apply word_reg|apply int16_reg|apply long_reg].
Qed.
Print Assumptions C19_register_layout.

(** Only the value's own bytes are written, and bytes are written. *)
Theorem C19_frame : forall v m a,
  same_outside m (pack_word v m a) a 2 /\ same_outside m (pack_int16 v m a) a 2 /\
  same_outside m (pack_long v m a) a 4 /\
  ((forall x, 0 <= m x < 256) -> forall x,
     0 <= pack_long v m a x < 256 /\ 0 <= pack_word v m a x < 256 /\ 0 <= pack_int16 v m a x < 256).
Proof.
  intros v m a. split; [apply word_frame|]. split; [apply int16_frame|].
  split; [apply long_frame|]. apply pack_bytes.
Qed.
Print Assumptions C19_frame.

(** The big-endian word order a standard client expects is NOT what is sent. *)
Theorem C19_big_endian_words_refuted :
  ~ forall v m a, 0 <= v < 2 ^ 32 ->
      65536 * register (pack_long v m a) a 0 + register (pack_long v m a) a 1 = v.
Proof. intros H. specialize (H 1 (fun _ => 0) 0 ltac:(lia)). vm_compute in H. discriminate. Qed.
Print Assumptions C19_big_endian_words_refuted.

Example C19_example :
  (* 1.5f = 0x3FC00000 *)
  map (pack_long 0x3FC00000 (fun _ => 7) 10) [9; 10; 11; 12; 13; 14] = [7; 0; 0; 0x3F; 0xC0; 7] /\
  unpack_long (pack_long 0x3FC00000 (fun _ => 7) 10) 10 = 0x3FC00000 /\
  map (pack_int16 (-2) (fun _ => 7) 0) [0; 1; 2] = [255; 254; 7].
Proof. vm_compute. repeat split. Qed.

(** * C20 *)

Theorem C20_time_text : forall (t : Z) (in_seconds : bool) m a,
  let s := if in_seconds then t else t / 1000 in
  0 <= s < 360000 ->
  panel_text (pack_time t in_seconds m a) a 4 = hh_mm_ss s /\
  same_outside m (pack_time t in_seconds m a) a 9.
Proof. intros t u m a s H. destruct (pack_time_text t u m a H) as (H1 & H2 & _). auto. Qed.
Print Assumptions C20_time_text.

(** The text needs four registers; the call also zeroes the byte after them. *)
Theorem C20_stays_in_its_registers_refuted :
  ~ forall t (u : bool) m a, 0 <= t < 360000 -> same_outside m (pack_time t u m a) a 8.
Proof.
  intros H. specialize (H 0 true (fun _ => 7) 0 ltac:(lia) 8 ltac:(lia)). vm_compute in H. discriminate.
Qed.
Print Assumptions C20_stays_in_its_registers_refuted.

(** From 100 hours on the hours start again from zero. *)
Theorem C20_wraps_at_100_hours : forall t m a, 0 <= t ->
  panel_text (pack_time t true m a) a 4 = hh_mm_ss (t mod 360000).
Proof.
  intros t m a Ht. rewrite <- (proj1 (C20_time_text (t mod 360000) true m a
    ltac:(apply Z.mod_pos_bound; lia))).
  f_equal. unfold pack_time. f_equal.
  assert (E1 : (t mod 360000) mod 60 = t mod 60).
  { rewrite <- Znumtheory.Zmod_div_mod; try lia. exists 6000. lia. }
  assert (E2 : (t mod 360000 / 60) mod 60 = (t / 60) mod 60).
  { Z.to_euclidean_division_equations. lia. }
  assert (E3 : (t mod 360000 / 3600) mod 100 = (t / 3600) mod 100).
  { Z.to_euclidean_division_equations. lia. }
  rewrite E1, E2, E3. reflexivity.
Qed.
Print Assumptions C20_wraps_at_100_hours.

Example C20_example :
  (* 45296789 ms = 12:34:56 *)
  panel_text (pack_time 45296789 false (fun _ => 7) 4) 4 4 =
  [49; 50; 58; 51; 52; 58; 53; 54].
Proof. vm_compute. reflexivity. Qed.

(** * C21 *)

Theorem C21_string_text : forall s m a,
  let '(m', n) := pack_string s m a in
  n = Z.of_nat (length (padded s)) /\
  panel_text m' a (length (padded s) / 2) = padded s /\
  same_outside m m' a n.
Proof. exact pack_string_text. Qed.
Print Assumptions C21_string_text.

Example C21_example :
  let '(m', n) := pack_string [77; 73; 76; 75; 49] (fun _ => 0) 100 in
  n = 6 /\ map m' [100; 101; 102; 103; 104; 105; 106] = [73; 77; 75; 76; 32; 49; 0] /\
  panel_text m' 100 3 = [77; 73; 76; 75; 49; 32].
Proof. vm_compute. repeat split. Qed.

(** * C22 *)

(** Converting to Unicode registers and back with [n] registers yields the text
    up to the undefined code, cut to [n - 1] characters, zero-terminated. *)
Theorem C22_round_trip : forall s m a n out o,
  Forall char_ok s -> 0 < n ->
  let r := firstn (Z.to_nat n - 1) (until_undefined s) in
  let out' := unicode_to_cp1251 (cp1251_to_unicode s m a) a n out o in
  c_string out' o r /\ same_outside out out' o (Z.of_nat (length r) + 1).
Proof. exact unicode_rt. Qed.
Print Assumptions C22_round_trip.

(** In particular a text without 0x98 that fits comes back whole. *)
Theorem C22_fitting_text_unchanged : forall s m a n out o,
  Forall char_ok s -> ~ In 152 s -> Z.of_nat (length s) < n ->
  c_string (unicode_to_cp1251 (cp1251_to_unicode s m a) a n out o) o s.
Proof.
  intros s m a n out o Hs Hn Hl.
  assert (E : until_undefined s = s).
  { clear -Hn. induction s as [|c s IH]; cbn [until_undefined]; auto.
    destruct (Z.eqb_spec c 152) as [->|]; [exfalso; apply Hn; left; auto|].
    f_equal. apply IH. intros H. apply Hn. right. auto. }
  destruct (C22_round_trip s m a n out o Hs ltac:(lia)) as [H _].
  rewrite E, firstn_all2 in H by lia. exact H.
Qed.
Print Assumptions C22_fitting_text_unchanged.

(** Each register holds the Unicode code point of its character, the text ends
    with a zero register and nothing else is touched. *)
Theorem C22_registers_are_unicode : forall s m a, Forall char_ok s ->
  (forall k u, (k < length s)%nat -> code_point (nth k s 0) = Some u ->
     register (cp1251_to_unicode s m a) a (Z.of_nat k) = u) /\
  register (cp1251_to_unicode s m a) a (Z.of_nat (length s)) = 0 /\
  same_outside m (cp1251_to_unicode s m a) a (2 * Z.of_nat (length s) + 2).
Proof.
  intros s m a Hs. destruct (unicode_registers s m a Hs) as [H1 H2].
  split; [exact H1|]. split; [exact H2|]. apply to_unicode_cells.
Qed.
Print Assumptions C22_registers_are_unicode.

(** The same with the whole Windows-1251 code page. *)
Theorem C22_code_page : forall s m a k, Forall char_ok s -> (k < length s)%nat ->
  register (cp1251_to_unicode s m a) a (Z.of_nat k) = UtfSpec.cp1251 (nth k s 0).
Proof.
  intros s m a k Hs Hk. destruct (to_unicode_cells s m a) as (H1 & _).
  specialize (H1 k Hk). unfold cells in H1. unfold register.
  assert (E1 := f_equal fst H1). assert (E2 := f_equal snd H1). cbn [fst snd] in E1, E2. rewrite E1, E2.
  assert (T : forallb (fun c => 256 * fst (uni_char c) + snd (uni_char c) =? UtfSpec.cp1251 c)
                (map Z.of_nat (seq 0 256)) = true) by (vm_compute; reflexivity).
  rewrite forallb_forall in T. rewrite Forall_forall in Hs. pose proof (Hs _ (nth_In s 0 Hk)) as Hc.
  apply Z.eqb_eq, T, in_map_iff. exists (Z.to_nat (nth k s 0)). unfold char_ok in Hc. split; [lia|].
  apply in_seq. lia.
Qed.
Print Assumptions C22_code_page.

Theorem C22_undefined_code_refuted :
  ~ forall s m a n out o, Forall char_ok s -> Z.of_nat (length s) < n ->
      c_string (unicode_to_cp1251 (cp1251_to_unicode s m a) a n out o) o s.
Proof.
  intros H. specialize (H [65; 152; 66] (fun _ => 7) 0 4 (fun _ => 9) 0).
  destruct H as [H _].
  - repeat constructor; unfold char_ok; lia.
  - cbn. lia.
  - specialize (H 1%nat ltac:(cbn; lia)). vm_compute in H. destruct H. discriminate.
Qed.
Print Assumptions C22_undefined_code_refuted.

Example C22_example :
  (* "Сыр" *)
  let buf := cp1251_to_unicode [209; 251; 240] (fun _ => 7) 0 in
  map buf [0; 1; 2; 3; 4; 5; 6; 7; 8] = [4; 0x21; 4; 0x4B; 4; 0x40; 0; 0; 7] /\
  map (unicode_to_cp1251 buf 0 10 (fun _ => 9) 0) [0; 1; 2; 3; 4] = [209; 251; 240; 0; 9].
Proof. vm_compute. repeat split. Qed.

(** * C23 *)

Theorem C23_one_bit : forall n m a b,
  0 <= n ->
  (forall k, 0 <= k -> bit_at (force_bit n m a b) a k = if k =? n then b else bit_at m a k) /\
  (forall x, x <> a + n / 8 -> force_bit n m a b x = m x) /\
  ((forall x, 0 <= m x < 256) -> forall x, 0 <= force_bit n m a b x < 256).
Proof.
  intros n m a b Hn. split; [|split].
  - intros k Hk. apply force_bit_spec; auto.
  - apply force_bit_frame.
  - apply force_bit_byte. auto.
Qed.
Print Assumptions C23_one_bit.

Example C23_example :
  map (force_bit 13 (fun _ => 0x5A) 3 true) [3; 4; 5] = [0x5A; 0x7A; 0x5A] /\
  map (force_bit 12 (fun _ => 0x5A) 3 false) [3; 4; 5] = [0x5A; 0x4A; 0x5A].
Proof. vm_compute. repeat split. Qed.

(** * C24 *)

(** The refresh flag of a line is on exactly while fewer than ten
    acknowledgements came since it was last set; it starts set. *)
Theorem C24_flag : forall ops line,
  0 < line < 11 ->
  Forall (fun o => match o with UWrite l _ => 0 < l < 11 | _ => True end) ops ->
  u_flag (upd_run ops) line = (acks_since_set line (rev ops) <? 10).
Proof. intros ops line H1 H2. apply (upd_inv ops line H1 H2). Qed.
Print Assumptions C24_flag.

Example C24_example :
  u_flag (upd_run (repeat (UWrite 2 0) 9)) 2 = true /\
  u_flag (upd_run (repeat (UWrite 2 0) 9 ++ [UWrite 3 0; UWrite 2 0])) 2 = false /\
  u_flag (upd_run (repeat (UWrite 2 0) 9 ++ [ULine 2; UWrite 2 0])) 2 = true /\
  u_flag (upd_run (repeat (UWrite 2 0) 12 ++ [UAll])) 2 = true.
Proof. vm_compute. repeat split. Qed.

(** * C49 *)

(** A read-coils request for up to 2040 coils: length byte, reply length and
    every bit are right; spare bits and other bytes keep their old content. *)
Theorem C49_read_coils : forall n bits out,
  0 <= n <= 2040 -> Z.of_nat (length bits) = n ->
  let '(len, m) := read_coils n bits out in
  len = 3 + (n + 7) / 8 /\ m 2 = (n + 7) / 8 /\
  (forall i, 0 <= i < n -> bit_at m 3 i = nth (Z.to_nat i) bits false) /\
  (forall i, n <= i -> bit_at m 3 i = bit_at out 3 i) /\
  same_outside out m 2 (1 + (n + 7) / 8).
Proof. exact read_coils_ok. Qed.
Print Assumptions C49_read_coils.

(** Beyond that the announced length is too short. *)
Theorem C49_longer_requests_refuted :
  ~ forall n bits out, 0 <= n < 65536 -> Z.of_nat (length bits) = n ->
      fst (read_coils n bits out) = 3 + (n + 7) / 8.
Proof.
  intros H. specialize (H 2041 (repeat true 2041) (fun _ => 0) ltac:(lia)).
  rewrite repeat_length in H. specialize (H eq_refl). vm_compute in H. discriminate.
Qed.
Print Assumptions C49_longer_requests_refuted.

(** The spare bits of the last byte are not zeroed as the protocol demands. *)
Theorem C49_spare_bits_zero_refuted :
  ~ forall n bits out i, 0 <= n <= 2040 -> Z.of_nat (length bits) = n ->
      n <= i < 8 * ((n + 7) / 8) -> bit_at (snd (read_coils n bits out)) 3 i = false.
Proof.
  intros H. specialize (H 1 [true] (fun _ => 255) 1 ltac:(lia) eq_refl).
  vm_compute in H. specialize (H ltac:(split; [discriminate|reflexivity])). discriminate.
Qed.
Print Assumptions C49_spare_bits_zero_refuted.

Example C49_example :
  let '(len, m) := read_coils 10 [true; false; true; true; false; false; true; true; true; false] (fun _ => 0) in
  len = 5 /\ map m [2; 3; 4; 5] = [2; 0xCD; 1; 0].
Proof. vm_compute. repeat split. Qed.
