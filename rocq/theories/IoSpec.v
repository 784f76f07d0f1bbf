(** Independent specification for the exchange with I/O couplers. *)
From Coq Require Import ZArith List Bool.
From Verif Require Import Base TimeModel ModbusSpec McSpec IoModel.
Import ListNotations.
Open Scope Z_scope.

(** Modbus TCP frame with transaction "ss", protocol 0, unit 0. *)
Definition frame (pdu : list Z) : list Z :=
  [115; 115; 0; 0] ++ be16 (1 + Z.of_nat (length pdu)) ++ [0] ++ pdu.

(** Eight consecutive flags as a byte, the first one in the lowest bit. *)
Definition flags_byte (f : Z -> Z) (p : Z) : Z :=
  let b k := Z.b2z (Z.odd (f (p + k))) in
  b 0 + 2 * b 1 + 4 * b 2 + 8 * b 3 + 16 * b 4 + 32 * b 5 + 64 * b 6 + 128 * b 7.

(** Position of register [r] in the run of registers of the same module type. *)
Fixpoint run (types : Z -> Z) (r : nat) : Z :=
  match r with
  | O => 0
  | S r' => if types (Z.of_nat r) =? types (Z.of_nat r') then run types r' + 1 else 0
  end.

Definition io_link (t : Z) : bool := (t =? 1027843) || (t =? 1088132).
Definition counter (t : Z) : bool := t =? 2688093.
Definition analog (t : Z) : bool :=
  (t =? 2688527) || (t =? 2702072) || (t =? 1088123) || (t =? 2688666).

(** The two bytes of a Phoenix output register: discrete flags, or the channel
    value, or the counter control word. *)
Definition output_word (nd : node) (r : nat) : list Z :=
  let z := Z.of_nat r in
  let t := aO_types nd z in
  let v := aO_ nd z mod 65536 in
  let flags := [flags_byte (dO_ nd) (16 * z); flags_byte (dO_ nd) (16 * z + 8)] in
  if io_link t then if run (aO_types nd) r mod 32 <=? 2 then flags else [v mod 256; v / 256]
  else if counter t then if run (aO_types nd) r mod 14 =? 0 then [5; 5] else [0; 0]
  else if analog t then [v / 256; v mod 256]
  else flags.

(** The part of the output image of registers [from .. from+n). *)
Definition output_image (nd : node) (from n : nat) : list Z :=
  flat_map (output_word nd) (seq from n).

(** Consecutive non-empty blocks of at most 123 registers from [a] to [b]. *)
Fixpoint covers (a b : nat) (l : list (nat * nat)) : Prop :=
  match l with
  | [] => a = b
  | (s, q) :: r => s = a /\ (0 < q <= 123)%nat /\ covers (a + q) b r
  end.

(** A register-block answer: nine header bytes and the data. *)
Definition answer (code n : Z) (data : list Z) : list Z :=
  [115; 115; 0; 0; 0; 3 + n; 0; code; n] ++ data.

(** The answer of a coupler with input image [img] for the block [s, s+q). *)
Definition complete (img : Z -> Z) (s q : nat) (r : list Z) : Prop :=
  r = answer 4 (2 * Z.of_nat q) (bytes_at img (2 * Z.of_nat s) (2 * Z.of_nat q)).
(** A recognisable refusal (Modbus exception or wrong byte count). *)
Definition refusal (q : nat) (r : list Z) : Prop :=
  (9 <= length r)%nat /\ (nth 7 r 0 <> 4 \/ nth 8 r 0 <> 2 * Z.of_nat q).

(** What an input register means to the user. *)
Definition input_value (t hi lo : Z) : Z :=
  if io_link t then s16 (lo * 256 + hi) else s16 (hi * 256 + lo).

(** Connection attempts: number of failures since the last success (oldest
    first history of outcomes). *)
Fixpoint failures_acc (acc : nat) (h : list bool) : nat :=
  match h with
  | [] => acc
  | ok :: r => failures_acc (if ok then 0%nat else S acc) r
  end.
Definition failures := failures_acc 0.

Definition backoff (k : nat) : Z := 500 * 2 ^ Z.of_nat (Nat.min k 7).

(** Running a history of exchanges. *)
Fixpoint run_link (w : Z) (l : link) (es : list io_call) : link :=
  match es with
  | [] => l
  | e :: r => run_link w (link' (e_communicate w l e)) r
  end.

(** Outcomes of the connection attempts made during a history. *)
Fixpoint attempts (w : Z) (l : link) (es : list io_call) : list bool :=
  match es with
  | [] => []
  | e :: r =>
      (if tried (e_communicate w l e) then [connected e] else [])
      ++ attempts w (link' (e_communicate w l e)) r
  end.

(** Reports made during a history. *)
Fixpoint all_reports (w : Z) (l : link) (es : list io_call) : list report :=
  match es with
  | [] => []
  | e :: r => reports (e_communicate w l e) ++ all_reports w (link' (e_communicate w l e)) r
  end.

(** Alternating raise, withdraw, raise, ... beginning with a raise; [up] tells
    whether the error is up before. *)
Fixpoint alternating (up : bool) (rs : list report) : Prop :=
  match rs with
  | [] => True
  | Raise :: r => up = false /\ alternating true r
  | Withdraw :: r => up = true /\ alternating false r
  end.

(** True-time view of a call: the clock of the controller shows [t mod 2^w]. *)
Record tcall := {
  t_at : Z; t_init : Z; t_end : Z; t_connected : bool; t_sent : bool; t_reply : bool }.
Definition reading (w : Z) (c : tcall) : io_call :=
  {| now := clock w (t_at c); now_init := clock w (t_init c); now_end := clock w (t_end c);
     connected := t_connected c; sent_ok := t_sent c; got_reply := t_reply c |}.

(** True time of the last answer; [tp] before the history. *)
Fixpoint last_answer (w : Z) (l : link) (tp : Z) (cs : list tcall) : Z :=
  match cs with
  | [] => tp
  | c :: r =>
      let x := e_communicate w l (reading w c) in
      last_answer w (link' x) (if code x =? 0 then t_end c else tp) r
  end.

(** Clock reading of the last failed connection attempt; [ti] before. *)
Fixpoint last_failure (w : Z) (l : link) (ti : Z) (es : list io_call) : Z :=
  match es with
  | [] => ti
  | e :: r =>
      let x := e_communicate w l e in
      last_failure w (link' x) (if tried x && negb (connected e) then now_init e else ti) r
  end.

(** WAGO analog channels: bytes in the process image. *)
Definition wago_channel (nd : node) (k : nat) : list Z :=
  if aO_types nd (Z.of_nat k) =? 638 then [0; 0; 0; 0] else be16 (aO_ nd (Z.of_nat k) mod 65536).
Definition wago_image (nd : node) : list Z :=
  flat_map (wago_channel nd) (seq 0 (Z.to_nat (aO_cnt nd))).

(** Offset of an input channel's data: module 638 (counter) takes four bytes
    per channel with the value in the last two. *)
Fixpoint wago_offset (types : Z -> Z) (k : nat) : Z :=
  match k with
  | O => 0
  | S k' => wago_offset types k' + (if types (Z.of_nat k') =? 638 then 4 else 2)
  end.
Definition wago_input (types : Z -> Z) (img : Z -> Z) (k : nat) : Z :=
  let o := wago_offset types k + (if types (Z.of_nat k) =? 638 then 2 else 0) in
  s16 (256 * img o + img (o + 1)).

(** The frame sent for one block. *)
Definition block_frame (nd : node) (s q : nat) : list Z :=
  frame ([16] ++ be16 (9000 + Z.of_nat s) ++ be16 (Z.of_nat q) ++ [2 * Z.of_nat q]
         ++ output_image nd s q).

(** The frame sent to read one block. *)
Definition read_frame (s q : nat) : list Z :=
  frame ([4] ++ be16 (8000 + Z.of_nat s) ++ be16 (Z.of_nat q)).

(** The coupler confirms a register write. *)
Definition confirmed (r : option (list Z)) : bool :=
  match r with Some l => nth 7 l 0 =? 16 | None => false end.

(** No answer is cut off before its function code. *)
Definition not_cut (n : nat) (r : option (list Z)) : Prop :=
  match r with Some l => (n <= length l)%nat | None => True end.

(** Which outputs are confirmed after the blocks [l]. *)
Fixpoint confirmed_by (replies : Z -> option (list Z)) (l : list (nat * nat)) (r : Z) : bool :=
  match l with
  | [] => false
  | (s, q) :: l' =>
      ((Z.of_nat s <=? r) && (r <? Z.of_nat s + Z.of_nat q) && confirmed (replies (Z.of_nat s)))
      || confirmed_by replies l' r
  end.

(** Size of the block starting at [s]. *)
Definition plan (total s : nat) : nat := Nat.min 123 (total - s).

(** Every answer is the coupler's image or a refusal (or no answer). *)
Definition from_coupler (img : Z -> Z) (total : nat) (replies : Z -> option (list Z)) : Prop :=
  forall s r, (s < total)%nat -> replies (Z.of_nat s) = Some r ->
    complete img s (plan total s) r \/ refusal (plan total s) r.

