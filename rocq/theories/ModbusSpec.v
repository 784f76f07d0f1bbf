(** Independent specifications for the Modbus codecs. *)
From Coq Require Import ZArith List Bool.
From Verif Require Import Base ModbusModel.
Import ListNotations.
Open Scope Z_scope.

(** Memories that agree outside [a, a+n). *)
Definition same_outside (m m' : mem) (a n : Z) : Prop :=
  forall x, ~ (a <= x < a + n) -> m' x = m x.

(** The text a panel shows: it swaps the two bytes of each 16-bit register. *)
Definition panel_text (m : mem) (a : Z) (regs : nat) : list Z :=
  flat_map (fun k => [m (a + 2 * Z.of_nat k + 1); m (a + 2 * Z.of_nat k)]) (seq 0 regs).

(** Two decimal digits. *)
Definition two_digits (v : Z) : list Z := [48 + v / 10; 48 + v mod 10].
(** "HH:MM:SS" of a number of seconds below 100 hours. *)
Definition hh_mm_ss (s : Z) : list Z :=
  two_digits (s / 3600) ++ [58] ++ two_digits (s / 60 mod 60) ++ [58] ++ two_digits (s mod 60).

(** A C string stored at [a]. *)
Definition c_string (m : mem) (a : Z) (s : list Z) : Prop :=
  (forall k, (k < length s)%nat -> m (a + Z.of_nat k) = nth k s 0 /\ nth k s 0 <> 0) /\
  m (a + Z.of_nat (length s)) = 0.

(** Text up to the first occurrence of the undefined code 0x98. *)
Fixpoint until_undefined (s : list Z) : list Z :=
  match s with
  | [] => []
  | c :: r => if c =? 152 then [] else c :: until_undefined r
  end.

Definition char_ok (c : Z) : Prop := 0 < c < 256.

(** Acknowledgements of the panel of [line] since the flag was last set. *)
Fixpoint acks_since_set (line : Z) (h : list upd_op) : Z :=   (* newest first *)
  match h with
  | [] => 0
  | UWrite l k :: r => if l =? line then if k =? 0 then acks_since_set line r + 1 else 0
                       else acks_since_set line r
  | UAll :: _ => 0
  | ULine l :: r => if l =? line then 0 else acks_since_set line r
  end.

(** Bit [k] of a packed buffer. *)
Definition bit_at (m : mem) (a k : Z) : bool := Z.testbit (m (a + k / 8)) (k mod 8).

(** Padding with a blank to an even length. *)
Definition padded (s : list Z) : list Z :=
  if Nat.even (length s) then s else s ++ [32].

(** A panel's (or any Modbus client's) view of register [k]: high byte first. *)
Definition register (m : mem) (a k : Z) : Z := 256 * m (a + 2 * k) + m (a + 2 * k + 1).

(** Unicode code points of Latin text and Russian letters in Windows-1251. *)
Definition code_point (c : Z) : option Z :=
  if c <? 128 then Some c
  else if 192 <=? c then Some (0x410 + (c - 192))
  else if c =? 168 then Some 0x401
  else if c =? 184 then Some 0x451
  else None.
