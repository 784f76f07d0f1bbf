(** What is claimed about sensors with IO-Link and scales, in terms of the bytes received.
    Only cycles, readings and the names of the devices come from the model. *)
From Coq Require Import ZArith List Bool Lia QArith Qabs.
From Verif Require Import Base FTextModel FloatModel SenModel.
Import ListNotations.
Open Scope Z_scope.

Definition octets (b : Z -> Z) : Prop := forall n, 0 <= b n < 256.
(** Numbers with the highest byte first, without and with sign. *)
Definition be16 (b : Z -> Z) (n : Z) : Z := 256 * b n + b (n + 1).
Definition be32 (b : Z -> Z) (n : Z) : Z := 65536 * be16 b n + be16 b (n + 2).
Definition with_sign (n x : Z) : Z := if x <? 2 ^ (n - 1) then x else x - 2 ^ n.
(** A number of single precision close to [q]. *)
Definition close (x : Z) (q : Q) : Prop := f_finite x = true /\ (Qabs (f_val x - q) <= Qabs q * (1 # 4000000) + p2 (-140))%Q.
Definition zq (x : Z) : Q := inject_Z x.
(** Close to the sum [q] of numbers as large as [s] together. *)
Definition about (x : Z) (q s : Q) : Prop := f_finite x = true /\ (Qabs (f_val x - q) <= s * (1 # 2500000) + p2 (-100))%Q.

(** * Sensors of pressure *)

(** Sensors that send 14 bits, above two bits of outputs; those that send 16 bits, a byte and a status in the upper half
    of a byte. *)
Definition short (a : art) : bool := match a with PI2715 | PI2794 | PI2797 | FES => true | _ => false end.
Definition long (a : art) : bool := match a with PM1704 | PM1705 | PM1706 | PM1707 | PM1708 | PM1709 | PM1715 => true | _ => false end.
(** The size of a step, in bar. *)
Definition unit_of (a : art) : Q :=
  match a with
  | PI2715 | PI2797 | PM1704 | PM1705 | PM1715 => 1 # 1000
  | PI2794 => 1 # 100
  | PM1706 | PM1707 | PM1709 => 1 # 10000
  | PM1708 => 1 # 100000
  | FES => 610388818 # 1000000000000
  | Unknown => 1
  end.
Definition steps (a : art) (b : Z -> Z) : Z :=
  if short a then with_sign 14 (be16 b 0 / 4) else if long a then with_sign 16 (be16 b 0) else 0.
Definition status (a : art) (b : Z -> Z) : Z := if long a then b 3 / 16 else 0.
(** A frame received, then [k] cycles without one. *)
Definition then_missed (h : list (option frame)) (f : frame) (k : nat) : list (option frame) := h ++ Some f :: repeat None k.
(** The bytes of each pair exchanged. *)
Definition exchanged (b : Z -> Z) : Z -> Z := fun n => if n =? 0 then b 1 else if n =? 1 then b 0 else if n =? 2 then b 3 else if n =? 3 then b 2 else b n.

(** The state of a port of a Phoenix module: bit by bit of byte 0 (connected) and byte 1 (data valid). *)
Definition port_state (port : Z) (m : Z -> Z) : Z :=
  if (m 0 / 2 ^ (port - 1)) mod 2 =? 0 then 1 else if (m 1 / 2 ^ (port - 1)) mod 2 =? 0 then 2 else 0.

(** * Scales *)

(** What the module measures: 32 bits with sign, of two registers, the upper one first; in a register the low byte first. *)
Definition reading (b : Z -> Z) : Z := with_sign 32 (65536 * (b 0 + 256 * b 1) + (b 2 + 256 * b 3)).
(** The coefficient set last is [k]. *)
Definition calls_with (k : Z) (l : list wev) : Prop := fold_left (fun x e => match e with ParK y => y | _ => x end) l 0 = k.
(** The two registers exchanged. *)
Definition crossed (b : Z -> Z) : Z -> Z := fun n => if n =? 0 then b 2 else if n =? 1 then b 3 else if n =? 2 then b 0 else if n =? 3 then b 1 else b n.
(** Bytes received, then [k] cycles without; calls that are neither cycles nor changes of the coefficient. *)
Definition read_then (h : list wev) (b : Z -> Z) (k : nat) : list wev := h ++ WCycle (Some b) :: repeat (WCycle None) k.
Definition plain (l : list wev) : Prop := forall e, In e l -> match e with WCycle _ | ParK _ => False | _ => True end.
(** What the faults of the module read as. *)
Definition fault (x : Z) : Z :=
  match x with -2147483647 => -1 | -2147483646 => -2 | -2147483645 => -3 | -2147483644 => -4 | -2147483616 => -5 | -2147483584 => -6 | -2147483520 => -7 | _ => 0 end.
