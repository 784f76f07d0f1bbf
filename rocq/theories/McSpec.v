(** Independent specification for the Modbus client. *)
From Coq Require Import ZArith List Bool.
From Verif Require Import Base McModel.
Import ListNotations.
Open Scope Z_scope.

(** Big-endian 16-bit value. *)
Definition be16 (x : Z) : list Z := [x / 256; x mod 256].

(** Modbus TCP frame: transaction 0, protocol 0, length, unit, PDU. *)
Definition adu (unit : Z) (pdu : list Z) : list Z :=
  [0; 0; 0; 0] ++ be16 (1 + Z.of_nat (length pdu)) ++ [unit] ++ pdu.

Definition ceil8 (q : Z) : Z := (q + 7) / 8.

(** Bytes [from .. from+n) of a buffer. *)
Definition bytes_at (m : mem) (from n : Z) : list Z :=
  map (fun k => m (from + Z.of_nat k)) (seq 0 (Z.to_nat n)).

(** The PDUs of the Modbus application protocol. *)
Definition pdu (r : req) (m : mem) : list Z :=
  match r with
  | RCoils a q => [1] ++ be16 a ++ be16 q
  | RDiscrete a q => [2] ++ be16 a ++ be16 q
  | RHolding a q => [3] ++ be16 a ++ be16 q
  | RInput a q => [4] ++ be16 a ++ be16 q
  | WCoil a v => [5] ++ be16 a ++ be16 (if v =? 0 then 0 else 0xFF00)
  | WCoils a q => [15] ++ be16 a ++ be16 q ++ [ceil8 q] ++ bytes_at m 13 (ceil8 q)
  | WRegs a q => [16] ++ be16 a ++ be16 q ++ [2 * q] ++ bytes_at m 13 (2 * q)
  | RWRegs ra rq wa wq =>
      [23] ++ be16 ra ++ be16 rq ++ be16 wa ++ be16 wq ++ [2 * wq] ++ bytes_at m 17 (2 * wq)
  | WMask a am om => [22] ++ be16 a ++ be16 am ++ be16 om
  end.

(** Length of a correct reply frame. *)
Definition reply_length (r : req) : Z :=
  match r with
  | RCoils _ q | RDiscrete _ q => 9 + ceil8 q
  | RHolding _ q | RInput _ q | RWRegs _ q _ _ => 9 + 2 * q
  | WCoil _ _ | WCoils _ _ | WRegs _ _ => 12
  | WMask _ _ _ => 14
  end.

Definition w16 (x : Z) : Prop := 0 <= x < 65536.

(** Requests whose data fits the 256-byte buffer. *)
Definition fits (r : req) : Prop :=
  match r with
  | RCoils a q | RDiscrete a q | RHolding a q | RInput a q => w16 a /\ w16 q
  | WCoil a v => w16 a
  | WCoils a q => w16 a /\ 0 <= q < 256
  | WRegs a q => w16 a /\ 0 <= q <= 121
  | RWRegs ra rq wa wq => w16 ra /\ w16 rq /\ w16 wa /\ 0 <= wq <= 119
  | WMask a am om => w16 a /\ w16 am /\ w16 om
  end.

(** What the slave does with a mask-write: bit by bit. *)
Definition masked (cur am om : Z) : Z :=
  Z.lor (Z.land cur am) (Z.land om (Z.lnot am)).

(** The last value assigned to bit [i] by a list of assignments, if any. *)
Fixpoint last_assigned (i : Z) (h : list (Z * bool)) : option bool := (* newest first *)
  match h with
  | [] => None
  | (p, v) :: r => if p =? i then Some v else last_assigned i r
  end.

(** A script that repeats a call until it reports completion before it starts
    another request: [cur] is the request in progress. *)
Fixpoint disciplined (s : mc) (cur : option req) (es : list mc_ev) : Prop :=
  match es with
  | [] => True
  | Call r ok :: es' =>
      (cur = None \/ cur = Some r) /\
      disciplined (mc_step s (Call r ok)) (if fst (mc_call s r ok) =? 0 then Some r else None) es'
  | Reply len :: es' => 0 < len /\ disciplined (mc_step s (Reply len)) cur es'
  | e :: es' => disciplined (mc_step s e) cur es'
  end.

(** The call hands its request to the transport (which accepts it). *)
Definition transmits (s : mc) (r : req) : Prop :=
  ar s <> AR_BUSY /\ ar (mc_step s (Call r true)) = AR_BUSY.
