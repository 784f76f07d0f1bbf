(** What is claimed about power units and circuit breakers with IO-Link, in terms of the
    bytes received and sent and the orders given.  Only the events, their execution and the
    record of a cycle come from the model. *)
From Coq Require Import ZArith List Bool Lia.
From Verif Require Import Base PowModel.
Import ListNotations.
Open Scope Z_scope.

(** Bits [p] to [p + k - 1] of a byte. *)
Definition bits (x p k : Z) : Z := (x / 2 ^ p) mod 2 ^ k.
(** All bytes received are bytes. *)
Definition octets (b : Z -> Z) : Prop := forall n, 0 <= b n < 256.

(** * Power units: channels 1 to 8 *)

(** Received: two bits of status per channel, channel 1 in the highest bits of byte 4, channel 5 in
    those of byte 5; three bits of nominal current, two channels per byte from byte 6 on. *)
Definition is_on (b : Z -> Z) (c : Z) : bool :=
  if c <=? 4 then negb (bits (b 4) (8 - 2 * c) 2 =? 0) else negb (bits (b 5) (16 - 2 * c) 2 =? 0).
Definition current (b : Z -> Z) (c : Z) : Z := if Z.odd c then bits (b (6 + c / 2)) 3 3 else bits (b (5 + c / 2)) 0 3.
(** Sent: the switches in byte 6, channel 1 in the highest bit; nominal currents in bytes 1 to 4; bit 7
    of byte 0 makes the unit take them. *)
Definition take (f : Z -> Z) : bool := bits (f 0) 7 1 =? 1.
Definition switch (f : Z -> Z) (c : Z) : bool := bits (f 6) (8 - c) 1 =? 1.
Definition rated (f : Z -> Z) (c : Z) : Z := if Z.odd c then bits (f ((c + 1) / 2)) 3 3 else bits (f (c / 2)) 0 3.
(** The outputs repeat what the unit reports: nothing is changed. *)
Definition echo (f b : Z -> Z) : Prop := take f = false /\ forall c, 1 <= c <= 8 -> switch f c = is_on b c /\ rated f c = current b c.

(** The time of an order, if it is one ([man]: manual mode, in which only single channels can be set). *)
Definition order_time (man : bool) (e : ev) : option Z :=
  match e with
  | On t | Off t | CmdSt t _ => if man then None else Some t
  | CmdCh t _ _ | CmdNom t _ _ => Some t
  | _ => None
  end.
(** What orders make of a switch and of a nominal current. *)
Definition order_sw (c : Z) (x : bool) (e : ev) : bool :=
  match e with On _ => true | Off _ => false | CmdSt _ n => negb (n =? 0) | CmdCh _ d v => if d =? c then negb (v =? 0) else x | _ => x end.
Definition order_nm (c : Z) (x : Z) (e : ev) : Z :=
  match e with CmdNom _ d v => if d =? c then v mod 8 else x | _ => x end.
(** Manual mode, and the order in progress: it ends with the first cycle with a working port
    more than 1 s later. *)
Definition note (p : bool * option Z) (e : ev) : bool * option Z :=
  let (m, o) := p in
  match e with
  | Man n => (if n =? 0 then false else if n =? 1 then true else m, o)
  | Cycle i => (m, match o with Some t => if ok i && (1000 <? now i - t) then None else o | None => None end)
  | e => (m, match order_time m e with Some t => Some t | None => o end)
  end.
Definition past_of (l : list ev) : bool * option Z := fold_left note l (false, None).
Definition manual (l : list ev) : bool := fst (past_of l).
Definition in_progress (l : list ev) : option Z := snd (past_of l).
(** The clock of orders and cycles never goes back and does not wrap. *)
Definition time_of (e : ev) : option Z :=
  match e with Cycle i => Some (now i) | On t | Off t | Set_ t _ | CmdSt t _ | CmdCh t _ _ | CmdNom t _ _ => Some t | Man _ => None end.
Fixpoint timely (w t : Z) (l : list ev) : Prop :=
  match l with
  | [] => True
  | e :: r => match time_of e with Some t' => t <= t' < 2 ^ w /\ timely w t' r | None => timely w t r end
  end.
(** Every cycle comes at most 300 ms after the order before it. *)
Fixpoint hasty (t : Z) (l : list ev) : Prop :=
  match l with
  | [] => True
  | Cycle i :: r => now i - t <= 300 /\ hasty t r
  | Man _ :: r => False
  | e :: r => hasty (match order_time false e with Some t' => t' | None => t end) r
  end.

(** * Circuit breakers: channels 1 to 4 *)

(** Received: the status of channel 1 in the highest bit of byte 0; four bits of nominal current.  Sent: the
    switch of channel 1 in the lowest bit of byte 0, the bit that makes the breaker take them in the highest. *)
Definition br_on (b : Z -> Z) (c : Z) : bool := bits (b 0) (8 - c) 1 =? 1.
Definition br_take (f : Z -> Z) : bool := bits (f 0) 7 1 =? 1.
Definition br_switch (f : Z -> Z) (c : Z) : bool := bits (f 0) (c - 1) 1 =? 1.
Definition br_rated (f : Z -> Z) (c : Z) : Z := if Z.odd c then bits (f ((c + 1) / 2)) 4 4 else bits (f (c / 2)) 0 4.
Definition br_current (b : Z -> Z) (c : Z) : Z := if Z.odd c then bits (b ((c + 1) / 2)) 4 4 else bits (b (c / 2)) 0 4.
(** Orders for all channels. *)
Definition br_all (man : bool) (e : cev) : option bool :=
  if man then None
  else match e with COn => Some true | COff => Some false | CVal v | CCmdV v => Some (negb (v =? 0)) | CCmdSt n => Some (negb (n =? 0)) | _ => None end.
(** Manual mode; whether a cycle has run; whether the port worked in the last cycle; whether an order for all channels
    has been given since the first cycle. *)
Record sight := { s_man : bool; s_run : bool; s_ok : bool; s_armed : bool }.
Definition see (p : sight) (e : cev) : sight :=
  match e with
  | CCycle i => {| s_man := s_man p; s_run := true; s_ok := ok i; s_armed := s_armed p |}
  | CMan n => {| s_man := if n =? 0 then false else if n =? 1 then true else s_man p; s_run := s_run p; s_ok := s_ok p; s_armed := s_armed p |}
  | e => {| s_man := s_man p; s_run := s_run p; s_ok := s_ok p;
            s_armed := s_armed p || (s_run p && match br_all (s_man p) e with Some _ => true | None => false end) |}
  end.
Definition seen (l : list cev) : sight := fold_left see l {| s_man := false; s_run := false; s_ok := false; s_armed := false |}.
(** Cycles with a working port. *)
Definition steady (e : cev) : Prop := match e with CCycle i => ok i = true | CSet _ | CMan _ => True | _ => False end.
