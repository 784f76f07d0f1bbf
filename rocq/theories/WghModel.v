(** Scales on a serial module, scales on Ethernet, strain gauges.  Source: /repo/PAC/common/device/device.cpp
    (cpp) with device.h (h), /repo/PAC/IoT/iot_wages_eth.cpp (eth), without the emulator. Floats are bit patterns. *)
From Coq Require Import ZArith List Bool Lia QArith Qround.
From Verif Require Import Base TimeModel FTextModel FloatModel.
Import ListNotations.
Open Scope Z_scope.

(** * Scales on a serial module, cpp:1794-1897, h:523-560 *)

(** The image of the inputs of the module, from its first byte on; state, value, and the word written to the
    module. *)
Record serial := { img : Z -> Z; sst : Z; sval : Z; cmd : Z }.
(** h:558-559. *)
Definition serial0 (f : Z -> Z) : serial := {| img := f; sst := 1; sval := 0; cmd := 0 |}.
(** [std::swap] of two bytes. *)
Definition swap (a b : Z) (f : Z -> Z) : Z -> Z := fun k => if k =? a then f b else if k =? b then f a else f k.
(** [get_value_from_wages], cpp:1801-1842, [set_command], 1849-1866. [num] is the conversion of a text to a
    number, [static_cast<float>(atof(...))]; [there]: whether the channel exists. *)
Definition weigh (num : (Z -> Z) -> Z) (there : bool) (s : serial) : serial :=
  if negb there then {| img := img s; sst := -1; sval := 0; cmd := cmd s |}
  else if (img s 0 =? 0) && (img s 1 =? 0) then s
  else if (img s 0 =? 1) && (img s 1 =? 0) then {| img := img s; sst := sst s; sval := sval s; cmd := 12288 |}
  else if negb (img s 2 =? 43) then {| img := img s; sst := -1; sval := 0; cmd := 0 |}
  else let f := swap 10 11 (swap 8 9 (swap 6 7 (img s))) in
       {| img := f; sst := 1; sval := num (fun k => f (6 + k)); cmd := 0 |}.
(** A cycle: the inputs are read, or reading fails and they stay ([None]); then [evaluate_io], cpp:1876-1886. *)
Definition cycle (num : (Z -> Z) -> Z) (s : serial) (r : option (Z -> Z)) : serial :=
  weigh num true match r with Some f => {| img := f; sst := sst s; sval := sval s; cmd := cmd s |} | None => s end.
Definition cycles (num : (Z -> Z) -> Z) (s : serial) (rs : list (option (Z -> Z))) : serial := fold_left (cycle num) rs s.
(** [get_value], cpp:1844-1847; [cz]: the parameter P_CZ. *)
Definition serial_value (cz : Z) (s : serial) : Z := f_add (sval s) cz.

(** * Scales on Ethernet, eth:12-60, cpp:1907-1922 *)

Record ether := { ebuf : Z -> Z; est : Z; eval : Z }.
(** The buffer is not initialised. *)
Definition ether0 (f : Z -> Z) : ether := {| ebuf := f; est := 0; eval := 0 |}.
(** [evaluate], eth:12-19: what was received ([AsyncRecive] gives its length), nothing or an error gives 0;
    [convert_value], eth:41-53. *)
Definition receive (num : (Z -> Z) -> Z) (s : ether) (l : list Z) : ether :=
  match l with
  | [] => s
  | _ =>
      let b := fun k => if (0 <=? k) && (k <? Z.of_nat (length l)) then nth (Z.to_nat k) l 0 else ebuf s k in
      if negb (b 8 =? 107) || negb (b 9 =? 103) then {| ebuf := b; est := 0; eval := eval s |}
      else {| ebuf := b; est := 1; eval := num (fun k => b (1 + k)) |}
  end.
Definition receives (num : (Z -> Z) -> Z) (s : ether) (ls : list (list Z)) : ether := fold_left (receive num) ls s.

(** * Strain gauges, cpp:2065-2131, h:675-715 *)

(** Parameters P_NOMINAL_W, P_RKP, P_DT; readings of both channels. *)
Record gauge_par := { nominal : Z; rkp : Z; dt : Z }.
Record reading := { now : Z; ud : Z; uref : Z }.
(** Weight, the parameter P_C0, time of the last sample. *)
Record gauge := { weight : Z; zero : Z; ft : Z }.
(** [fabs] and [ceilf]. *)
Definition f_fabs (b : Z) : Z := f_mag b.
Definition f_ceil (b : Z) : Z := if f_finite b then f_round (f_neg b) (inject_Z (Qceiling (f_val b))) else b.
(** [get_weight], cpp:2080-2101: the value shown. -1001 is 0xC47A4000, -1002 is 0xC47A8000. *)
Definition get_weight (w : Z) (p : gauge_par) (r : reading) (s : gauge) : gauge * Z :=
  if 500 <? get_delta_millisec w (now r) (ft s) then
    let s1 := {| weight := weight s; zero := zero s; ft := now r |} in
    if f_eq 0 (rkp p) then (s1, 0xC47A4000)
    else if f_eq 0 (uref r) then (s1, 0xC47A8000)
    else
      let nw := f_mul (f_div (f_div (ud r) (rkp p)) (uref r)) (nominal p) in
      let w1 := if f_lt (dt p) (f_fabs (f_sub nw (weight s))) then nw else weight s in
      let w2 := if f_le 0x3F800000 (dt p) then f_ceil w1 else w1 in
      ({| weight := w2; zero := zero s; ft := now r |}, f_add w2 (zero s))
  else (s, f_add (weight s) (zero s)).
(** [tare], cpp:2074-2078. *)
Definition tare (s : gauge) : gauge := {| weight := weight s; zero := f_opp (weight s); ft := ft s |}.
Inductive gev := Read (r : reading) | Tare | Zero (z : Z).
Definition gstep (w : Z) (p : gauge_par) (s : gauge) (e : gev) : gauge :=
  match e with Read r => fst (get_weight w p r s) | Tare => tare s | Zero z => {| weight := weight s; zero := z; ft := ft s |} end.
Definition gauge0 (t z : Z) : gauge := {| weight := 0; zero := z; ft := t |}.
