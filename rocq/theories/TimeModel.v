(** Elapsed time.  Source: /repo/PAC/linux/l_dtime.cpp. *)
From Coq Require Import ZArith Bool Lia.
From Verif Require Import Base.
Open Scope Z_scope.

(** [unsigned long] is 64 bit on the PC and PLCnext, 32 bit on the ARM WAGO
    controllers; the width in bits is a parameter [w]. *)
Definition ulong_max (w : Z) : Z := 2 ^ w - 1.

(** l_dtime.cpp:35-43 [get_delta_millisec]; [now] is the result of
    [get_millisec()] (lines 10-23), all arithmetic in [unsigned long]. *)
Definition get_delta_millisec (w now0 time1 : Z) : Z :=
  let now := if now0 <? time1 then (now0 + 2) mod 2 ^ w else now0 in
  if time1 <=? now then now - time1
  else (ulong_max w - time1 + now) mod 2 ^ w.

(** The clock of a controller that runs for [t] ms (true time), as an
    [unsigned long]. *)
Definition clock (w t : Z) : Z := t mod 2 ^ w.
