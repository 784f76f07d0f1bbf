(** Motors on discrete outputs, with and without reverse and frequency.

    Source: /repo/PAC/common/device/device.cpp 2274-2519, 319-353, device.h 822-862,
    base.cpp 232-238, 321-353, 477-480, manager.cpp 750-761, bus_coupler_io.cpp 43-121.
    Below cpp: device.cpp.

    Simplifications:
    - the program runs on a controller, not in the emulator;
    - the motor has all channels its kind uses, none is shared; inputs are 0 or 1;
    - the analog output is represented by the value last given to it ([float]; AioModel
      has the conversion);
    - one reading of the clock per call; [P_ON_TIME] is a whole number of milliseconds from
      0 to 2^24. *)
From Coq Require Import ZArith List Bool Lia.
From Verif Require Import Base TimeModel.
Import ListNotations.
Open Scope Z_scope.

(** [DST_M], [DST_M_FREQ], [DST_M_REV], [DST_M_REV_FREQ], [DST_M_REV_2], [DST_M_REV_FREQ_2],
    [M_REV_2_ERROR], [DST_M_REV_FREQ_2_ERROR]. *)
Inductive kind := M | Freq | Rev | RevFreq | Rev2 | RevFreq2 | Rev2Err | RevFreq2Err.
(** The tests of the kind in cpp:2287-2289, 2303-2305, 2317, 2342-2345, 2435-2438, 2465-2468; 2389-2390; 2421. *)
Definition has_freq (k : kind) : bool := match k with Freq | RevFreq | RevFreq2 | RevFreq2Err => true | _ => false end.
Definition one_way (k : kind) : bool := match k with M | Freq => true | _ => false end.
Definition dir (k : kind) : bool := match k with Rev | RevFreq => true | _ => false end.
Definition two (k : kind) : bool := match k with Rev2 | RevFreq2 | Rev2Err | RevFreq2Err => true | _ => false end.
Definition err_in (k : kind) : bool := match k with Rev2Err | RevFreq2Err => true | _ => false end.

(** The two outputs, the value of the analog output, [start_switch_time], manual mode. *)
Record mst := { fwd : bool; rev : bool; freq : Z; t_sw : Z; man : bool }.
(** A new motor, device.h:861. *)
Definition new_motor (now : Z) : mst := {| fwd := false; rev := false; freq := 0; t_sw := now; man := false |}.
Definition wt (n : Z) (s : mst) : mst := {| fwd := fwd s; rev := rev s; freq := freq s; t_sw := n; man := man s |}.
Definition wman (b : bool) (s : mst) : mst := {| fwd := fwd s; rev := rev s; freq := freq s; t_sw := t_sw s; man := b |}.

(** An output is written, and the time taken, if it has to change: cpp:2322-2335, 2350-2363,
    2441-2453, 2461-2476. *)
Definition put_fwd (b : bool) (now : Z) (s : mst) : mst :=
  if Bool.eqb (fwd s) b then s else {| fwd := b; rev := rev s; freq := freq s; t_sw := now; man := man s |}.
Definition put_rev (b : bool) (now : Z) (s : mst) : mst :=
  if Bool.eqb (rev s) b then s else {| fwd := fwd s; rev := b; freq := freq s; t_sw := now; man := man s |}.
(** [direct_set_value], cpp:2297-2309. *)
Definition direct_set_value (k : kind) (v : Z) (s : mst) : mst :=
  if has_freq k then {| fwd := fwd s; rev := rev s; freq := v; t_sw := t_sw s; man := man s |} else s.
(** [get_value], cpp:2282-2295. *)
Definition get_value (k : kind) (s : mst) : Z := if has_freq k then freq s else 0.
(** [direct_on], cpp:2430-2454. *)
Definition direct_on (k : kind) (now : Z) (s : mst) : mst :=
  put_fwd true now (if one_way k then s else put_rev false now s).
(** [direct_off], cpp:2456-2480. *)
Definition direct_off (k : kind) (now : Z) (s : mst) : mst :=
  let s := put_fwd false now s in
  direct_set_value k 0 (if one_way k then s else put_rev false now s).
(** [direct_set_state], cpp:2311-2377. *)
Definition direct_set_state (k : kind) (now n : Z) (s : mst) : mst :=
  if dir k && (n =? 2) then put_rev true now (put_fwd true now s)
  else if two k && (n =? 2) then put_rev true now (put_fwd false now s)
  else if negb (n =? 0) then direct_on k now s
  else direct_off k now s.

(** The clock, the input (feedback, or error of the kinds with it), [P_ON_TIME]. *)
Record env := { now : Z; di : bool; p_time : Z }.
(** [get_state], cpp:2379-2428. *)
Definition get_state (w : Z) (k : kind) (E : env) (s : mst) : Z * mst :=
  let late := p_time E <? get_delta_millisec w (now E) (t_sw s) in
  if err_in k then
    if di E && late then (-1, s)
    else (if rev s then 2 else if fwd s then 1 else 0, if di E then s else wt (now E) s)
  else
    let i := if di E then 1 else 0 in
    let other := if late then (-1, s) else (i, s) in
    if one_way k then
      if Bool.eqb (fwd s) (di E) then (i, wt (now E) s) else other
    else if negb (rev s) && negb (fwd s) && negb (di E) then (0, wt (now E) s)
    else if negb (rev s) && fwd s && di E then (1, wt (now E) s)
    else if dir k && (rev s && fwd s && di E) then (2, wt (now E) s)
    else if two k && (rev s && negb (fwd s) && di E) then (2, wt (now E) s)
    else other.

(** Orders of the program ([On], [Off], [Set_], [Back]: [reverse], [Value]: ignored in manual
    mode, cpp:319-353, base.cpp:232-238, 477-480); commands of an operator ([Cmd], [CmdV], [Man],
    base.cpp:321-353); readings of the state. *)
Inductive order := On | Off | Set_ (n : Z) | Back | Value (v : Z) | Cmd (n : Z) | CmdV (v : Z) | Man (n : Z) | Poll.
Definition step (w : Z) (k : kind) (s : mst) (x : order * env) : mst :=
  let t := now (snd x) in
  let auto r := if man s then s else r in
  match fst x with
  | On => auto (direct_on k t s)
  | Off => auto (direct_off k t s)
  | Set_ n => auto (direct_set_state k t n s)
  | Back => auto (direct_set_state k t 2 s)
  | Value v => auto (direct_set_value k v s)
  | Cmd n => direct_set_state k t n s
  | CmdV v => direct_set_value k v s
  | Man n => if n =? 0 then wman false s else if n =? 1 then wman true s else s
  | Poll => snd (get_state w k (snd x) s)
  end.
Definition run (w : Z) (k : kind) (s : mst) (l : list (order * env)) : mst := fold_left (step w k) l s.
