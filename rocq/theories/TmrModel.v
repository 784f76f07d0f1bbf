(** Timers of a program and threshold regulators.

    Source: /repo/PAC/common/device/device.cpp 3526-3654 (timer, timer_manager), 497-616
    (threshold_regulator), device.h 1704-1806, 1518-1562, base.cpp 130-138, 232-238, 321-353,
    device.cpp 319-353.  Below cpp: device.cpp.

    Simplifications:
    - [unsigned long] and the clock have [w] bits, [unsigned int] 32;
    - the sensor of a regulator is its value, in the moment of a call (the flow, if the sensor is a
      counter); the actuator is the list of the calls it gets, the last one first;
    - parameters are set directly, not by their names. *)
From Coq Require Import ZArith List Bool Lia.
From Verif Require Import Base TimeModel FTextModel FloatModel.
Import ListNotations.
Open Scope Z_scope.

(** * Timers *)

(** [timer::STATE], device.h:1708-1713. *)
Inductive tstate := Stop | Work | Pause.
(** device.h:1772-1776. *)
Record tmr := { last : Z; work : Z; st : tstate; cd : Z }.
Definition new_tmr : tmr := {| last := 0; work := 0; st := Stop; cd := 0 |}.
(** Calls with the clock. *)
Inductive tev := Start (t : Z) | Reset (t : Z) | Hold (t : Z) | Count (t n : Z).
Definition t_step (w : Z) (s : tmr) (e : tev) : tmr :=
  match e with
  | Start t => (* cpp:3530-3542 *)
      let wk := match st s with Stop => 0 | _ => work s end in
      match st s with
      | Work => {| last := last s; work := wk; st := Work; cd := cd s |}
      | _ => {| last := t; work := wk; st := Work; cd := cd s |}
      end
  | Reset t => {| last := last s; work := 0; st := Stop; cd := cd s |} (* cpp:3544-3548 *)
  | Hold t => (* [pause], cpp:3550-3557 *)
      {| last := last s; work := match st s with Work => (work s + get_delta_millisec w t (last s)) mod 2 ^ w | _ => work s end; st := Pause; cd := cd s |}
  | Count t n => {| last := last s; work := work s; st := st s; cd := n mod 2 ^ w |} (* [set_countdown_time], cpp:3588-3600 *)
  end.
Definition t_run (w : Z) (s : tmr) (l : list tev) : tmr := fold_left (t_step w) l s.
(** [get_work_time], cpp:3576-3586. *)
Definition work_time (w now : Z) (s : tmr) : Z :=
  match st s with Work => (work s + get_delta_millisec w now (last s)) mod 2 ^ w | _ => work s end.
(** [is_time_up], cpp:3559-3574: the sum is cut to [u_int]. *)
Definition time_up (w now : Z) (s : tmr) : bool :=
  match st s with Work => negb ((work s + get_delta_millisec w now (last s)) mod 2 ^ w mod 2 ^ 32 <=? cd s) | _ => false end.

(** [timer_manager::operator[]], cpp:3631-3649: the place of the timer, or the common one ([None]). *)
Definition pick (cnt i : Z) : option Z := if (i - 1) mod 2 ^ 32 <? cnt then Some ((i - 1) mod 2 ^ 32) else None.
Definition same (a b : option Z) : bool := match a, b with Some x, Some y => x =? y | None, None => true | _, _ => false end.
Definition m_step (w cnt : Z) (m : option Z -> tmr) (c : Z * tev) : option Z -> tmr :=
  fun p => if same p (pick cnt (fst c)) then t_step w (m p) (snd c) else m p.
Definition m_run (w cnt : Z) (l : list (Z * tev)) : option Z -> tmr := fold_left (m_step w cnt) l (fun _ => new_tmr).
Definition m_get (w cnt : Z) (l : list (Z * tev)) (i : Z) : tmr := m_run w cnt l (pick cnt i).

(** * Threshold regulators *)

(** What the actuator is told. *)
Inductive act := AOff | AState (n : Z).
(** Both parameters, [state], [out_state], manual mode, calls of the actuator, device.h:1552-1561. *)
Record reg := { rev : Z; delta : Z; on : bool; out : Z; man : bool; told : list act }.
(** cpp:497-504; all parameters are 0 before they are set. *)
Definition new_reg : reg := {| rev := 0; delta := 0; on := false; out := 0; man := false; told := [] |}.
Definition tell (a : act) (s : reg) : reg := {| rev := rev s; delta := delta s; on := on s; out := out s; man := man s; told := a :: told s |}.
Definition set_on (b : bool) (s : reg) : reg := {| rev := rev s; delta := delta s; on := b; out := out s; man := man s; told := told s |}.
Definition set_out (n : Z) (s : reg) : reg := {| rev := rev s; delta := delta s; on := on s; out := n; man := man s; told := told s |}.
(** [direct_off], cpp:511-521; [direct_on], cpp:537-543. *)
Definition r_off (s : reg) : reg := if on s then tell AOff (set_on false s) else s.
Definition r_on (s : reg) : reg := if on s then s else set_on true s.
(** [direct_set_state], cpp:523-535. *)
Definition r_set_state (n : Z) (s : reg) : reg := if n =? 0 then r_off s else if n =? 1 then r_on s else s.
(** [direct_set_value], cpp:555-588; [x]: the value of the sensor. *)
Definition r_set_value (v x : Z) (s : reg) : reg :=
  let is_rev := f_lt 0 (rev s) in
  let s1 :=
    if negb (on s) then tell AOff (set_out 0 s)
    else if f_lt (f_add v (delta s)) x then set_out (if is_rev then 1 else 0) s
    else if f_lt x (f_sub v (delta s)) then set_out (if is_rev then 0 else 1) s
    else s in
  tell (AState (out s1)) s1.
(** Calls of the program ([on], [off], [set_state], [set_value]; not in manual mode, cpp:319-353, base.cpp:232-238),
    commands ([ST], [V], [M], base.cpp:321-353) and parameters. *)
Inductive rev_ := On | Off | Set_ (n : Z) | Val (v x : Z) | CmdSt (n : Z) | CmdV (v x : Z) | Man (n : Z) | ParRev (v : Z) | ParDelta (v : Z).
Definition r_step (s : reg) (e : rev_) : reg :=
  let auto r := if man s then s else r in
  match e with
  | On => auto (r_on s)
  | Off => auto (r_off s)
  | Set_ n => auto (r_set_state n s)
  | Val v x => auto (r_set_value v x s)
  | CmdSt n => r_set_state n s
  | CmdV v x => r_set_value v x s
  | Man n => {| rev := rev s; delta := delta s; on := on s; out := out s; man := if n =? 0 then false else if n =? 1 then true else man s; told := told s |}
  | ParRev v => {| rev := v; delta := delta s; on := on s; out := out s; man := man s; told := told s |}
  | ParDelta v => {| rev := rev s; delta := v; on := on s; out := out s; man := man s; told := told s |}
  end.
Definition r_run (l : list rev_) : reg := fold_left r_step l new_reg.
(** [get_state], cpp:506-509; [get_value], cpp:550-553. *)
Definition r_state (s : reg) : Z := if on s then 1 else 0.
Definition r_value (s : reg) : Z := f_of_Z (out s).
