(** Counters of volume and filtered discrete inputs.

    Source: /repo/PAC/common/device/device.cpp 1006-1631 ([base_counter], [counter],
    [counter_f], [counter_iolink], [DI1]), 2555-2584 and 2674-2708 ([level_s],
    [level_s_iolink]), device.h 771-796, 961-1059, 1117-1341, base.h 119-184 and 859-913,
    base.cpp 530-685 ([virtual_counter]).  Below cpp and h: device.cpp and device.h.

    Simplifications:
    - the program runs on a controller, not in the emulator;
    - one reading of the clock and of the channels per call;
    - the flow, the least flow, the number of the device, the filter time and the waiting
      time of the pump (parameters already converted to whole numbers) and the state of
      the link are inputs; the channel of the device exists;
    - texts of states and errors are left out, as is the decoding of the data of the
      IO-Link devices (cpp:1462-1499, 2586-2672). *)
From Coq Require Import ZArith List Bool Lia QArith.
From Verif Require Import Base TimeModel FTextModel FloatModel.
Import ListNotations.
Open Scope Z_scope.

(** * Filtered inputs *)

(** h:785-786: [current_state], [time] (32 bit). *)
Record filt := { f_cur : Z; f_time : Z }.
(** A new input, cpp:1587-1595, h:785-786; [init]: 1 for the upper level (cpp:2570-2574,
    2577-2584) and the inverse position (h:1050-1053), 0 for others; [t0]: 0 for [DI1], the
    clock for [level_s_iolink], h:986-987. *)
Definition new_filt (init t0 : Z) : filt := {| f_cur := init; f_time := u32 t0 |}.

(** One reading of an input: the time, the signal, the filter time [P_DT]. *)
Record rd := { r_now : Z; r_raw : Z; r_dt : Z }.

(** [DI1::get_state], cpp:1607-1631; the same code in [level_s_iolink::get_state],
    cpp:2684-2702. *)
Definition di_read (w : Z) (r : rd) (s : filt) : filt :=
  if 0 <? r_dt r then
    if f_cur s =? r_raw r then {| f_cur := f_cur s; f_time := u32 (r_now r) |}
    else if r_dt r <? get_delta_millisec w (r_now r) (f_time s)
    then {| f_cur := r_raw r; f_time := u32 (r_now r) |} else s
  else {| f_cur := r_raw r; f_time := f_time s |}.
(** Readings one after another (each a call of [get_state], cpp:1607-1631). *)
Definition di_run (w : Z) (l : list rd) (s : filt) : filt := fold_left (fun s r => di_read w r s) l s.

(** [level_s_iolink::get_state], cpp:2674-2703: [ok]: the link works; [max]: the upper
    level. *)
Definition ls_read (w : Z) (max ok : bool) (r : rd) (s : filt) : Z * filt :=
  if ok then let s' := di_read w r s in (f_cur s', s') else (if max then 1 else 0, s).
(** Readings one after another (cpp:2674-2703): the last reported state. *)
Definition ls_run (w : Z) (max : bool) (l : list (bool * rd)) (s : filt) : Z * filt :=
  fold_left (fun x y => ls_read w max (fst y) (snd y) (snd x)) l (f_cur s, s).
(** [level_s_iolink::is_active], cpp:2705-2708, and [level_s::is_active], cpp:2555-2568. *)
Definition ls_active (w : Z) (max ok : bool) (r : rd) (s : filt) : bool :=
  negb (fst (ls_read w max ok r s) =? 0).
Definition level_active (max : bool) (state : Z) : bool :=
  if max then state =? 0 else negb (state =? 0).

(** * Counters *)

(** base.h:166-175 [STATES]. *)
Definition S_WORK := 1. Definition S_PAUSE := 2. Definition S_ERROR := -10.
Definition S_LOW_ERR := -12. Definition S_HI_ERR := -13.

(** [counter], [counter_f], [counter_iolink]. *)
Inductive ckind := Pulses | Flow | Iol.

(** h:1195-1219; [c_st]: [device::state]; floats as bit patterns. *)
Record ctr := {
  c_st : Z; c_val : Z; c_last : Z; c_first : bool;
  a_val : Z; a_last : Z; a_first : bool;
  d1_on : bool; d1 : Z; yd1 : Z; d2_on : bool; d2 : Z; yd2 : Z;
  day : Z; t_pump : Z; prev_q : Z }.

(** What a call sees: the clock, the number of the device ([get_raw_value], cpp:1348-1356,
    1527-1530), the flow and the least flow ([get_flow], [get_min_flow], cpp:1403-1415,
    1431-1434, 1522-1525, 1537-1541), the states of the motors, the time a pump may work
    without counting ([get_pump_dt], cpp:1426-1429, 1516-1520), the day of the year, the
    state of the link (0: works). *)
Record cin := {
  i_now : Z; i_raw : Z; i_flow : Z; i_min : Z; i_motors : list Z; i_dt : Z; i_yday : Z;
  i_link : Z }.

(** A new counter, cpp:1006-1012, h:1195-1219. *)
Definition new_ctr (yday : Z) : ctr :=
  {| c_st := S_WORK; c_val := 0; c_last := 0; c_first := true; a_val := 0; a_last := 0; a_first := true;
     d1_on := true; d1 := 0; yd1 := 0; d2_on := true; d2 := 0; yd2 := 0;
     day := yday; t_pump := 0; prev_q := 0 |}.

(** Assignments to single fields of the object (h:1195-1219): [device::state];
    [start_pump_working_time] and [counter_prev_value]; the value, its last reading and its
    first flag; the same for the total; the daily values with the day; their switches. *)
Definition set_st (n : Z) (c : ctr) : ctr :=
  {| c_st := n; c_val := c_val c; c_last := c_last c; c_first := c_first c; a_val := a_val c; a_last := a_last c;
     a_first := a_first c; d1_on := d1_on c; d1 := d1 c; yd1 := yd1 c; d2_on := d2_on c; d2 := d2 c; yd2 := yd2 c;
     day := day c; t_pump := t_pump c; prev_q := prev_q c |}.
Definition set_pump (t q : Z) (c : ctr) : ctr :=
  {| c_st := c_st c; c_val := c_val c; c_last := c_last c; c_first := c_first c; a_val := a_val c; a_last := a_last c;
     a_first := a_first c; d1_on := d1_on c; d1 := d1 c; yd1 := yd1 c; d2_on := d2_on c; d2 := d2 c; yd2 := yd2 c;
     day := day c; t_pump := t; prev_q := q |}.
Definition set_val (v l : Z) (f : bool) (c : ctr) : ctr :=
  {| c_st := c_st c; c_val := v; c_last := l; c_first := f; a_val := a_val c; a_last := a_last c;
     a_first := a_first c; d1_on := d1_on c; d1 := d1 c; yd1 := yd1 c; d2_on := d2_on c; d2 := d2 c; yd2 := yd2 c;
     day := day c; t_pump := t_pump c; prev_q := prev_q c |}.
Definition set_abs (v l : Z) (f : bool) (c : ctr) : ctr :=
  {| c_st := c_st c; c_val := c_val c; c_last := c_last c; c_first := c_first c; a_val := v; a_last := l;
     a_first := f; d1_on := d1_on c; d1 := d1 c; yd1 := yd1 c; d2_on := d2_on c; d2 := d2 c; yd2 := yd2 c;
     day := day c; t_pump := t_pump c; prev_q := prev_q c |}.
Definition set_days (v1 q1 v2 q2 y : Z) (c : ctr) : ctr :=
  {| c_st := c_st c; c_val := c_val c; c_last := c_last c; c_first := c_first c; a_val := a_val c; a_last := a_last c;
     a_first := a_first c; d1_on := d1_on c; d1 := v1; yd1 := q1; d2_on := d2_on c; d2 := v2; yd2 := q2;
     day := y; t_pump := t_pump c; prev_q := prev_q c |}.
Definition set_day_on (b1 b2 : bool) (c : ctr) : ctr :=
  {| c_st := c_st c; c_val := c_val c; c_last := c_last c; c_first := c_first c; a_val := a_val c; a_last := a_last c;
     a_first := a_first c; d1_on := b1; d1 := d1 c; yd1 := yd1 c; d2_on := b2; d2 := d2 c; yd2 := yd2 c;
     day := day c; t_pump := t_pump c; prev_q := prev_q c |}.

(** [get_max_raw_value], cpp:1358-1361, 1532-1535 (as a [float]). *)
Definition max_raw (k : ckind) : Z :=
  match k with Iol => f_lit (49999999999 # 100) | _ => f_lit 65535 end.
(** [get_abs_quantity], cpp:1163-1166, 1576-1579, and [get_quantity], cpp:1153-1161,
    1571-1574, 1581-1584; [mL_in_L]: h:1313; [None]: undefined conversion. *)
Definition abs_quantity (k : ckind) (c : ctr) : option Z :=
  f_to_u32 (match k with Iol => f_mul (f_of_Z 1000) (a_val c) | _ => a_val c end).
Definition quantity (k : ckind) (c : ctr) : option Z :=
  f_to_u32 (match k with Iol => f_mul (c_val c) (f_of_Z 1000) | _ => c_val c end).

(** [calculate_quantity], cpp:1113-1151, [MAX_OVERFLOW] h:1195: the delta and the new value, last value and
    first flag. *)
Definition calc (k : ckind) (raw v last : Z) (first : bool) : Z * (Z * Z * bool) :=
  if first then
    if f_eq raw 0 then (0, (v, last, true)) else (0, (v, raw, false))
  else
    let delta :=
      if f_lt raw last then
        let d := f_add (f_sub (max_raw k) last) raw in
        if f_lt (f_of_Z 300) d && f_lt raw d then raw else d
      else f_sub raw last in
    (delta, ((if f_lt 0 delta then f_add v delta else v), raw, false)).

(** cpp:1016-1031: a motor works (if there are any) and the flow is above the least flow;
    for [counter] both are 0, cpp:1363-1376. *)
Definition flowing (k : ckind) (i : cin) : bool :=
  negb ((match i_motors i with [] => false | _ => negb (existsb (fun s => s =? 1) (i_motors i)) end)
        || match k with Pulses => f_le 0 0 | _ => f_le (i_flow i) (i_min i) end).
(** [get_pump_dt], cpp:1368-1371 for [counter]. *)
Definition pump_dt (k : ckind) (i : cin) : Z := match k with Pulses => 0 | _ => i_dt i end.

(** [base_counter::get_state], cpp:1014-1067: the new state. *)
Definition base_state (w : Z) (k : ckind) (i : cin) (c : ctr) : option ctr :=
  if flowing k i then
    match abs_quantity k c with
    | None => None
    | Some q =>
        if (c_st c =? S_PAUSE) || (t_pump c =? 0) then Some (set_pump (u32 (i_now i)) q c)
        else if negb (q =? prev_q c) then Some (set_st S_WORK (set_pump (u32 (i_now i)) q c))
        else if get_delta_millisec w (i_now i) (t_pump c) <? pump_dt k i then Some c
        else Some (set_st S_ERROR c)
    end
  else Some (set_pump 0 (prev_q c) c).
(** [counter_f::get_state], cpp:1389-1401: the flow -1 and -2 stand for errors of the
    channel; [counter_iolink::get_state], cpp:1501-1514. *)
Definition chan_error (k : ckind) (i : cin) : option Z :=
  match k with
  | Pulses => None
  | Flow => if f_eq (i_flow i) (f_of_Z (-1)) then Some S_LOW_ERR
            else if f_eq (i_flow i) (f_of_Z (-2)) then Some S_HI_ERR else None
  | Iol => if i_link i =? 0 then None else Some (- i_link i)
  end.
(** [get_state]: the reported state. *)
Definition get_state (w : Z) (k : ckind) (i : cin) (c : ctr) : option (Z * ctr) :=
  match chan_error k i with
  | Some e => Some (e, c)
  | None => match base_state w k i c with None => None | Some c' => Some (c_st c', c') end
  end.

(** [base_counter::evaluate_io], cpp:1214-1242, also the end of
    [counter_iolink::evaluate_io], cpp:1493. *)
Definition cycle (w : Z) (k : ckind) (i : cin) (c : ctr) : option ctr :=
  match get_state w k i c with
  | None => None
  | Some (st, c) =>
      let c := if st =? S_WORK
               then let r := snd (calc k (i_raw i) (c_val c) (c_last c) (c_first c)) in
                    set_val (fst (fst r)) (snd (fst r)) (snd r) c
               else c in
      let a := calc k (i_raw i) (a_val c) (a_last c) (a_first c) in
      let c := set_abs (fst (fst (snd a))) (snd (fst (snd a))) (snd (snd a)) c in
      let v1 := if d1_on c then f_add (d1 c) (fst a) else d1 c in
      let v2 := if d2_on c then f_add (d2 c) (fst a) else d2 c in
      Some (if day c =? i_yday i then set_days v1 (yd1 c) v2 (yd2 c) (day c) c
            else set_days 0 v1 0 v2 (i_yday i) c)
  end.

(** [pause] (without the conversion), cpp:1176-1181; [start], cpp:1183-1196 ([raw]: the
    number of the device at the call); [reset], [abs_reset], cpp:1198-1206. *)
Definition pause (c : ctr) : ctr := set_st S_PAUSE c.
Definition c_start (raw : Z) (c : ctr) : ctr :=
  if c_st c =? S_PAUSE then set_pump 0 (prev_q c) (set_val (c_val c) raw (c_first c) (set_st S_WORK c))
  else if c_st c <? 0 then set_st S_WORK (set_pump 0 (prev_q c) c) else c.
Definition reset (c : ctr) : ctr := set_val 0 (c_last c) (c_first c) c.
Definition abs_reset (c : ctr) : ctr := set_abs 0 (a_last c) (a_first c) c.

(** Calls: a cycle, a reading of the state, orders ([restart], cpp:1208-1212;
    [direct_set_state], cpp:1079-1101; [direct_set_value], cpp:1103-1106), the command for the
    total (cpp:1255-1257), the commands for the daily values (cpp:1259-1268; [true]: the
    value of the day before), [start_daily] and [pause_daily] (cpp:1325-1339); [n] = 1 is
    the first daily counter. *)
Inductive call :=
| Cycle (i : cin) | State (i : cin) | Pause | Start (raw : Z) | Reset | AbsReset | Restart (raw : Z)
| SetState (n raw : Z) | SetVal (v : Z) | SetAbs (v : Z)
| SetDay (prev : bool) (n v : Z) | DayOn (n : Z) | DayOff (n : Z).

(** One call, at the lines given above. *)
Definition ctr_step (w : Z) (k : ckind) (c : ctr) (x : call) : option ctr :=
  match x with
  | Cycle i => cycle w k i c
  | State i => match get_state w k i c with None => None | Some (_, c') => Some c' end
  | Pause => match quantity k c with None => None | Some _ => Some (pause c) end
  | Start raw => Some (c_start raw c)
  | Reset => Some (reset c)
  | AbsReset => Some (abs_reset c)
  | Restart raw => Some (c_start raw (reset c))
  | SetState n raw =>
      if n =? S_WORK then Some (c_start raw c)
      else if n =? S_PAUSE then match quantity k c with None => None | Some _ => Some (pause c) end
      else Some c
  | SetVal v => Some (set_val v (c_last c) (c_first c) c)
  | SetAbs v => Some (set_abs v (a_last c) (a_first c) c)
  | SetDay prev n v =>
      Some (set_days (if negb prev && (n =? 1) then v else d1 c) (if prev && (n =? 1) then v else yd1 c)
              (if negb prev && negb (n =? 1) then v else d2 c) (if prev && negb (n =? 1) then v else yd2 c) (day c) c)
  | DayOn n => Some (if n =? 1 then set_day_on true (d2_on c) c else set_day_on (d1_on c) true c)
  | DayOff n => Some (if n =? 1 then set_day_on false (d2_on c) c else set_day_on (d1_on c) false c)
  end.
(** Calls one after another; [None] once an undefined conversion was made (cpp:1153-1166,
    1571-1584). *)
Fixpoint ctr_run (w : Z) (k : ckind) (c : ctr) (l : list call) : option ctr :=
  match l with
  | [] => Some c
  | x :: r => match ctr_step w k c x with None => None | Some c' => ctr_run w k c' r end
  end.

(** * The virtual counter *)

(** base.h:904-912, base.cpp:530-534; [v_val]: [device::value]; the flow is left out. *)
Record vctr := { v_st : Z; v_val : Z; v_last : Z; v_abs : Z; v_alast : Z; v_first : bool }.
(** A new virtual counter, base.cpp:530-534, base.h:904-912. *)
Definition new_vctr : vctr := {| v_st := S_WORK; v_val := 0; v_last := 0; v_abs := 0; v_alast := 0; v_first := true |}.
(** Calls: [eval], base.cpp:633-657; [pause], [start], [reset], [abs_reset], 569-605; [set],
    626-631. *)
Inductive vcall := VEval (r a : Z) | VPause | VStart | VReset | VAbsReset | VSet (v a : Z).
(** One call, at the lines given above. *)
Definition vstep (c : vctr) (x : vcall) : vctr :=
  match x with
  | VEval r a =>
      {| v_st := v_st c;
         v_val := if v_first c then v_val c
                  else if v_last c <? r then f_add (v_val c) (f_of_Z (u32 (r - v_last c))) else v_val c;
         v_last := r;
         v_abs := if v_first c then v_abs c
                  else if v_alast c <? a then u32 (v_abs c + (a - v_alast c)) else v_abs c;
         v_alast := a; v_first := false |}
  | VPause => {| v_st := S_PAUSE; v_val := v_val c; v_last := v_last c; v_abs := v_abs c; v_alast := v_alast c; v_first := v_first c |}
  | VStart => {| v_st := S_WORK; v_val := v_val c; v_last := v_last c; v_abs := v_abs c; v_alast := v_alast c; v_first := v_first c |}
  | VReset => {| v_st := v_st c; v_val := 0; v_last := v_last c; v_abs := v_abs c; v_alast := v_alast c; v_first := v_first c |}
  | VAbsReset => {| v_st := v_st c; v_val := v_val c; v_last := v_last c; v_abs := 0; v_alast := v_alast c; v_first := v_first c |}
  | VSet v a => {| v_st := v_st c; v_val := f_of_Z v; v_last := v_last c; v_abs := a; v_alast := v_alast c; v_first := v_first c |}
  end.
(** Calls one after another (base.cpp:569-657). *)
Definition vrun (l : list vcall) (c : vctr) : vctr := fold_left vstep l c.
(** [get_quantity], base.cpp:584-587; [get_abs_quantity], 596-599, is [v_abs]. *)
Definition vquantity (c : vctr) : option Z := f_to_u32 (v_val c).
