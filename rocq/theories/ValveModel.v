(** Valves on discrete channels: commands, feedback, reported states, closing with
    a delay.

    Source: /repo/PAC/common/device/valve.cpp 15-427, 429-1225, 3175-3302, valve.h
    11-402, 405-443, 530-631, device.cpp 318-351, 2202-2233, base.cpp 211-243, 321-353.

    Simplifications:
    - the program runs on a controller, not in the emulator;
    - every channel of a valve is configured, and no channel is shared; a written
      output is read back at once (bus_coupler_io.cpp 44-120, [get_DO] reads the
      values to be written);
    - one reading of the clock per call;
    - the parameters [P_ON_TIME] and [P_FB] are inputs; [P_ON_TIME] is a whole number
      of milliseconds from 0 to 2^24, so that its comparison with a time in [float]
      (the rounding to [float] is monotone and keeps such a number) is the comparison
      of the whole numbers;
    - logging and the texts of [save_device_ex] are left out. *)
From Coq Require Import ZArith List Bool Lia.
From Verif Require Import Base TimeModel.
Import ListNotations.
Open Scope Z_scope.

(** The classes: [virtual_valve], [valve_DO1], [valve_DO2], [valve_DO1_DI1_off],
    [valve_DO1_DI1_on], [valve_DO1_DI2], [valve_DO2_DI2], [valve_DO2_DI2_bistable],
    [valve_mix_proof], [valve_bottom_mix_proof], [valve_mini_flushing]. *)
Inductive kind := Virt | DO1 | DO2 | DI1off | DI1on | DI2 | DO2DI2 | Bist | Mix | Bottom | Mini.

(** valve.h:108-119 [VALVE_STATE]. *)
Definition V_OFF := 0. Definition V_ON := 1. Definition V_UPPER := 2. Definition V_LOWER := 3. Definition V_STOP := 5.

(** [o0], [o1], [o2]: the outputs number 0, 1, 2 of the valve (for the channels of each
    class see the enumerations in valve.h); [reg]: [device::state]; [t_sw]:
    [start_switch_time] (h:180); [auto], [swoff], [t_off]: h:165-167; [mini], [t_mini]:
    h:549-551; [stopped], [opening], [closing]: h:399-401. *)
Record vst := {
  o0 : bool; o1 : bool; o2 : bool; reg : Z; t_sw : Z; manual : bool;
  auto : bool; swoff : bool; t_off : Z;
  mini : bool; t_mini : Z; stopped : bool; opening : bool; closing : bool }.

(** The inputs number 0 and 1 of a valve and its parameters: [P_ON_TIME] and
    [P_FB] other than 0. *)
Record din := { di0 : bool; di1 : bool; p_time : Z; p_fb : bool }.

Definition b2z (b : bool) : Z := if b then 1 else 0.

(** [set_DO] of an output. *)
Definition w0 (b : bool) (s : vst) : vst :=
  {| o0 := b; o1 := o1 s; o2 := o2 s; reg := reg s; t_sw := t_sw s; manual := manual s;
     auto := auto s; swoff := swoff s; t_off := t_off s; mini := mini s; t_mini := t_mini s;
     stopped := stopped s; opening := opening s; closing := closing s |}.
Definition w1 (b : bool) (s : vst) : vst :=
  {| o0 := o0 s; o1 := b; o2 := o2 s; reg := reg s; t_sw := t_sw s; manual := manual s;
     auto := auto s; swoff := swoff s; t_off := t_off s; mini := mini s; t_mini := t_mini s;
     stopped := stopped s; opening := opening s; closing := closing s |}.
Definition w2 (b : bool) (s : vst) : vst :=
  {| o0 := o0 s; o1 := o1 s; o2 := b; reg := reg s; t_sw := t_sw s; manual := manual s;
     auto := auto s; swoff := swoff s; t_off := t_off s; mini := mini s; t_mini := t_mini s;
     stopped := stopped s; opening := opening s; closing := closing s |}.
(** [start_switch_time = get_millisec()]. *)
Definition wt (now : Z) (s : vst) : vst :=
  {| o0 := o0 s; o1 := o1 s; o2 := o2 s; reg := reg s; t_sw := now; manual := manual s;
     auto := auto s; swoff := swoff s; t_off := t_off s; mini := mini s; t_mini := t_mini s;
     stopped := stopped s; opening := opening s; closing := closing s |}.
(** [device::state = n], base.cpp:211-226. *)
Definition wreg (n : Z) (s : vst) : vst :=
  {| o0 := o0 s; o1 := o1 s; o2 := o2 s; reg := n; t_sw := t_sw s; manual := manual s;
     auto := auto s; swoff := swoff s; t_off := t_off s; mini := mini s; t_mini := t_mini s;
     stopped := stopped s; opening := opening s; closing := closing s |}.
Definition wman (b : bool) (s : vst) : vst :=
  {| o0 := o0 s; o1 := o1 s; o2 := o2 s; reg := reg s; t_sw := t_sw s; manual := b;
     auto := auto s; swoff := swoff s; t_off := t_off s; mini := mini s; t_mini := t_mini s;
     stopped := stopped s; opening := opening s; closing := closing s |}.
Definition wq (a sw : bool) (t : Z) (s : vst) : vst :=
  {| o0 := o0 s; o1 := o1 s; o2 := o2 s; reg := reg s; t_sw := t_sw s; manual := manual s;
     auto := a; swoff := sw; t_off := t; mini := mini s; t_mini := t_mini s;
     stopped := stopped s; opening := opening s; closing := closing s |}.
Definition wmini (b : bool) (t : Z) (s : vst) : vst :=
  {| o0 := o0 s; o1 := o1 s; o2 := o2 s; reg := reg s; t_sw := t_sw s; manual := manual s;
     auto := auto s; swoff := swoff s; t_off := t_off s; mini := b; t_mini := t;
     stopped := stopped s; opening := opening s; closing := closing s |}.
Definition wbist (st op cl : bool) (s : vst) : vst :=
  {| o0 := o0 s; o1 := o1 s; o2 := o2 s; reg := reg s; t_sw := t_sw s; manual := manual s;
     auto := auto s; swoff := swoff s; t_off := t_off s; mini := mini s; t_mini := t_mini s;
     stopped := st; opening := op; closing := cl |}.

(** A new valve: valve.h:131-134, 165-180, constructors; outputs are off. *)
Definition new_vst (now : Z) : vst :=
  {| o0 := false; o1 := false; o2 := false; reg := 0; t_sw := now; manual := false;
     auto := false; swoff := false; t_off := 0; mini := false; t_mini := 0;
     stopped := false; opening := false; closing := false |}.

(** * One valve *)

(** [get_valve_state]: device.cpp:2220-2228, cpp:22-42, 316-319, 459-465, 530-536,
    601-607, 677-683, 792-811, 988-998, 1174-1185, 3256-3265. *)
Definition valve_state (k : kind) (i : din) (s : vst) : Z :=
  match k with
  | Virt => reg s
  | DO1 | DI1off | DI1on | DI2 => b2z (o0 s)
  | DO2 => if eqb (o0 s) (o1 s) then -1 else b2z (o1 s)
  | DO2DI2 => b2z (o1 s)
  | Bist =>
      if di0 i then V_ON else if di1 i then V_OFF
      else if o0 s then V_ON else if o1 s then V_OFF
      else if stopped s then V_STOP else V_OFF
  | Mix =>
      if negb (o0 s) && o1 s then V_UPPER
      else if negb (o0 s) && o2 s then V_LOWER else b2z (o0 s)
  | Bottom =>
      if negb (o0 s) && o1 s then V_UPPER
      else if negb (o0 s) && o2 s then V_LOWER else b2z (o0 s)
  | Mini => if negb (o0 s) && o1 s then V_LOWER else b2z (o0 s)
  end.

(** [direct_on]: base.cpp:218-221, device.cpp:2206-2211, cpp:43-49, 435-445, 506-516,
    577-587, 651-662, 759-774, 955-968, 1132-1145, 3224-3236. *)
Definition direct_on (k : kind) (now : Z) (i : din) (s : vst) : vst :=
  match k with
  | Virt => wreg 1 s
  | DO1 => w0 true s
  | DO2 => w1 true (w0 false s)
  | DI1off | DI1on | DI2 => if o0 s then s else w0 true (wt now s)
  | DO2DI2 => if o0 s then s else w1 false (w0 true (wt now s))
  | Bist =>
      if negb (di0 i) && negb (o0 s)
      then wbist (stopped s) true false (w1 false (w0 true (wt now s))) else s
  | Mix =>
      let s := w2 false (w1 false s) in
      if o0 s then s else w0 true (wt now s)
  | Bottom =>
      let s := w2 false s in
      if o0 s then s else w1 true (w0 true (wt now s))
  | Mini => if o0 s then s else w1 false (w0 true (wt now s))
  end.

(** [direct_off]: base.cpp:211-215, device.cpp:2213-2218, cpp:51-57, 447-457, 518-528,
    589-599, 664-675, 776-790, 970-986, 1147-1172, 3238-3254.  The value set to zero by
    [device::direct_off] is left out. *)
Definition direct_off (k : kind) (now : Z) (i : din) (s : vst) : vst :=
  match k with
  | Virt => wreg 0 s
  | DO1 => w0 false s
  | DO2 => w1 false (w0 true s)
  | DI1off | DI1on | DI2 => if o0 s then w0 false (wt now s) else s
  | DO2DI2 => if o1 s then s else w1 true (w0 false (wt now s))
  | Bist =>
      if negb (di1 i) && negb (o1 s)
      then wbist (stopped s) false true (w1 true (w0 false (wt now s))) else s
  | Mix =>
      let st := valve_state Mix i s in
      let s := w2 false (w1 false s) in
      if o0 s || (st =? V_LOWER) || (st =? V_UPPER) then w0 false (wt now s) else s
  | Bottom =>
      let s := if valve_state Bottom i s =? V_LOWER then w2 false (wt now s) else s in
      let s := if o0 s then wmini true now (w0 false (wt now s)) else s in
      if o1 s && negb (mini s) then w1 false (wt now s) else s
  | Mini =>
      let s := if o1 s then w1 false (wt now s) else s in
      if o0 s then w0 false (wt now s) else s
  end.

(** [direct_set_state]: base.cpp:223-226 ([device::direct_set_state], for the classes
    without their own function), cpp:855-888, 908-953, 1067-1107, 3190-3222. *)
Definition direct_set_state (k : kind) (now : Z) (i : din) (n : Z) (s : vst) : vst :=
  match k with
  | Virt | DO1 | DO2 | DI1off | DI1on | DI2 | DO2DI2 => wreg n s
  | Bist =>
      if n =? V_STOP then
        let s := wbist (stopped s) false false s in
        if di0 i || di1 i then s
        else w1 false (w0 false (wbist true (opening s) (closing s) s))
      else wreg n (wbist false (opening s) (closing s) s)
  | Mix =>
      if n =? V_OFF then direct_off Mix now i s
      else if n =? V_ON then direct_on Mix now i s
      else if n =? V_UPPER then
        let s := direct_off Mix now i s in if o1 s then s else w1 true (wt now s)
      else if n =? V_LOWER then
        let s := direct_off Mix now i s in if o2 s then s else w2 true (wt now s)
      else direct_on Mix now i s
  | Bottom =>
      if n =? V_OFF then direct_off Bottom now i s
      else if n =? V_ON then direct_on Bottom now i s
      else if n =? V_UPPER then
        let s := direct_off Bottom now i s in
        let s := wmini false (t_mini s) s in
        if o1 s then s else w1 true (wt now s)
      else if n =? V_LOWER then
        let s := direct_off Bottom now i s in if o2 s then s else w2 true (wt now s)
      else direct_on Bottom now i s
  | Mini =>
      if n =? V_OFF then direct_off Mini now i s
      else if n =? V_ON then direct_on Mini now i s
      else if n =? V_UPPER then direct_off Mini now i s
      else if n =? V_LOWER then
        let s := direct_off Mini now i s in if o1 s then s else w1 true (wt now s)
      else direct_on Mini now i s
  end.

(** [open_upper_seat] and [open_lower_seat]: cpp:898-906, 1049-1057, 3180-3188; no
    regard to the manual mode. *)
Definition open_seat (k : kind) (upper : bool) (now : Z) (i : din) (s : vst) : vst :=
  match k, upper with
  | Mix, true => direct_set_state Mix now i V_UPPER s
  | Mix, false | Bottom, false | Mini, false => direct_set_state k now i V_LOWER s
  | _, _ => s
  end.

(** [get_fb_state]: cpp:28-31, 322-325, 467-486, 538-557, 609-629, 685-705, 813-839,
    1000-1023, 1187-1210, 3267-3288, device.cpp:2230-2233.  The classes with one input
    restart the time while the input agrees. *)
Definition fb_state (w : Z) (k : kind) (now : Z) (i : din) (s : vst) : bool * vst :=
  let dt := get_delta_millisec w now (t_sw s) in
  let late := dt <? p_time i in
  match k with
  | Virt | DO1 | DO2 => (true, s)
  | DI1off => if negb (eqb (o0 s) (di0 i)) then (true, wt now s) else (late, s)
  | DI1on => if eqb (o0 s) (di0 i) then (true, wt now s) else (late, s)
  | DI2 =>
      if (negb (o0 s) && di1 i && negb (di0 i)) || (o0 s && di0 i && negb (di1 i))
      then (true, s) else (late, s)
  | DO2DI2 => if eqb (o1 s) (di1 i) && eqb (o0 s) (di0 i) then (true, s) else (late, s)
  | Bist =>
      let u := u32 dt in
      if stopped s then (true, s)
      else if di0 i && di1 i then (false, s)
      else if opening s && (p_time i <? u) && di1 i then (false, s)
      else if closing s && (p_time i <? u) && di0 i then (false, s)
      else if di0 i || di1 i then (true, s)
      else (u <? p_time i, s)
  | Mix =>
      if (negb (o0 s) && di1 i && negb (di0 i)) || (o0 s && di0 i && negb (di1 i))
      then (true, s)
      else if negb (o0 s) && (o2 s || o1 s) then (true, s) else (late, s)
  | Bottom =>
      if (negb (o0 s) && di1 i && negb (di0 i)) || (o0 s && di0 i && negb (di1 i))
      then (true, s)
      else if negb (o0 s) && o2 s then (true, s) else (late, s)
  | Mini =>
      if (negb (o0 s) && di1 i && negb (di0 i)) || (o0 s && di0 i && negb (di1 i))
      then (true, s) else (late, s)
  end.

(** [is_off_fb || is_on_fb] by the constructors, cpp:61-89 and the classes. *)
Definition has_fb (k : kind) : bool :=
  match k with Virt | DO1 | DO2 => false | _ => true end.

(** [valve::get_state], cpp:107-287, and [valve_DO2::get_state], cpp:33-41. *)
Definition get_state (w : Z) (k : kind) (now : Z) (i : din) (s : vst) : Z * vst :=
  let moving (ok err mov : Z) :=
    if has_fb k then
      if p_fb i then
        let r := fb_state w k now i s in
        if fst r then (ok, snd r)
        else if p_time i <? get_delta_millisec w now (t_sw (snd r)) then (err, snd r)
        else (mov, snd r)
      else (ok + 10, s)
    else (ok, s) in
  let st := valve_state k i s in
  match k with
  | DO2 => (st, s)
  | _ =>
    if st =? V_LOWER then
      (if manual s then 23 else if has_fb k && negb (p_fb i) then 33 else 3, s)
    else if st =? V_UPPER then
      (if manual s then 22 else if has_fb k && negb (p_fb i) then 32 else 2, s)
    else if st =? V_ON then
      if manual s then moving 21 (-12) 42 else moving 1 (-2) 40
    else if st =? V_OFF then
      if manual s then moving 20 (-13) 43 else moving 0 (-3) 41
    else if st =? V_STOP then (5, s)
    else (100, s)
  end.

(** [get_on_fb_value] and [get_off_fb_value]: cpp:383-392, 488-499, 559-570, 631-643,
    707-719, 841-853, 1025-1037, 1212-1224, 3290-3302; for a valve without feedback the
    initial [true] of the constructor without flags is [false] (h:133-134). *)
Definition on_fb (k : kind) (i : din) : bool :=
  match k with
  | Virt | DO1 | DO2 | DI1off => false
  | DO2DI2 => di1 i
  | _ => di0 i
  end.
Definition off_fb (k : kind) (i : din) : bool :=
  match k with
  | Virt | DO1 | DO2 | DI1on => false
  | DO2DI2 | DI1off => di0 i
  | _ => di1 i
  end.

(** * Many valves and the queue of valves being closed *)

(** [to_switch_off], h:148. *)
Record plant := { vs : Z -> vst; queue : list Z }.
(** The time, the inputs of the valves and the parameters [P_V_OFF_DELAY_TIME] and
    [P_V_BOTTOM_OFF_DELAY_TIME] at a call. *)
Record env := { now : Z; ins : Z -> din; delay : Z; mdelay : Z }.

Definition upd (p : plant) (d : Z) (s : vst) : plant :=
  {| vs := fun x => if x =? d then s else vs p x; queue := queue p |}.

(** [valve::on], cpp:417-422, and [i_DO_device::on], device.cpp:319-325. *)
Definition on (k : kind) (now : Z) (i : din) (s : vst) : vst :=
  let s := wq true false (t_off s) s in
  if manual s then s else direct_on k now i s.
(** [valve::off], cpp:395-415: the new state and whether the valve enters the queue. *)
Definition off (k : kind) (now : Z) (i : din) (s : vst) : vst * bool :=
  let st := valve_state k i s in
  if negb (auto s) || (st =? V_UPPER) || (st =? V_LOWER)
  then (if manual s then s else direct_off k now i s, false)
  else if swoff s then (s, false) else (wq (auto s) true now s, true).
(** [i_DO_device::instant_off] and [set_state], device.cpp:327-341. *)
Definition instant_off (k : kind) (now : Z) (i : din) (s : vst) : vst :=
  if manual s then s else direct_off k now i s.
Definition set_state (k : kind) (now : Z) (i : din) (n : Z) (s : vst) : vst :=
  if manual s then s else direct_set_state k now i n s.

(** [valve_DO2_DI2_bistable::evaluate], cpp:730-757. *)
Definition bist_eval (w : Z) (now : Z) (i : din) (s : vst) : vst :=
  let late := p_time i <? get_delta_millisec w now (t_sw s) in
  let s := if o0 s && (di0 i || late) then w0 false s else s in
  if o1 s && (di1 i || late) then w1 false s else s.

(** The loop of [valve::evaluate], cpp:352-365, for one valve of the queue. *)
Definition due (w : Z) (k : kind) (now : Z) (i : din) (delay : Z) (s : vst) : vst :=
  if swoff s && (delay <? get_delta_millisec w now (t_off s))
  then wq false false (t_off s) (if manual s then s else direct_off k now i s)
  else s.
(** [is_switching_off_finished], cpp:327-330, 1110-1130: the answer and the new state. *)
Definition finished (w : Z) (k : kind) (now : Z) (i : din) (mdelay : Z) (s : vst) : bool * vst :=
  match k with
  | Bottom =>
      if negb (mini s) then (true, s)
      else if mdelay <? get_delta_millisec w now (t_mini s)
      then (true, direct_off Bottom now i (wmini false (t_mini s) s))
      else (false, s)
  | _ => (negb (swoff s), s)
  end.

(** cpp:367-370: [remove_if] calls the predicate once for each element, in order. *)
Fixpoint sweep (w : Z) (K : Z -> kind) (E : env) (q : list Z) (p : plant) : plant :=
  match q with
  | [] => {| vs := vs p; queue := [] |}
  | d :: r =>
      let a := finished w (K d) (now E) (ins E d) (mdelay E) (vs p d) in
      let p' := sweep w K E r (upd p d (snd a)) in
      {| vs := vs p'; queue := if fst a then queue p' else d :: queue p' |}
  end.

(** cpp:333-371; [B]: the bistable valves. *)
Definition evaluate (w : Z) (K : Z -> kind) (B : list Z) (E : env) (p : plant) : plant :=
  let p := fold_left (fun p d => upd p d (bist_eval w (now E) (ins E d) (vs p d))) B p in
  match queue p with
  | [] => p
  | q =>
      let p := fold_left (fun p d => upd p d (due w (K d) (now E) (ins E d) (delay E) (vs p d))) q p in
      sweep w K E q p
  end.

(** * Histories *)

(** Orders of the program ([On], [Off], [Instant], [Set_], [Seat]), commands of an
    operator (base.cpp:321-353: [Cmd] is the property S..., [Man] the property M...,
    which takes only 0 and 1), readings of the state and the service cycle. *)
Inductive order :=
| On (d : Z) | Off (d : Z) | Instant (d : Z) | Set_ (d n : Z) | Seat (d : Z) (upper : bool)
| Cmd (d n : Z) | Man (d n : Z) | Poll (d : Z) | Eval.

Definition step (w : Z) (K : Z -> kind) (B : list Z) (p : plant) (x : order * env) : plant :=
  let E := snd x in
  match fst x with
  | On d => upd p d (on (K d) (now E) (ins E d) (vs p d))
  | Off d =>
      let r := off (K d) (now E) (ins E d) (vs p d) in
      let p' := upd p d (fst r) in
      if snd r then {| vs := vs p'; queue := queue p' ++ [d] |} else p'
  | Instant d => upd p d (instant_off (K d) (now E) (ins E d) (vs p d))
  | Set_ d n => upd p d (set_state (K d) (now E) (ins E d) n (vs p d))
  | Seat d u => upd p d (open_seat (K d) u (now E) (ins E d) (vs p d))
  | Cmd d n => upd p d (direct_set_state (K d) (now E) (ins E d) n (vs p d))
  | Man d n =>
      if n =? 0 then upd p d (wman false (vs p d))
      else if n =? 1 then upd p d (wman true (vs p d)) else p
  | Poll d => upd p d (snd (get_state w (K d) (now E) (ins E d) (vs p d)))
  | Eval => evaluate w K B E p
  end.
Definition run (w : Z) (K : Z -> kind) (B : list Z) (p : plant) (l : list (order * env)) : plant :=
  fold_left (step w K B) l p.
Definition start (t0 : Z) : plant := {| vs := fun _ => new_vst t0; queue := [] |}.
