(** The regulators of a washing line, the pump and the steam valve they control, and
    the average of a concentration.

    Source: /repo/PAC/common/cip_tech_def.cpp 7542-7793 (class MSAPID), 2480-2599
    ([EvalPIDS]), 7797-7831 (class TSav), with cip_tech_def.h 438-542.

    A [float] is a bit pattern ([FloatModel]); [unsigned long] has [w] bits
    ([TimeModel]).  Simplifications: one reading of the clock per call, given as
    [now]; debug output is left out; the parameters of one regulator are numbered from
    its first one, the limit of the output and the task follow as 11 and 12 (they are
    different cells of the same array); [q0], [q1], [q2], [dUk] are used only inside
    one call; [delta_sign] is 1 as in every call. *)
From Coq Require Import ZArith List Bool Lia QArith.
From Verif Require Import Base FTextModel FloatModel TimeModel.
Import ListNotations.
Open Scope Z_scope.

(** cip_tech_def.h:493-506 [PARAM]. *)
Definition P_Z : Z := 0.
Definition P_k : Z := 1.
Definition P_Ti : Z := 2.
Definition P_Td : Z := 3.
Definition P_dt : Z := 4.
Definition P_max : Z := 5.
Definition P_min : Z := 6.
Definition P_acceleration_time : Z := 7.
Definition P_is_manual_mode : Z := 8.
Definition P_U_manual : Z := 9.
Definition P_U : Z := 10.
(** cip_tech_def.h:447-449: the cells named by [out_max_recalc_offset] and
    [task_par_offset]. *)
Definition P_limit : Z := 11.
Definition P_task : Z := 12.

(** cip_tech_def.h:444, 467-490; [on]: state is STATE_ON. *)
Record msa := {
  par : Z -> Z;
  uk_1 : Z; ek_1 : Z; ek_2 : Z; Uk : Z;
  start_time : Z; last_time : Z; last_on : Z;
  prev_manual : bool; down : bool; on : bool;
  start_value : Z }.

(** A [float] as a condition: different from zero. *)
Definition f_true (b : Z) : bool := negb (f_eq b (f_of_Z 0)).
(** Assignment to one parameter. *)
Definition put (f : Z -> Z) (i v : Z) : Z -> Z := fun j => if j =? i then v else f j.
Definition with_par (m : msa) (f : Z -> Z) : msa :=
  {| par := f; uk_1 := uk_1 m; ek_1 := ek_1 m; ek_2 := ek_2 m; Uk := Uk m; start_time := start_time m;
     last_time := last_time m; last_on := last_on m; prev_manual := prev_manual m; down := down m; on := on m;
     start_value := start_value m |}.

(** cpp:7542-7567: a new regulator. *)
Definition create (ps : Z -> Z) (now : Z) : msa :=
  {| par := ps; uk_1 := f_of_Z 0; ek_1 := f_of_Z 0; ek_2 := f_of_Z 0; Uk := f_of_Z 0; start_time := now;
     last_time := now; last_on := now; prev_manual := false; down := false; on := false; start_value := f_of_Z 0 |}.

(** cpp:7623-7632 [pid_on]. *)
Definition pid_on (m : msa) (accel : bool) (now : Z) : msa :=
  if on m then m
  else {| par := par m; uk_1 := uk_1 m; ek_1 := ek_1 m; ek_2 := ek_2 m; Uk := Uk m; start_time := now;
          last_time := now; last_on := last_on m; prev_manual := prev_manual m; down := accel; on := true;
          start_value := start_value m |}.
(** cpp:7634-7640 [pid_off]. *)
Definition pid_off (m : msa) : msa :=
  {| par := par m; uk_1 := uk_1 m; ek_1 := ek_1 m; ek_2 := ek_2 m; Uk := Uk m; start_time := start_time m;
     last_time := last_time m; last_on := last_on m; prev_manual := prev_manual m; down := down m; on := false;
     start_value := start_value m |}.
(** cpp:7642-7658 [pid_reset]. *)
Definition pid_reset (m : msa) (now : Z) : msa :=
  {| par := put (put (par m) P_U (f_of_Z 0)) P_is_manual_mode (f_of_Z 0);
     uk_1 := f_of_Z 0; ek_1 := f_of_Z 0; ek_2 := f_of_Z 0;
     Uk := if down m then f_of_Z 100 else f_of_Z 0; start_time := now;
     last_time := last_time m; last_on := last_on m; prev_manual := prev_manual m; down := down m; on := on m;
     start_value := start_value m |}.
(** cpp:7604-7610 [reset]. *)
Definition reset (w : Z) (m : msa) (now : Z) : msa :=
  if 3000 <? get_delta_millisec w now (last_on m) then pid_reset m now else m.

(** cpp:7672, 7700: the interval in seconds. *)
Definition interval (f : Z -> Z) : Z :=
  let dt := f_div (f P_dt) (f_of_Z 1000) in if f_eq dt (f_of_Z 0) then f_of_Z 1 else dt.
(** cpp:7673-7686. *)
Definition error (f : Z -> Z) (current : Z) : Z :=
  let dmin := f P_min in
  let dmax := if f_eq (f P_max) dmin then f_add dmin (f_of_Z 1) else f P_max in
  f_div (f_mul (f_of_Z 100) (f_sub (f P_Z) current)) (f_sub dmax dmin).
(** cpp:7705-7709. *)
Definition increment (K TI TD dt ek e1 e2 : Z) : Z :=
  let q0 := f_mul K (f_add (f_of_Z 1) (f_div TD dt)) in
  let q1 := f_mul K (f_add (f_sub (f_of_Z (-1)) (f_div (f_mul (f_of_Z 2) TD) dt)) (f_div (f_mul (f_of_Z 2) dt) TI)) in
  let q2 := f_div (f_mul K TD) dt in
  f_add (f_add (f_mul q0 ek) (f_mul q1 e1)) (f_mul q2 e2).
(** cpp:7711-7712. *)
Definition clamp (v : Z) : Z :=
  let v := if f_lt (f_of_Z 100) v then f_of_Z 100 else v in
  if f_lt v (f_of_Z 0) then f_of_Z 0 else v.
(** cpp:7719-7723, 7769-7783 [acceleration]: the value after the zone of acceleration. *)
Definition accelerated (w : Z) (m : msa) (now v : Z) : Z :=
  let a := par m P_acceleration_time in
  let delta := f_of_Z (get_delta_millisec w now (start_time m)) in
  if f_lt delta (f_mul a (f_of_Z 1000)) then
    let res := f_div (f_mul (f_of_Z 100) (f_div delta (f_of_Z 1000))) a in
    if down m then
      let res := f_add (f_sub (f_of_Z 100) res) (start_value m) in if f_lt v res then res else v
    else if f_lt res v then f_add res (start_value m) else v
  else v.
(** cpp:7700-7727: the recalculation, once per interval. *)
Definition recalc (w : Z) (m : msa) (current now : Z) : msa :=
  let f := par m in
  let TI := if f_eq (f P_Ti) (f_of_Z 0) then f_lit (1 # 10000) else f P_Ti in
  let dt := interval f in
  let ek := error f current in
  if f_lt (f_mul dt (f_of_Z 1000)) (f_of_Z (get_delta_millisec w now (last_time m))) then
    let v := clamp (f_add (uk_1 m) (increment (f P_k) TI (f P_Td) dt ek (ek_1 m) (ek_2 m))) in
    {| par := par m; uk_1 := v; ek_1 := ek; ek_2 := ek_1 m; Uk := accelerated w m now v; start_time := start_time m;
       last_time := now; last_on := last_on m; prev_manual := prev_manual m; down := down m; on := on m;
       start_value := start_value m |}
  else m.
(** cpp:7731-7735: manual mode switched on. *)
Definition entered (m : msa) : msa :=
  if f_true (par m P_is_manual_mode) && negb (prev_manual m) then
    {| par := put (par m) P_U_manual (par m P_U); uk_1 := uk_1 m; ek_1 := ek_1 m; ek_2 := ek_2 m; Uk := Uk m;
       start_time := start_time m; last_time := last_time m; last_on := last_on m; prev_manual := true; down := down m;
       on := on m; start_value := start_value m |}
  else m.
(** cpp:7738-7750: manual mode switched off. *)
Definition left_manual (w : Z) (m : msa) (now : Z) : msa :=
  let r := reset w m now in
  {| par := par r; uk_1 := uk_1 r; ek_1 := ek_1 r; ek_2 := ek_2 r; Uk := Uk r; start_time := now;
     last_time := last_time r; last_on := last_on r; prev_manual := false; down := down r; on := on r;
     start_value := par r P_U_manual |}.
(** cpp:7753-7757: the share of the output that is allowed. *)
Definition share (f : Z -> Z) (v : Z) : Z :=
  if f_le (f_lit (1 # 10)) (f P_limit) then f_div (f_mul v (f P_limit)) (f_of_Z 100) else v.
(** cpp:7660-7767 [pid_eval]. *)
Definition pid_eval (w : Z) (m : msa) (current now : Z) : msa * Z :=
  if negb (on m) then (m, if down m then f_of_Z 100 else f_of_Z 0)
  else
    let m := entered (recalc w m current now) in
    if f_eq (par m P_is_manual_mode) (f_of_Z 0) && prev_manual m then
      let r := left_manual w m now in (r, par r P_U_manual)
    else
      let v := share (par m) (Uk m) in
      let m := with_par m (put (par m) P_U v) in
      (m, if f_eq (f_of_Z 1) (par m P_is_manual_mode) then par m P_U_manual else v).

(** cpp:7573, 7590: the time of the last work. *)
Definition touch (m : msa) (now : Z) : msa :=
  {| par := par m; uk_1 := uk_1 m; ek_1 := ek_1 m; ek_2 := ek_2 m; Uk := Uk m; start_time := start_time m;
     last_time := last_time m; last_on := now; prev_manual := prev_manual m; down := down m; on := on m;
     start_value := start_value m |}.
(** cpp:7569-7584 [eval()]: the regulator and what is written to the output. *)
Definition eval (w : Z) (m : msa) (current now : Z) : msa * option Z :=
  if on m then
    let m := touch m now in
    let m := with_par m (put (par m) P_Z (par m P_task)) in
    let (r, o) := pid_eval w m current now in (r, Some o)
  else (m, None).
(** cpp:7586-7602 [eval( inputvalue, task )]. *)
Definition eval_task (w : Z) (m : msa) (current task now : Z) : msa * option Z :=
  if on m then
    let m := touch m now in
    let m := with_par m (put (put (par m) P_Z task) P_task task) in
    if f_eq (f_of_Z 0) task then (m, Some (f_of_Z 0))
    else let (r, o) := pid_eval w m current now in (r, Some o)
  else (m, None).
(** cpp:7617-7621 [off]. *)
Definition off (m : msa) : msa * option Z := (pid_off m, Some (f_of_Z 0)).

(** What happens to a regulator; [MPar]: a command or the program writes a parameter. *)
Inductive mev :=
| MOn (accel : bool) (now : Z)            (* cpp:7612-7615 *)
| MOff
| MReset (now : Z)
| MPidReset (now : Z)
| MEval (current now : Z)
| MTask (current task now : Z)
| MPar (i v : Z).
(** One event, with what is written to the output. *)
Definition mstep (w : Z) (m : msa) (e : mev) : msa * option Z :=
  match e with
  | MOn a now => (pid_on m a now, None)
  | MOff => off m
  | MReset now => (reset w m now, None)
  | MPidReset now => (pid_reset m now, None)
  | MEval c now => eval w m c now
  | MTask c t now => eval_task w m c t now
  | MPar i v => (with_par m (put (par m) i v), None)
  end.
(** A history of events. *)
Fixpoint mrun (w : Z) (m : msa) (h : list mev) : msa * list (option Z) :=
  match h with
  | [] => (m, [])
  | e :: h' => let (m1, o) := mstep w m e in let (m2, l) := mrun w m1 h' in (m2, o :: l)
  end.

(** * The pump and the steam valve *)

(** What the program writes. *)
Inductive act :=
| APumpOn | APumpOff | APumpValue (v : Z)      (* NP *)
| AFreq (v : Z)                                (* the output of the regulator of the flow *)
| AHeat (v : Z)                                (* ao *)
| ASteamOn | ASteamOff                         (* V13 *)
| AStopped (b : bool)                          (* dev_upr_pump_stopped *)
| AFlowTask (v : Z) | ATempTask (v : Z).       (* dev_ao_flow_task, dev_ao_temp_task *)

(** What the line has and reads in one call.  [None]: the device is not there.
    [i_heat_shown], [i_pump_shown]: what the output of the heating and the pump report
    after they were written (a device in manual mode ignores what is written). *)
Record inp := {
  i_now : Z;
  i_temp : Z; i_flow : Z; i_no_flow : Z;
  i_override : bool;                 (* pidf_override *)
  i_frequency : option Z;            (* dev_ai_pump_frequency *)
  i_feedback : option Z;             (* dev_ai_pump_feedback *)
  i_pressure : option Z;             (* PRESSURE *)
  i_pressure_task : Z;               (* P_PRESSURE_CONTROL *)
  i_flow_par : Z;                    (* P_FLOW *)
  i_pause : option bool;             (* dev_os_object_pause *)
  i_can_run : option bool;           (* dev_os_pump_can_run *)
  i_has_stopped : bool;              (* dev_upr_pump_stopped is there *)
  i_has_flow_task : bool; i_has_temp_task : bool;
  i_wanted : bool;                   (* nplaststate, written by the steps *)
  i_heat_shown : Z; i_pump_shown : Z }.

(** The state kept between the calls: the regulators of the heating and of the flow,
    [flagnplaststate] and [steam_valve_delay]. *)
Record line := { heat : msa; flow : msa; withdrawn : bool; steam_delay : Z }.

Definition write (f : Z -> act) (o : option Z) : list act := match o with Some v => [f v] | None => [] end.

(** cpp:2483-2521: the regulator of the flow. *)
Definition flow_part (w : Z) (l : line) (i : inp) : msa * list act :=
  let go r := (fst r, write AFreq (snd r)) in
  (* with P_ZAD_FLOW = P_FLOW afterwards, lines 2501, 2513 *)
  let shown r := (with_par (fst r) (put (par (fst r)) P_task (i_flow_par i)), snd r) in
  if i_override i then (flow l, [])
  else match i_frequency i, i_feedback i with
       | Some f, Some b => go (eval_task w (flow l) b f (i_now i))
       | Some f, None => (flow l, [APumpValue f])
       | None, Some b =>
           match i_pressure i with
           | Some p => if f_lt (f_of_Z 0) (i_pressure_task i)
                       then shown (go (eval_task w (flow l) p b (i_now i)))
                       else go (eval_task w (flow l) (i_flow i) b (i_now i))
           | None => go (eval_task w (flow l) (i_flow i) b (i_now i))
           end
       | None, None =>
           match i_pressure i with
           | Some p => if f_lt (f_of_Z 0) (i_pressure_task i)
                       then shown (go (eval_task w (flow l) p (i_pressure_task i) (i_now i)))
                       else go (eval w (flow l) (i_flow i) (i_now i))
           | None => go (eval w (flow l) (i_flow i) (i_now i))
           end
       end.

(** cpp:2524-2533: the pump may run. *)
Definition may_run (i : inp) : bool :=
  match i_can_run i with Some false => false | _ => true end &&
  match i_pause i with Some true => false | _ => true end.
(** cpp:2523: one of the two signals is there. *)
Definition has_signal (i : inp) : bool :=
  match i_pause i, i_can_run i with None, None => false | _, _ => true end.
(** cpp:2523-2582. *)
Definition permission (l : line) (i : inp) : line * list act :=
  if negb (has_signal i) then (l, [])
  else
    let '(l', a) :=
      if negb (may_run i) then
        ({| heat := heat l; flow := flow l; withdrawn := true; steam_delay := steam_delay l |},
         [APumpOff; APumpValue (f_of_Z 0); AHeat (f_of_Z 0)] ++
         if i_has_stopped i then [AStopped (f_lt (i_flow i) (i_no_flow i))] else [])
      else
        let s := if i_has_stopped i then [AStopped false] else [] in
        if withdrawn l && i_wanted i then
          ({| heat := pid_reset (heat l) (i_now i); flow := pid_reset (flow l) (i_now i); withdrawn := false;
              steam_delay := steam_delay l |}, s ++ [APumpOn])
        else (l, s) in
    (l', a ++ (if i_has_flow_task i then [AFlowTask (par (flow l') P_task)] else [])
           ++ (if i_has_temp_task i then [ATempTask (par (heat l') P_task)] else [])).

(** cpp:2586. *)
Definition steam_wanted (l : line) (i : inp) : bool :=
  f_lt (f_of_Z 1) (i_heat_shown i) && on (heat l) && f_lt (i_no_flow i) (i_flow i) && (i_pump_shown i =? 1).
(** cip_tech_def.h:31. *)
Definition STEAM_VALVE_MIN_DELAY : Z := 1200.
(** cpp:2585-2597. *)
Definition steam (w : Z) (l : line) (i : inp) : line * list act :=
  if steam_wanted l i then
    (l, if STEAM_VALVE_MIN_DELAY <? get_delta_millisec w (i_now i) (steam_delay l) then [ASteamOn] else [])
  else ({| heat := heat l; flow := flow l; withdrawn := withdrawn l; steam_delay := i_now i |}, [ASteamOff]).

(** cpp:2480-2599 [EvalPIDS]. *)
Definition eval_pids (w : Z) (l : line) (i : inp) : line * list act :=
  let (h, o) := eval w (heat l) (i_temp i) (i_now i) in
  let a1 := write AHeat o in
  let (f, a2) := flow_part w l i in
  let (l2, a3) := permission {| heat := h; flow := f; withdrawn := withdrawn l; steam_delay := steam_delay l |} i in
  let (l3, a4) := steam w l2 i in
  (l3, a1 ++ a2 ++ a3 ++ a4).

(** What happens to a line: a call of [EvalPIDS], or another part of the program uses
    the regulators, or opens (cpp:3658) or closes (cpp:1530, 4565) the steam valve. *)
Inductive lev :=
| LCall (i : inp)
| LHeat (e : mev)
| LFlow (e : mev)
| LSteam (b : bool).
Definition lstep (w : Z) (l : line) (e : lev) : line * list act :=
  match e with
  | LCall i => eval_pids w l i
  | LHeat e => let (m, o) := mstep w (heat l) e in
      ({| heat := m; flow := flow l; withdrawn := withdrawn l; steam_delay := steam_delay l |}, write AHeat o)
  | LFlow e => let (m, o) := mstep w (flow l) e in
      ({| heat := heat l; flow := m; withdrawn := withdrawn l; steam_delay := steam_delay l |}, write AFreq o)
  | LSteam b => (l, [if b then ASteamOn else ASteamOff])
  end.
Fixpoint lrun (w : Z) (l : line) (h : list lev) : line * list (list act) :=
  match h with
  | [] => (l, [])
  | e :: h' => let (l1, a) := lstep w l e in let (l2, r) := lrun w l1 h' in (l2, a :: r)
  end.
(** cpp:125-143, 995-996: a new line. *)
Definition new_line (hp fp : Z -> Z) (now : Z) : line :=
  {| heat := create hp now; flow := create fp now; withdrawn := false; steam_delay := now |}.

(** * The average *)

(** cip_tech_def.h:530-542. *)
Record sav := { cn : Z; n : Z; integrator : Z }.
(** cpp:7797-7802, 7821-7826. *)
Definition cleared : sav := {| cn := f_of_Z 0; n := 0; integrator := 0 |}.
(** cpp:7813-7817: the body of the loop. *)
Definition add_one (w : Z) (val : Z) (s : sav) : sav :=
  let k := (n s + 1) mod 2 ^ w in
  {| cn := f_div (f_add (f_mul (cn s) (f_of_Z ((k - 1) mod 2 ^ w))) val) (f_of_Z k); n := k; integrator := integrator s |}.
Fixpoint repeat_add (w : Z) (val : Z) (k : nat) (s : sav) : sav :=
  match k with O => s | S k' => repeat_add w val k' (add_one w val s) end.
(** cpp:7806-7819 [Add]. *)
Definition add (w : Z) (s : sav) (val integr : Z) : sav :=
  if integrator s <? integr then
    repeat_add w val (Z.to_nat (integr - integrator s)) {| cn := cn s; n := n s; integrator := integr |}
  else s.
(** A history of calls of [Add]. *)
Fixpoint adds (w : Z) (s : sav) (h : list (Z * Z)) : sav :=
  match h with [] => s | (v, q) :: h' => adds w (add w s v q) h' end.
