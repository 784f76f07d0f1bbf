(** The regulator.  Source: /repo/PAC/common/PID.cpp and PID.h.

    A [float] is a bit pattern ([FloatModel]); [unsigned long] has [w] bits
    ([TimeModel]); [MSEC_IN_SEC] is a [long] (sys/dtime.h:25).
    Simplifications: one reading of the clock per call, given as [now]; the
    parameters are their values in memory (their storage is ParamModel.v); debug
    output is left out; [q0], [q1], [q2], [dUk] are used only inside one call;
    a number sent as a [double] is a rational. *)
From Coq Require Import ZArith List Bool Lia QArith.
From Verif Require Import Base FTextModel FloatModel TimeModel.
Import ListNotations.
Open Scope Z_scope.

(** PID.h:25-48 [PARAM]. *)
Definition P_k : Z := 1.
Definition P_Ti : Z := 2.
Definition P_Td : Z := 3.
Definition P_dt : Z := 4.
Definition P_max : Z := 5.
Definition P_min : Z := 6.
Definition P_acceleration_time : Z := 7.
Definition P_is_manual_mode : Z := 8.
Definition P_U_manual : Z := 9.
Definition P_k2 : Z := 10.
Definition P_Ti2 : Z := 11.
Definition P_Td2 : Z := 12.
Definition P_out_max : Z := 13.
Definition P_out_min : Z := 14.
Definition P_is_reverse : Z := 15.
Definition P_is_zero_start : Z := 16.
Definition PARAMS : Z := 16.

(** PID.h:124-131 [STATE]. *)
Definition S_OFF : Z := 0.
Definition S_ON : Z := 1.
Definition S_STOPPING : Z := 10.

(** PID.h:132-156; [held] is [device::is_manual_mode] (base.h:760). *)
Record pid := {
  par : Z -> Z;
  uk_1 : Z; ek_1 : Z; ek_2 : Z; Uk : Z;
  start_time : Z; last_time : Z;
  prev_manual : bool;
  state : Z;
  out_value : Z; set_value : Z;
  used_par : Z;
  start_value : Z;
  held : bool }.

(** PID.h:158-159. *)
Definition MIN_OUT : Z := f_of_Z 0.
Definition MAX_OUT : Z := f_of_Z 100.
(** [float] as a condition: different from zero (not-a-number is). *)
Definition f_true (b : Z) : bool := negb (f_eq b (f_of_Z 0)).

(** base.h: assignment to a parameter in memory. *)
Definition set_par (p : pid) (i v : Z) : pid :=
  {| par := fun j => if j =? i then v else par p j; uk_1 := uk_1 p; ek_1 := ek_1 p; ek_2 := ek_2 p; Uk := Uk p;
     start_time := start_time p; last_time := last_time p; prev_manual := prev_manual p; state := state p;
     out_value := out_value p; set_value := set_value p; used_par := used_par p; start_value := start_value p;
     held := held p |}.

(** PID.cpp:354-367. *)
Definition reset (p : pid) (now : Z) : pid :=
  let v := if f_true (par p P_is_zero_start) then MIN_OUT else MAX_OUT in
  {| par := fun j => if j =? P_is_manual_mode then f_of_Z 0 else par p j;
     uk_1 := f_of_Z 0; ek_1 := f_of_Z 0; ek_2 := f_of_Z 0; Uk := v;
     start_time := now; last_time := last_time p; prev_manual := prev_manual p; state := state p;
     out_value := v; set_value := set_value p; used_par := used_par p; start_value := v; held := held p |}.

(** cpp:73-88. *)
Definition gains (p : pid) : Z * Z * Z :=
  if used_par p =? 2 then (par p P_k2, par p P_Ti2, par p P_Td2) else (par p P_k, par p P_Ti, par p P_Td).
(** cpp:98, 124: the interval in seconds. *)
Definition interval (p : pid) : Z :=
  let dt := f_div (par p P_dt) (f_of_Z 1000) in
  if f_eq dt (f_of_Z 0) then f_of_Z 1 else dt.
(** cpp:99-112. *)
Definition error (p : pid) (current sign : Z) : Z :=
  let dmin := par p P_min in
  let dmax := if f_eq (par p P_max) dmin then f_add dmin (f_of_Z 1) else par p P_max in
  f_div (f_mul (f_mul (f_of_Z sign) MAX_OUT) (f_sub (set_value p) current)) (f_sub dmax dmin).
(** cpp:129-133. *)
Definition increment (K TI TD dt ek e1 e2 : Z) : Z :=
  let q0 := f_mul K (f_add (f_of_Z 1) (f_div TD dt)) in
  let q1 := f_mul K (f_add (f_sub (f_of_Z (-1)) (f_div (f_mul (f_of_Z 2) TD) dt)) (f_div (f_mul (f_of_Z 2) dt) TI)) in
  let q2 := f_div (f_mul K TD) dt in
  f_add (f_add (f_mul q0 ek) (f_mul q1 e1)) (f_mul q2 e2).
(** cpp:134-136. *)
Definition clamp (lo hi v : Z) : Z :=
  let v := if f_lt hi v then hi else v in
  if f_lt v lo then lo else v.

(** cpp:142-161, the value after the acceleration zone; [None]: the cast of the
    parameter is undefined. *)
Definition accelerated (w : Z) (p : pid) (now v : Z) : option Z :=
  match f_to_u32 (par p P_acceleration_time) with
  | None => None
  | Some a =>
      let delta := get_delta_millisec w now (start_time p) in
      let acc := (1000 * a) mod 2 ^ w in
      Some (if delta <? acc then
              let res := f_div (f_mul MAX_OUT (f_of_Z delta)) (f_of_Z acc) in
              if f_true (par p P_is_zero_start) then
                let res := f_add (start_value p) res in if f_lt res v then res else v
              else
                let res := f_sub (start_value p) res in if f_lt v res then res else v
            else v)
  end.

(** cpp:127-164: the recalculation, once per interval. *)
Definition recalc (w : Z) (p : pid) (current sign now : Z) : option pid :=
  let '(K, TI, TD) := gains p in
  let TI := if f_eq TI (f_of_Z 0) then f_lit (1 # 10000) else TI in
  let dt := interval p in
  let ek := error p current sign in
  if f_lt (f_mul dt (f_of_Z 1000)) (f_of_Z (get_delta_millisec w now (last_time p))) then
    let u := clamp MIN_OUT MAX_OUT (f_add (uk_1 p) (increment K TI TD dt ek (ek_1 p) (ek_2 p))) in
    match accelerated w p now u with
    | None => None
    | Some v => Some
        {| par := par p; uk_1 := u; ek_1 := ek; ek_2 := ek_1 p; Uk := v;
           start_time := start_time p; last_time := now; prev_manual := prev_manual p; state := state p;
           out_value := out_value p; set_value := set_value p; used_par := used_par p;
           start_value := start_value p; held := held p |}
    end
  else Some p.

(** cpp:168-172: manual mode switched on. *)
Definition entered (p : pid) : pid :=
  if f_true (par p P_is_manual_mode) && negb (prev_manual p) then
    {| par := fun j => if j =? P_U_manual then out_value p else par p j;
       uk_1 := uk_1 p; ek_1 := ek_1 p; ek_2 := ek_2 p; Uk := Uk p;
       start_time := start_time p; last_time := last_time p; prev_manual := true; state := state p;
       out_value := out_value p; set_value := set_value p; used_par := used_par p;
       start_value := start_value p; held := held p |}
  else p.
(** cpp:175-189: manual mode switched off. *)
Definition left_manual (p : pid) (now : Z) : pid :=
  let r := reset p now in
  let m := par r P_U_manual in
  {| par := par r; uk_1 := uk_1 r; ek_1 := ek_1 r; ek_2 := ek_2 r; Uk := Uk r;
     start_time := now; last_time := last_time r; prev_manual := false; state := state r;
     out_value := m; set_value := set_value r; used_par := used_par r; start_value := m; held := held r |}.
(** cpp:208-215. *)
Definition limit (lo hi v : Z) : Z :=
  let v := if f_lt v lo then lo else v in
  if f_lt hi v then hi else v.
(** cpp:166-223. *)
Definition finish (p : pid) (now : Z) : pid :=
  let p := entered p in
  if f_eq (par p P_is_manual_mode) (f_of_Z 0) && prev_manual p then left_manual p now
  else
    let u := limit (par p P_out_min) (par p P_out_max) (Uk p) in
    let o := if f_eq (f_of_Z 1) (par p P_is_manual_mode) then par p P_U_manual else u in
    {| par := par p; uk_1 := uk_1 p; ek_1 := ek_1 p; ek_2 := ek_2 p; Uk := u;
       start_time := start_time p; last_time := last_time p; prev_manual := prev_manual p; state := state p;
       out_value := o; set_value := set_value p; used_par := used_par p;
       start_value := start_value p; held := held p |}.

(** cpp:65-223 [eval]: the regulator and the result. *)
Definition eval (w : Z) (p : pid) (current sign now : Z) : option (pid * Z) :=
  if state p =? S_OFF then
    Some (p, if f_true (par p P_is_zero_start) then MIN_OUT else MAX_OUT)
  else
    match recalc w p current sign now with
    | None => None
    | Some q => let q := finish q now in Some (q, out_value q)
    end.

(** Assignments to the fields of PID.h:132-156. *)
Definition with_state (p : pid) (s : Z) : pid :=
  {| par := par p; uk_1 := uk_1 p; ek_1 := ek_1 p; ek_2 := ek_2 p; Uk := Uk p;
     start_time := start_time p; last_time := last_time p; prev_manual := prev_manual p; state := s;
     out_value := out_value p; set_value := set_value p; used_par := used_par p;
     start_value := start_value p; held := held p |}.
Definition with_times (p : pid) (now : Z) : pid :=
  {| par := par p; uk_1 := uk_1 p; ek_1 := ek_1 p; ek_2 := ek_2 p; Uk := Uk p;
     start_time := now; last_time := now; prev_manual := prev_manual p; state := state p;
     out_value := out_value p; set_value := set_value p; used_par := used_par p;
     start_value := start_value p; held := held p |}.
Definition with_out (p : pid) (o : Z) : pid :=
  {| par := par p; uk_1 := uk_1 p; ek_1 := ek_1 p; ek_2 := ek_2 p; Uk := Uk p;
     start_time := start_time p; last_time := last_time p; prev_manual := prev_manual p; state := state p;
     out_value := o; set_value := set_value p; used_par := used_par p;
     start_value := start_value p; held := held p |}.
Definition with_set (p : pid) (v : Z) : pid :=
  {| par := par p; uk_1 := uk_1 p; ek_1 := ek_1 p; ek_2 := ek_2 p; Uk := Uk p;
     start_time := start_time p; last_time := last_time p; prev_manual := prev_manual p; state := state p;
     out_value := out_value p; set_value := v; used_par := used_par p;
     start_value := start_value p; held := held p |}.
Definition with_used (p : pid) (n : Z) : pid :=
  {| par := par p; uk_1 := uk_1 p; ek_1 := ek_1 p; ek_2 := ek_2 p; Uk := Uk p;
     start_time := start_time p; last_time := last_time p; prev_manual := prev_manual p; state := state p;
     out_value := out_value p; set_value := set_value p; used_par := n;
     start_value := start_value p; held := held p |}.
Definition with_held (p : pid) (b : bool) : pid :=
  {| par := par p; uk_1 := uk_1 p; ek_1 := ek_1 p; ek_2 := ek_2 p; Uk := Uk p;
     start_time := start_time p; last_time := last_time p; prev_manual := prev_manual p; state := state p;
     out_value := out_value p; set_value := set_value p; used_par := used_par p;
     start_value := start_value p; held := b |}.

(** What the actuator is told ([AOff], [AValue]) or the program gets ([AResult]). *)
Inductive act := ANone | AOff | AValue (v : Z) | AResult (v : Z).

(** cpp:225-238. *)
Definition direct_on (p : pid) (now : Z) : pid :=
  if state p =? S_ON then p
  else with_state (if state p =? S_OFF then reset (with_times p now) now else p) S_ON.
(** cpp:258-273. *)
Definition direct_off (p : pid) (now : Z) : pid * act :=
  if state p =? S_STOPPING then (with_state (reset p now) S_OFF, AOff)
  else if state p =? S_ON then (with_state p S_STOPPING, ANone)
  else (p, ANone).
(** cpp:275-301, with a sensor that shows [current]. *)
Definition direct_set_value (w : Z) (p : pid) (v current now : Z) : option (pid * act) :=
  let p := with_set p v in
  let sign := if f_lt (f_of_Z 0) (par p P_is_reverse) then -1 else 1 in
  match eval w p current sign now with
  | None => None
  | Some (q, o) => Some (with_out q o, if state q =? S_OFF then AOff else AValue o)
  end.

(** What happens to a regulator.  [PPar] is a parameter command of the new kind
    (base.cpp:320-359, 63-86) or a write by the program; [POldPar] of the old kind
    (cpp:395-414). *)
Inductive pev :=
| POn (not_zero_start : option bool) (now : Z)   (* cpp:59-63 or i_DO_device::on *)
| POff (now : Z)                                 (* device::off, base.cpp:230-236 *)
| PState (n now : Z)                             (* command ST, cpp:240-255 *)
| PIo (now : Z)                                  (* cpp:498-504 *)
| PValue (v current now : Z)                     (* set_value, device.cpp:345-351 *)
| PCmdValue (v current now : Z)                  (* command V *)
| PEval (current sign now : Z)                   (* eval called by the program *)
| PSet (v : Z)                                   (* cpp:303-306, 380-384 *)
| POldOut (v : Z)                                (* cpp:386-390 *)
| PUsed (n : Z)                                  (* cpp:308-319 *)
| PPar (i v : Z)
| POldPar (i : Z) (v : Q)
| PHold (b : bool).                              (* command M *)

(** One event. *)
Definition step (w : Z) (p : pid) (e : pev) : option (pid * act) :=
  match e with
  | POn z now =>
      let p := match z with
               | Some b => set_par p P_is_zero_start (f_of_Z (if b then 0 else 1))
               | None => p end in
      Some (if held p then p else direct_on p now, ANone)
  | POff now => Some (if held p then (p, ANone) else direct_off p now)
  | PState n now =>
      Some (if n =? S_OFF then direct_off p now
            else if n =? S_ON then (direct_on p now, ANone) else (p, ANone))
  | PIo now =>
      Some (if (state p =? S_STOPPING) && negb (held p) then direct_off p now else (p, ANone))
  | PValue v current now =>
      if held p then Some (p, ANone) else direct_set_value w p v current now
  | PCmdValue v current now => direct_set_value w p v current now
  | PEval current sign now =>
      match eval w p current sign now with
      | None => None
      | Some (q, o) => Some (q, AResult o)
      end
  | PSet v => Some (with_set p v, ANone)
  | POldOut v => Some (with_out p v, ANone)
  | PUsed n => Some (with_used p (if (n <? 1) || (2 <? n) then 1 else n), ANone)
  | PPar i v => Some (if (1 <=? i) && (i <=? PARAMS) then set_par p i v else p, ANone)
  | POldPar i v =>
      if (1 <=? i) && (i <=? PARAMS) then
        let v := if (i =? P_out_min) && negb (Qle_bool 0 v) then 0%Q else v in
        let v := if (i =? P_out_max) && negb (Qle_bool v 100) then 100%Q else v in
        let above a := f_finite a && negb (Qle_bool v (f_val a)) || f_isinf a && f_neg a in
        let below a := f_finite a && negb (Qle_bool (f_val a) v) || f_isinf a && negb (f_neg a) in
        if (i =? P_out_min) && above (par p P_out_max) || (i =? P_out_max) && below (par p P_out_min)
        then Some (p, ANone)
        else Some (set_par p i (f_round false v), ANone)
      else Some (p, ANone)
  | PHold b => Some (with_held p b, ANone)
  end.

(** A history of events. *)
Fixpoint run (w : Z) (p : pid) (h : list pev) : option (pid * list act) :=
  match h with
  | [] => Some (p, [])
  | e :: h' =>
      match step w p e with
      | None => None
      | Some (q, a) => match run w q h' with None => None | Some (r, l) => Some (r, a :: l) end
      end
  end.

(** cpp:10-53: a new regulator with the stored parameters. *)
Definition init (ps : Z -> Z) (now : Z) : pid :=
  {| par := ps; uk_1 := f_of_Z 0; ek_1 := f_of_Z 0; ek_2 := f_of_Z 0; Uk := f_of_Z 0;
     start_time := now; last_time := now; prev_manual := false; state := S_OFF;
     out_value := f_of_Z 0; set_value := f_of_Z 0; used_par := 1; start_value := f_of_Z 0; held := false |}.
