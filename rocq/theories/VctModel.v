(** A virtual counter: its readings are given by the program.

    Source: /repo/PAC/common/device/base.cpp 530-685 (class [virtual_counter]), base.h
    859-913, 166-169 (states), base.cpp 211-243, 321-353 (class [device]); device.cpp
    319-351 (orders that respect manual mode).

    A [float] is a bit pattern; numbers of commands are those of [DevModel].
    Simplifications: the text and the constants [get_pump_dt], [get_min_flow] are left
    out; the counters of a day do nothing (base.cpp 677-685). *)
From Coq Require Import ZArith List Bool Lia QArith.
From Verif Require Import Base FTextModel FloatModel DevModel.
Import ListNotations.
Open Scope Z_scope.

(** base.h 904-913 and the fields of [device]. *)
Record vct := {
  v_state : Z; v_value : Z; v_flow : Z; v_last : Z; v_abs : Z; v_abs_last : Z; v_first : bool; v_manual : bool }.
(** base.h 166-169. *)
Definition S_WORK : Z := 1.
Definition S_PAUSE : Z := 2.
(** base.cpp 530-534. *)
Definition v_new : vct :=
  {| v_state := S_WORK; v_value := 0; v_flow := 0; v_last := 0; v_abs := 0; v_abs_last := 0; v_first := true; v_manual := false |}.

(** Writes to single fields (the plain assignments of base.cpp 541-582, 602-631). *)
Definition put_state (c : vct) (s : Z) : vct :=
  {| v_state := s; v_value := v_value c; v_flow := v_flow c; v_last := v_last c; v_abs := v_abs c; v_abs_last := v_abs_last c;
     v_first := v_first c; v_manual := v_manual c |}.
Definition put_value (c : vct) (x : Z) : vct :=
  {| v_state := v_state c; v_value := x; v_flow := v_flow c; v_last := v_last c; v_abs := v_abs c; v_abs_last := v_abs_last c;
     v_first := v_first c; v_manual := v_manual c |}.
Definition put_abs (c : vct) (a f : Z) : vct :=
  {| v_state := v_state c; v_value := v_value c; v_flow := f; v_last := v_last c; v_abs := a; v_abs_last := v_abs_last c;
     v_first := v_first c; v_manual := v_manual c |}.
Definition put_manual (c : vct) (b : bool) : vct :=
  {| v_state := v_state c; v_value := v_value c; v_flow := v_flow c; v_last := v_last c; v_abs := v_abs c; v_abs_last := v_abs_last c;
     v_first := v_first c; v_manual := b |}.

(** base.cpp 551-567: all three branches give this state. *)
Definition v_direct_state (c : vct) (n : Z) : vct :=
  if n =? S_WORK then put_state c S_WORK else if n =? S_PAUSE then put_state c S_PAUSE else put_state c n.
(** base.cpp 633-657 [eval]. *)
Definition v_eval (c : vct) (rv av fl : Z) : vct :=
  let value := if negb (v_first c) && (v_last c <? rv) then f_add (v_value c) (f_of_Z (rv - v_last c)) else v_value c in
  let a := if negb (v_first c) && (v_abs_last c <? av) then u32 (v_abs c + u32 (av - v_abs_last c)) else v_abs c in
  {| v_state := v_state c; v_value := value; v_flow := fl; v_last := rv; v_abs := a; v_abs_last := av; v_first := false; v_manual := v_manual c |}.
(** base.cpp 626-631 [set]. *)
Definition v_set (c : vct) (nv na fl : Z) : vct := put_abs (put_value c (f_of_Z nv)) na fl.
(** Conversion of a command to [u_int]; undefined if it does not fit. *)
Definition to_uint (d : dbl) : option Z :=
  match d with
  | DFin _ q => let n := trunc q in if (0 <=? n) && (n <? 2 ^ 32) then Some n else None
  | _ => None
  end.
(** base.cpp 607-624, 321-353 [set_cmd]; the counter has no parameters (68-88). *)
Definition v_cmd (c : vct) (p : text) (v : dbl) : option (vct * Z) :=
  match p with
  | 65 :: _ => match to_uint v with Some n => Some (put_abs c n (v_flow c), 0) | None => None end     (* A *)
  | 70 :: _ => Some (put_abs c (v_abs c) (to_float v), 0)                                             (* F *)
  | 83 :: _ => match to_int v with Some n => Some (v_direct_state c n, 0) | None => None end           (* S *)
  | 86 :: _ => Some (put_value c (to_float v), 0)                                                     (* V *)
  | 77 :: _ => Some (if equals v 0 then put_manual c false else if equals v 1 then put_manual c true else c, 0) (* M *)
  | _ => Some (c, 1)
  end.
(** base.cpp 541-549 [direct_on], [direct_off]; 579-582 [reset]; device.cpp 319-351. *)
Definition v_obey (c : vct) (o : order) : vct :=
  if v_manual c then c
  else match o with
       | OOn => put_state c S_WORK
       | OOff | OInstantOff => put_value c 0
       | OSetState n => v_direct_state c n
       | OSetValue x => put_value c x
       end.
(** base.cpp 584-587 [get_quantity]; [None]: undefined. *)
Definition v_quantity (c : vct) : option Z := f_to_u32 (v_value c).

Inductive vev :=
| VEval (rv av fl : Z) | VSet (nv na fl : Z) | VPause | VStart | VReset | VAbsReset | VOrder (o : order) | VCmd (p : text) (v : dbl).
(** base.cpp 569-582, 602-605 for the plain calls. *)
Definition v_step (c : vct) (e : vev) : option vct :=
  match e with
  | VEval rv av fl => Some (v_eval c rv av fl)
  | VSet nv na fl => Some (v_set c nv na fl)
  | VPause => Some (put_state c S_PAUSE)
  | VStart => Some (put_state c S_WORK)
  | VReset => Some (put_value c 0)
  | VAbsReset => Some (put_abs c 0 (v_flow c))
  | VOrder o => Some (v_obey c o)
  | VCmd p v => match v_cmd c p v with Some (c', _) => Some c' | None => None end
  end.
(** A sequence of calls from the main cycle, the program and the server. *)
Fixpoint v_run (c : vct) (h : list vev) : option vct :=
  match h with [] => Some c | e :: h' => match v_step c e with Some c' => v_run c' h' | None => None end end.
