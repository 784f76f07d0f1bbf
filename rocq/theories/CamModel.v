(** A camera with one output and three inputs.

    Source: /repo/PAC/common/device/device.cpp 160-303 (classes [camera], [camera_DI2],
    [camera_DI3]), device.h 1389-1465; base.cpp 321-353 (commands), device.cpp 319-351
    (orders that respect manual mode), /repo/PAC/linux/l_dtime.cpp 35-43.

    Inputs and the clock are arguments.  [get_millisec] has [w] bits, the time kept by
    the camera ([u_int]) 32.  Simplifications: not in emulation; the channels exist; the
    text for the server is in [DevModel]; one parameter, [P_READY_TIME]. *)
From Coq Require Import ZArith List Bool Lia QArith.
From Verif Require Import Base TimeModel FTextModel FloatModel DevModel.
Import ListNotations.
Open Scope Z_scope.

(** device.h 1412-1464 and the fields of [device]; [c_out]: the output. *)
Record cam := {
  c_out : Z; c_ready : bool; c_result : Z; c_result2 : Z; c_start : Z; c_time : Z; c_state : Z; c_value : Z; c_manual : bool }.
(** device.cpp 160-166, 243-247, 276-279, device.h 1440: a new camera at time [now]; [time]: the
    parameter in memory. *)
Definition c_new (now time : Z) : cam :=
  {| c_out := 0; c_ready := false; c_result := 0; c_result2 := 0; c_start := u32 now; c_time := time; c_state := 0; c_value := 0; c_manual := false |}.
(** The writes to the output channel, device.cpp 182, 189. *)
Definition out_to (c : cam) (o : Z) : cam :=
  {| c_out := o; c_ready := c_ready c; c_result := c_result c; c_result2 := c_result2 c; c_start := c_start c; c_time := c_time c;
     c_state := c_state c; c_value := c_value c; c_manual := c_manual c |}.
(** device.cpp 168-176 [direct_set_state]; 178-190 [direct_off], [direct_on]. *)
Definition c_direct_off (c : cam) : cam := out_to c 0.
Definition c_direct_on (c : cam) : cam := out_to c 1.
Definition c_direct_state (c : cam) (n : Z) : cam := if n =? 0 then c_direct_off c else c_direct_on c.
(** device.cpp 192-200, 291-303 [get_result]; [r1]: the first input now. *)
Definition c_get_result (c : cam) (n r1 : Z) : cam * Z :=
  if n =? 1 then
    ({| c_out := c_out c; c_ready := c_ready c; c_result := r1; c_result2 := c_result2 c; c_start := c_start c; c_time := c_time c;
        c_state := c_state c; c_value := c_value c; c_manual := c_manual c |}, r1)
  else if n =? 2 then (c, c_result2 c)
  else (c, 0).
(** device.cpp 249-273, 281-289 [evaluate_io] at time [now] with inputs [i] (ready) and
    [r2] (second result). *)
Definition c_evaluate (w : Z) (c : cam) (now i r2 : Z) : cam :=
  let o := c_out c in
  let c1 := if i =? 1 then
              c_direct_state {| c_out := c_out c; c_ready := c_ready c; c_result := c_result c; c_result2 := c_result2 c; c_start := u32 now;
                                c_time := c_time c; c_state := c_state c; c_value := c_value c; c_manual := c_manual c |} o
            else if f_lt (f_of_Z (get_delta_millisec w now (c_start c))) (c_time c) then c_direct_state c o
            else c_direct_state c (-1) in
  {| c_out := c_out c1; c_ready := 0 <? i; c_result := c_result c1; c_result2 := r2; c_start := c_start c1; c_time := c_time c1;
     c_state := c_state c1; c_value := c_value c1; c_manual := c_manual c1 |}.

(** The names of RESULT, READY (lines 211, 215) and P_READY_TIME (line 246). *)
Definition RESULT_name : text := [82; 69; 83; 85; 76; 84].
Definition READY_name : text := [82; 69; 65; 68; 89].
Definition TIME_name : text := [80; 95; 82; 69; 65; 68; 89; 95; 84; 73; 77; 69].
(** [val > 0], device.cpp 217. *)
Definition above_zero (d : dbl) : bool :=
  match d with DFin _ q => negb (Qle_bool q 0) | DInf s => negb s | DNan => false end.
(** The plain assignments of the command, device.cpp 211-221, base.cpp 321-353. *)
Definition rest (c : cam) (ready : bool) (res time value : Z) (man : bool) : cam :=
  {| c_out := c_out c; c_ready := ready; c_result := res; c_result2 := c_result2 c; c_start := c_start c; c_time := time;
     c_state := c_state c; c_value := value; c_manual := man |}.
(** device.cpp 209-222, base.cpp 321-353 [set_cmd]; the answer is always 0; [None]:
    undefined. *)
Definition c_cmd (c : cam) (p : text) (v : dbl) : option cam :=
  if same p RESULT_name then
    match to_int v with Some n => Some (rest c (c_ready c) n (c_time c) (c_value c) (c_manual c)) | None => None end
  else if same p READY_name then Some (rest c (above_zero v) (c_result c) (c_time c) (c_value c) (c_manual c))
  else match p with
       | 83 :: _ => match to_int v with Some n => Some (c_direct_state c n) | None => None end                         (* S *)
       | 86 :: _ => Some (rest c (c_ready c) (c_result c) (c_time c) (to_float v) (c_manual c))                         (* V *)
       | 77 :: _ => Some (rest c (c_ready c) (c_result c) (c_time c) (c_value c)
                            (if equals v 0 then false else if equals v 1 then true else c_manual c))                    (* M *)
       | 80 :: _ => if same TIME_name p then Some (rest c (c_ready c) (c_result c) (to_float v) (c_value c) (c_manual c)) else Some c (* P *)
       | _ => Some c
       end.
(** device.cpp 319-351. *)
Definition c_obey (c : cam) (o : order) : cam :=
  if c_manual c then c
  else match o with
       | OOn => c_direct_on c
       | OOff | OInstantOff => c_direct_off c
       | OSetState n => c_direct_state c n
       | OSetValue x => rest c (c_ready c) (c_result c) (c_time c) x (c_manual c)
       end.

(** Events; [t]: true time since the start of the clock. *)
Inductive cev := CEval (t i r2 : Z) | COrder (o : order) | CCmd (p : text) (v : dbl) | CResult (n r1 : Z).
(** One call; calls of the main cycle, the program and the server in any order. *)
Definition c_step (w : Z) (c : cam) (e : cev) : option cam :=
  match e with
  | CEval t i r2 => Some (c_evaluate w c (clock w t) i r2)
  | COrder o => Some (c_obey c o)
  | CCmd p v => c_cmd c p v
  | CResult n r1 => Some (fst (c_get_result c n r1))
  end.
Fixpoint c_run (w : Z) (c : cam) (h : list cev) : option cam :=
  match h with [] => Some c | e :: h' => match c_step w c e with Some c' => c_run w c' h' | None => None end end.
