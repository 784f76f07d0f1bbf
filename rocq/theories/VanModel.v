(** An analog valve with IO-Link: the position sent and the data received.

    Source: /repo/PAC/common/device/valve.cpp 2515-2653, valve.h 1095-1153 (class
    [analog_valve_iolink]); device.cpp 3462-3491, base.cpp 211-243, 321-353 (commands);
    device.cpp 27 (the memory used before the first cycle), 319-351 (orders that respect
    manual mode); bus_coupler_io.cpp 554-559, 585, 629-634, 650 (access to channels).

    A [float] is a bit pattern of 32 bits in memory with the lowest byte first; bit
    fields are filled from the lowest bit.  Bytes are numbers from 0 to 255.
    Simplifications: not in emulation; no parameters; the text is left out; the memory
    used before the first cycle is not modelled, since nothing reads it. *)
From Coq Require Import ZArith List Bool Lia QArith.
From Verif Require Import Base FTextModel FloatModel DevModel.
Import ListNotations.
Open Scope Z_scope.

(** valve.h 1148-1150: [out_info] before the first cycle, at the channel, or null. *)
Inductive place := Nothing_yet | Channel | Null.
(** valve.h 1128-1152 and the fields of [device]; [a_out]: the five bytes of the channel;
    [a_in]: the ten bytes of [in_info], [None] before the first data (they are not
    initialised, except three fields of the last two bytes); [a_blink]: the field [blink]. *)
Record av := { a_place : place; a_out : list Z; a_in : option (list Z); a_blink : bool; a_state : Z; a_manual : bool }.
(** valve.cpp 2515-2520; [out]: the bytes of the channel at the start. *)
Definition a_new (out : list Z) : av :=
  {| a_place := Nothing_yet; a_out := out; a_in := None; a_blink := false; a_state := 0; a_manual := false |}.

(** [l[i] = x] and [std::swap( l[i], l[j] )]. *)
Fixpoint put (l : list Z) (i : nat) (x : Z) : list Z :=
  match l, i with
  | [], _ => []
  | _ :: t, O => x :: t
  | y :: t, S i' => y :: put t i' x
  end.
Definition swap (l : list Z) (i j : nat) : list Z := put (put l i (nth j l 0)) j (nth i l 0).
(** A [float] in memory. *)
Definition bytes_of (v : Z) : list Z := [v mod 256; v / 256 mod 256; v / 65536 mod 256; v / 16777216 mod 256].
Definition float_at (l : list Z) (i : nat) : Z :=
  nth i l 0 + 256 * nth (i + 1) l 0 + 65536 * nth (i + 2) l 0 + 16777216 * nth (i + 3) l 0.

(** valve.cpp 2528-2569 [evaluate_io]; [has]: there is an output channel; [data]: the ten
    bytes of the input channel, if there is one. *)
Definition a_evaluate (a : av) (has : bool) (data : option (list Z)) : av :=
  {| a_place := if has then Channel else Null; a_out := a_out a;
     a_in := match data with
             | None => a_in a
             | Some d => Some (swap (swap (swap (swap (firstn 10 d) 3 0) 1 2) 7 4) 5 6)
             end;
     a_blink := a_blink a; a_state := a_state a; a_manual := a_manual a |}.
(** Writes to a single field: the position of [out_info] (valve.cpp 2607-2612, with the
    bytes swapped), its bit [wink] (2642-2643), [state] and [is_manual_mode] (base.cpp
    326-341). *)
Definition to_channel (a : av) (out : list Z) : option av :=
  match a_place a with
  | Nothing_yet => Some a
  | Channel => Some {| a_place := a_place a; a_out := out; a_in := a_in a; a_blink := a_blink a; a_state := a_state a; a_manual := a_manual a |}
  | Null => None
  end.
Definition with_blink (a : av) (b : bool) : av :=
  {| a_place := a_place a; a_out := a_out a; a_in := a_in a; a_blink := b; a_state := a_state a; a_manual := a_manual a |}.
Definition with_state (a : av) (n : Z) : av :=
  {| a_place := a_place a; a_out := a_out a; a_in := a_in a; a_blink := a_blink a; a_state := n; a_manual := a_manual a |}.
Definition with_manual (a : av) (b : bool) : av :=
  {| a_place := a_place a; a_out := a_out a; a_in := a_in a; a_blink := a_blink a; a_state := a_state a; a_manual := b |}.
(** valve.cpp 2603-2613 [direct_set_value]. *)
Definition a_set (a : av) (v : Z) : option av :=
  to_channel a (swap (swap (bytes_of v ++ skipn 4 (a_out a)) 3 0) 1 2).
(** [val > 0], valve.cpp 2642. *)
Definition positive (d : dbl) : bool :=
  match d with DFin _ q => negb (Qle_bool q 0) | DInf s => negb s | DNan => false end.
(** valve.cpp 2642-2643: the bit [wink] is the highest of the fifth byte. *)
Definition a_wink (a : av) (b : bool) : option av :=
  option_map (fun x => with_blink x b)
    (to_channel a (put (a_out a) 4 (nth 4 (a_out a) 0 mod 128 + if b then 128 else 0))).
(** The names M_EXP and S_DEV, device.cpp 3473, 3477. *)
Definition MEXP_name : text := [77; 95; 69; 88; 80].
Definition SDEV_name : text := [83; 95; 68; 69; 86].
(** valve.cpp 2629-2653, device.cpp 3462-3491, base.cpp 321-353 [set_cmd]; [None]:
    undefined. *)
Definition a_cmd (a : av) (p : text) (v : dbl) : option av :=
  match p with
  | 66 :: _ => a_wink a (positive v)                                                       (* B *)
  | _ =>
      if same p MEXP_name then Some a
      else if same p SDEV_name then Some a
      else match p with
           | 83 :: _ => match to_int v with Some n => Some (with_state a n) | None => None end       (* S *)
           | 86 :: _ => a_set a (to_float v)                                                         (* V *)
           | 77 :: _ => Some (if equals v 0 then with_manual a false else if equals v 1 then with_manual a true else a) (* M *)
           | _ => Some a
           end
  end.
(** valve.cpp 2589-2601 [direct_on], [direct_off]; device.cpp 319-351, base.cpp 224-227. *)
Definition a_obey (a : av) (o : order) : option av :=
  if a_manual a then Some a
  else match o with
       | OOn => a_set a (f_of_Z 100)
       | OOff | OInstantOff => a_set a (f_of_Z 0)
       | OSetState n => Some (with_state a n)
       | OSetValue v => a_set a v
       end.
(** valve.cpp 2615-2627 [get_value], [get_state]; 2583-2585 the other fields of the text,
    valve.h 1133-1136; [None]: not initialised. *)
Definition a_position (a : av) : option Z := option_map (fun l => float_at l 0) (a_in a).
Definition a_status (a : av) : option Z := option_map (fun l => nth 9 l 0 mod 64) (a_in a).
Definition a_namur (a : av) : Z := match a_in a with Some l => nth 8 l 0 | None => 0 end.
Definition a_opened (a : av) : bool := match a_in a with Some l => Z.testbit (nth 9 l 0) 6 | None => false end.
Definition a_closed (a : av) : bool := match a_in a with Some l => Z.testbit (nth 9 l 0) 7 | None => true end.

(** Calls of the main cycle, the program and the server in any order. *)
Inductive aev := AEval (data : option (list Z)) | AOrder (o : order) | ACmd (p : text) (v : dbl).
Definition a_step (has : bool) (a : av) (e : aev) : option av :=
  match e with
  | AEval d => Some (a_evaluate a has d)
  | AOrder o => a_obey a o
  | ACmd p v => a_cmd a p v
  end.
Fixpoint a_run (has : bool) (a : av) (h : list aev) : option av :=
  match h with [] => Some a | e :: h' => match a_step has a e with Some a' => a_run has a' h' | None => None end end.
