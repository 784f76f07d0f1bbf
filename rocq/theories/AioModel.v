(** Channels of a device: discrete and analog inputs and outputs.

    /repo/PAC/common/bus_coupler_io.cpp 44-552, class [io_device].

    The cells of the input and output areas are a map from addresses to 16 bit
    words ([int_2]) or bytes ([u_char]); a channel that was not set up is [None]
    (null pointer).  The type of the module of an analog channel is what
    [get_node( table )->AO_types[ offset ]] (AI_types) gives (cpp:129-131,
    306-308, 371-373).
    Simplifications: the node of a channel that was set up exists; the debug
    output is left out.  A [float] is a bit pattern ([FloatModel]). *)
From Coq Require Import ZArith List Bool Lia QArith.
From Verif Require Import Base FTextModel FloatModel.
Import ListNotations.
Open Scope Z_scope.

(** An analog channel: address of its word and type of its module. *)
Record chan := { addr : Z; mtype : Z }.
Definition words := Z -> Z.
Definition put (m : words) (a v : Z) : words := fun x => if x =? a then v else m x.

(** h:47-55. *)
Definition NO_ERR : Z := 0.
Definition UNDER_RANGE : Z := 2.
Definition OVER_RANGE : Z := 3.
Definition OUT_OF_RANGE : Z := 4.
Definition BAD_IO_DATA : Z := 100.

(** The channel [index], if [index < count] and the pointer is not null. *)
Definition channel {A} (l : list (option A)) (index : Z) : option A :=
  if (0 <=? index) && (index <? Z.of_nat (length l)) then nth (Z.to_nat index) l None else None.

(** * Discrete channels, cpp:44-121 *)

Definition get_DO (m : words) (l : list (option Z)) (index : Z) : Z :=
  match channel l index with Some a => m a | None => 0 end.
(** [value] is a [char], the cell an [u_char]. *)
Definition set_DO (m : words) (l : list (option Z)) (index value : Z) : words * Z :=
  match channel l index with Some a => (put m a (u8 value), 0) | None => (m, 1) end.
Definition get_DI (m : words) (l : list (option Z)) (index : Z) : Z :=
  match channel l index with Some a => m a | None => 0 end.

(** * Analog outputs *)

(** [0 == min_value && 0 == max_value]. *)
Definition unscaled (mn mx : Z) : bool := f_eq (f_of_Z 0) mn && f_eq (f_of_Z 0) mx.
(** [val = min_value + ( val - 4 ) * ( max_value - min_value ) / 16]. *)
Definition from_mA (val mn mx : Z) : Z :=
  f_add mn (f_div (f_mul (f_sub val (f_of_Z 4)) (f_sub mx mn)) (f_of_Z 16)).
(** [4 + val / k]. *)
Definition mA (val k : Z) : Z := f_add (f_of_Z 4) (f_div val k).

(** cpp:123-279. *)
Definition get_AO (m : words) (l : list (option chan)) (index mn mx : Z) : Z :=
  match channel l index with
  | None => f_of_Z 0
  | Some c =>
    let val := f_of_Z (m (addr c)) in
    let low k := if f_lt val (f_of_Z 0) then f_of_Z 4 else mA val k in
    let out k := if unscaled mn mx then low k else from_mA (low k) mn mx in
    if (mtype c =? 554) || (mtype c =? 555) then
      if unscaled mn mx
      then (if f_lt val (f_of_Z 7) then f_of_Z 0 else mA val (f_lit (4095 # 2)))
      else from_mA (if f_lt val (f_of_Z 7) then f_of_Z 4 else mA val (f_lit (4095 # 2))) mn mx
    else if (mtype c =? 2688527) || (mtype c =? 2702072) then out (f_lit 1875)
    else if mtype c =? 1088123 then out (f_lit 1000)
    else val
  end.

(** [value = 4 + 16 * ( value - min_value ) / ( max_value - min_value )]. *)
Definition to_mA (value mn mx : Z) : Z :=
  f_add (f_of_Z 4) (f_div (f_mul (f_of_Z 16) (f_sub value mn)) (f_sub mx mn)).
(** cpp:314-320, 324-330, 333-339. *)
Definition out_code (k value mn mx : Z) : Z :=
  let v := if negb (f_eq (f_of_Z 0) mn) || negb (f_eq (f_of_Z 0) mx) then to_mA value mn mx else value in
  let v := if f_lt v (f_of_Z 4) then f_of_Z 4 else v in
  let v := if f_lt (f_of_Z 20) v then f_of_Z 20 else v in
  f_mul k (f_sub v (f_of_Z 4)).
(** cpp:298-359.  [None]: undefined, the number cannot be converted. *)
Definition set_AO (m : words) (l : list (option chan)) (index value mn mx : Z) : option (words * Z) :=
  match channel l index with
  | None => Some (m, 0)
  | Some c =>
    let v :=
      if (mtype c =? 554) || (mtype c =? 555) then out_code (f_lit (4095 # 2)) value mn mx
      else if (mtype c =? 2688527) || (mtype c =? 2702072) then out_code (f_lit 1875) value mn mx
      else if mtype c =? 1088123 then out_code (f_lit 1000) value mn mx
      else value in
    match f_to_u32 v with
    | Some u => Some (put m (addr c) (s16 u), 0)
    | None => None
    end
  end.

(** * Analog inputs, cpp:361-519 *)

(** The value and the error. *)
Definition get_AI (m : words) (l : list (option chan)) (index mn mx : Z) : Z * Z :=
  match channel l index with
  | None => (f_of_Z 0, BAD_IO_DATA)
  | Some c =>
    let val := f_of_Z (m (addr c)) in
    let cur k := if unscaled mn mx then mA val k else from_mA (mA val k) mn mx in
    if (mtype c =? 461) || (mtype c =? 450) then
      if f_lt val (f_of_Z (-2000)) then (f_of_Z (-1000), UNDER_RANGE)
      else if f_lt (f_of_Z 8500) val then (f_of_Z (-1000), OVER_RANGE)
      else (f_mul val (f_lit (1 # 10)), NO_ERR)
    else if (mtype c =? 466) || (mtype c =? 496) then
      if f_eq (f_of_Z 3) val then (f_of_Z (-1), UNDER_RANGE)
      else if f_le (f_of_Z 32761) val then (f_of_Z (-1), OVER_RANGE)
      else (cur (f_lit (4095 # 2)), NO_ERR)
    else if mtype c =? 491 then
      if f_le (f_of_Z (-30000)) val && f_le val (f_of_Z 30000)
      then (f_mul val (f_lit (5 # 10000)), NO_ERR)
      else (f_of_Z (-1000), OUT_OF_RANGE)
    else if mtype c =? 2688556 then
      if f_lt val (f_of_Z (-32000)) then (f_of_Z (-1000), UNDER_RANGE)
      else (f_mul val (f_lit (1 # 10)), NO_ERR)
    else if (mtype c =? 2688491) || (mtype c =? 2702072) then
      if f_lt val (f_of_Z (-32000)) then (f_of_Z (-1), UNDER_RANGE)
      else (cur (f_lit 1875), NO_ERR)
    else if mtype c =? 1088062 then
      if f_lt val (f_of_Z (-32000)) then (f_of_Z (-1), UNDER_RANGE)
      else (cur (f_lit 1000), NO_ERR)
    else (val, NO_ERR)
  end.
