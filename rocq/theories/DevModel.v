(** A simple device: state, value, manual mode, named parameters, commands by name and
    the text for the server.

    Source: /repo/PAC/common/device/base.cpp 44-66 ([par_device::save_device]), 68-88
    ([set_par_by_name]), 90-96 ([set_par]), 98-110 (constructor), 130-138 ([get_par]),
    140-183 ([set_par_name]), 211-243 ([direct_off] .. [off]), 265-303
    ([device::save_device]), 321-353 ([device::set_cmd]), 355-374 (constructor);
    device.cpp 319-351 ([on], [instant_off], [set_state], [set_value]); the parameters
    are those of param_ex.h 191-218, 489-506.

    Texts are lists of characters without the final zero.  A [float] is a bit pattern; a
    [double] is a rational number with the sign of zero, an infinity or not a number.
    Simplifications: the methods are those of class [device] itself (derived classes
    override some of them; [save_device_ex] writes nothing); the number of parameters
    fits into the memory for parameters; a piece of the text has at most 1000 characters;
    debug output is left out. *)
From Coq Require Import ZArith List Bool Lia QArith Qround.
From Verif Require Import Base FTextModel FloatModel.
Import ListNotations.
Open Scope Z_scope.

Definition text := list Z.
(** [strcmp] is 0. *)
Fixpoint same (a b : text) : bool :=
  match a, b with
  | [], [] => true
  | x :: a', y :: b' => (x =? y) && same a' b'
  | _, _ => false
  end.

(** A [double] given with a command. *)
Inductive dbl := DFin (s : bool) (q : Q) | DInf (s : bool) | DNan.
(** Conversion to [float]. *)
Definition to_float (d : dbl) : Z :=
  match d with DFin s q => f_round s q | DInf s => signed s INF | DNan => NAN end.
(** Conversion to [int]: without the fraction; undefined if that does not fit. *)
Definition trunc (q : Q) : Z := if Qle_bool 0 q then Qfloor q else - Qfloor (- q).
Definition to_int (d : dbl) : option Z :=
  match d with
  | DFin _ q => let n := trunc q in if (- 2 ^ 31 <=? n) && (n <? 2 ^ 31) then Some n else None
  | _ => None
  end.
(** [val == x]. *)
Definition equals (d : dbl) (x : Q) : bool := match d with DFin _ q => Qeq_bool q x | _ => false end.

(** base.h 105-115, 752-770: [names], [vals]: names and values of the parameters;
    [kept]: the values in the memory that survives a restart; [stub]: the element for
    indices out of range. *)
Record dev := {
  dtype : Z; subtype : Z; dname : text;
  names : list (option text); vals : list Z; kept : list Z; stub : Z;
  state : Z; value : Z; manual : bool }.

(** base.h 375-379: [C_MAX_NAME]. *)
Definition C_MAX_NAME : Z := 20.
(** base.h 109-112. *)
Definition C_MAX_PAR_NAME_LENGTH : Z := 25.

(** base.cpp 98-110, 355-374: a new device whose memory holds [mem]; [None]: the name
    does not fit. *)
Definition create (ty sub : Z) (name : option text) (mem : list Z) : option dev :=
  let n := match name with Some n => n | None => [63] end in
  if Z.of_nat (length n) <? C_MAX_NAME then
    Some {| dtype := ty; subtype := sub; dname := n; names := map (fun _ => None) mem; vals := mem; kept := mem; stub := 0;
            state := 0; value := 0; manual := false |}
  else None.

(** Replacement of one element. *)
Fixpoint put {A} (l : list A) (n : nat) (x : A) : list A :=
  match l, n with
  | [], _ => []
  | _ :: l', O => x :: l'
  | y :: l', S n' => y :: put l' n' x
  end.
Definition count (d : dev) : Z := Z.of_nat (length (vals d)).
Definition with_names (d : dev) (l : list (option text)) : dev :=
  {| dtype := dtype d; subtype := subtype d; dname := dname d; names := l; vals := vals d; kept := kept d; stub := stub d;
     state := state d; value := value d; manual := manual d |}.
Definition with_vals (d : dev) (v k : list Z) (s : Z) : dev :=
  {| dtype := dtype d; subtype := subtype d; dname := dname d; names := names d; vals := v; kept := k; stub := s;
     state := state d; value := value d; manual := manual d |}.
Definition with_state (d : dev) (s v : Z) : dev :=
  {| dtype := dtype d; subtype := subtype d; dname := dname d; names := names d; vals := vals d; kept := kept d; stub := stub d;
     state := s; value := v; manual := manual d |}.
Definition with_manual (d : dev) (b : bool) : dev :=
  {| dtype := dtype d; subtype := subtype d; dname := dname d; names := names d; vals := vals d; kept := kept d; stub := stub d;
     state := state d; value := value d; manual := b |}.

(** base.cpp 140-183 [set_par_name]. *)
Definition set_par_name (d : dev) (idx offset : Z) (n : text) : dev :=
  let i := u32 (offset + idx) in
  if (i <=? count d) && (0 <? i) then
    if C_MAX_PAR_NAME_LENGTH <? Z.of_nat (length n) then d
    else match nth (Z.to_nat (i - 1)) (names d) None with
         | None => with_names d (put (names d) (Z.to_nat (i - 1)) (Some n))
         | Some _ => d
         end
  else d.
(** base.cpp 90-96 [set_par], param_ex.h 191-200. *)
Definition set_par (d : dev) (idx offset v : Z) : dev :=
  if count d =? 0 then d
  else
    let i := u32 (offset + idx) in
    if (i <=? count d) && (0 <? i) then with_vals d (put (vals d) (Z.to_nat (i - 1)) v) (kept d) (stub d)
    else with_vals d (vals d) (kept d) v.
(** base.cpp 130-138 [get_par], param_ex.h 209-218. *)
Definition get_par (d : dev) (idx offset : Z) : Z :=
  if count d =? 0 then 0
  else
    let i := u32 (offset + idx) in
    if (i <=? count d) && (0 <? i) then nth (Z.to_nat (i - 1)) (vals d) 0 else stub d.
(** base.cpp 72-77: the loop over the names; outer [None]: [strcmp] of a null pointer. *)
Fixpoint find_par (l : list (option text)) (n : text) (i : nat) : option (option nat) :=
  match l with
  | [] => Some None
  | None :: _ => None
  | Some m :: l' => if same m n then Some (Some i) else find_par l' n (S i)
  end.
(** base.cpp 68-88 [set_par_by_name], param_ex.h 489-506 [save]. *)
Definition set_par_by_name (d : dev) (n : text) (v : dbl) : option (dev * Z) :=
  match find_par (names d) n 0 with
  | None => None
  | Some (Some i) => Some (with_vals d (put (vals d) i (to_float v)) (put (kept d) i (to_float v)) (stub d), 0)
  | Some None => Some (d, 1)
  end.

(** base.cpp 321-353 [set_cmd]: the answer, or undefined behaviour. *)
Definition set_cmd (d : dev) (prop : text) (v : dbl) : option (dev * Z) :=
  match prop with
  | 83 :: _ => match to_int v with Some n => Some (with_state d n (value d), 0) | None => None end    (* S *)
  | 86 :: _ => Some (with_state d (state d) (to_float v), 0)                                          (* V *)
  | 77 :: _ => Some (if equals v 0 then with_manual d false else if equals v 1 then with_manual d true else d, 0) (* M *)
  | 80 :: _ => set_par_by_name d prop v                                                               (* P *)
  | _ => Some (d, 1)
  end.

(** Orders of the program; device.cpp 319-351, base.cpp 211-243. *)
Inductive order := OOn | OOff | OInstantOff | OSetState (n : Z) | OSetValue (v : Z).
Definition obey (d : dev) (o : order) : dev :=
  if manual d then d
  else match o with
       | OOn => with_state d 1 (value d)
       | OOff | OInstantOff => with_state d 0 (f_of_Z 0)
       | OSetState n => with_state d n (value d)
       | OSetValue v => with_state d (state d) v
       end.

(** What happens to a device. *)
Inductive ev :=
| EOrder (o : order)
| ECmd (prop : text) (v : dbl)
| EName (idx offset : Z) (n : text)
| EPar (idx offset v : Z)
| ERestart.                       (* the controller starts again: a new device with the same parameters *)
(** One event with its answer (0 for what has none). *)
Definition step (d : dev) (e : ev) : option (dev * Z) :=
  match e with
  | EOrder o => Some (obey d o, 0)
  | ECmd p v => set_cmd d p v
  | EName i o n => Some (set_par_name d i o n, 0)
  | EPar i o v => Some (set_par d i o v, 0)
  | ERestart => Some ({| dtype := dtype d; subtype := subtype d; dname := dname d; names := names d; vals := kept d; kept := kept d; stub := 0;
                         state := 0; value := 0; manual := false |}, 0)
  end.
Fixpoint run (d : dev) (h : list ev) : option (dev * list Z) :=
  match h with
  | [] => Some (d, [])
  | e :: h' =>
      match step d e with
      | None => None
      | Some (d1, a) => match run d1 h' with Some (d2, l) => Some (d2, a :: l) | None => None end
      end
  end.

(** * The text *)

(** [modf] gives no fraction (also for infinities). *)
Definition no_fraction (b : Z) : bool :=
  if f_isnan b then false
  else if f_isinf b then true
  else (0 <=? f_e b) || (f_m b mod 2 ^ (- f_e b) =? 0).
(** Hundredths, rounded; [tie n]: what the library does exactly between [n] and [n+1]. *)
Definition hundredths (tie : Z -> bool) (x : Q) : Z :=
  let n := Qfloor (x * 100) in
  match Qcompare (x * 100 - inject_Z n) (1 # 2) with
  | Lt => n
  | Gt => n + 1
  | Eq => if tie n then n + 1 else n
  end.
(** Format "{:.0f}" for a number without a fraction, "{:.2f}" otherwise (lines 57-62,
    289-293). *)
Definition show_num (tie : Z -> bool) (b : Z) : text :=
  (if f_neg b then [45] else []) ++
  (if f_isnan b then [110; 97; 110]
   else if f_isinf b then [105; 110; 102]
   else if no_fraction b then udec 60 (Qfloor (f_abs b))
   else let n := hundredths tie (f_abs b) in udec 60 (n / 100) ++ 46 :: digits 2 n).
(** One entry with "=" and ", ". *)
Definition entry (k v : text) : text := k ++ 61 :: v ++ [44; 32].
(** base.cpp 44-66. *)
Fixpoint par_text (tie : Z -> bool) (ns : list (option text)) (vs : list Z) : text :=
  match ns, vs with
  | Some n :: ns', v :: vs' => entry n (show_num tie v) ++ par_text tie ns' vs'
  | None :: ns', _ :: vs' => par_text tie ns' vs'
  | _, _ => []
  end.
(** base.cpp 270, 276-287: which devices show a state and a value; base.h 382-412. *)
Definition has_state (d : dev) : bool := negb (dtype d =? 16).
Definition has_value (d : dev) : bool :=
  negb (existsb (Z.eqb (dtype d)) [0; 5; 6; 10; 11; 12; 13; 14]) && negb ((dtype d =? 3) && ((subtype d =? 2) || (subtype d =? 1))).
(** base.cpp 265-303; [extra]: what [save_device_ex] writes. *)
Definition save_device_with (tie : Z -> bool) (extra prefix : text) (d : dev) : text :=
  let head := prefix ++ dname d ++ [61; 123] in
  let body := entry [77] [if manual d then 49 else 48] ++
              (if has_state d then entry [83; 84] (show_int (state d)) else []) ++
              (if has_value d then entry [86] (show_num tie (value d)) else []) ++
              extra ++
              par_text tie (names d) (vals d) in
  let all := head ++ body in
  firstn (length all - 2) all ++ [125; 44; 10].
Definition save_device (tie : Z -> bool) (prefix : text) (d : dev) : text := save_device_with tie [] prefix d.
(** device.cpp 202-207 [camera::save_device_ex]: the format has "%d", which this library
    does not replace. *)
Definition camera_text : text := [82;69;83;85;76;84;61;37;100;44;32;82;69;65;68;89;61;37;100;44;32].
