(** The actions of a step on devices.

    Source: /repo/PAC/common/operation_mngr.cpp 557-1070, 1080-1920 and
    operation_mngr.h 43-470.

    Simplifications:
    - a device behaves as the class [device] (device/base.cpp 211-236,
      device/device.cpp 318-351): the state and the value last commanded, nothing
      in manual mode; a valve also has the flag of washing a seat
      (device/valve.cpp 306-314);
    - signals ([is_active]), measured values, errors ([get_state() == -1]) and
      parameters are inputs and do not change during one call;
    - one reading of the clock per call; [unsigned long] and [size_t] have [w] bits;
    - parameters are set ([set_params] was called); printing is left out. *)
From Coq Require Import ZArith List Bool Lia QArith.
From Verif Require Import Base FTextModel FloatModel TimeModel.
Import ListNotations.
Open Scope Z_scope.

(** device/base.h:382-415. *)
Definition DT_V := 0.   Definition DT_VC := 1.  Definition DT_M := 2.   Definition DT_LS := 3.
Definition DT_TE := 4.  Definition DT_FS := 5.  Definition DT_GS := 6.  Definition DT_FQT := 7.
Definition DT_LT := 8.  Definition DT_QT := 9.  Definition DT_SB := 12. Definition DT_DI := 13.
Definition DT_AI := 15. Definition DT_AO := 16. Definition DT_PT := 18. Definition DT_REGULATOR := 20.
(** device/valve.h:111-112. *)
Definition V_UPPER_SEAT := 2. Definition V_LOWER_SEAT := 3.

(** * Devices *)

Record dstate := { d_state : Z; d_value : Z; d_seat : bool }.
Inductive cmd := On (d : Z) | Off (d : Z) | SetState (d n : Z) | SetValue (d v : Z) | Seat (d : Z) (b : bool).

Definition put (D : Z -> dstate) (d : Z) (x : dstate) : Z -> dstate := fun y => if y =? d then x else D y.
(** base.cpp 211-236, device.cpp 318-351, valve.cpp 311-314. *)
Definition apply (held : Z -> bool) (D : Z -> dstate) (c : cmd) : Z -> dstate :=
  match c with
  | On d => if held d then D else put D d {| d_state := 1; d_value := d_value (D d); d_seat := d_seat (D d) |}
  | Off d => if held d then D else put D d {| d_state := 0; d_value := f_of_Z 0; d_seat := d_seat (D d) |}
  | SetState d n => if held d then D else put D d {| d_state := n; d_value := d_value (D d); d_seat := d_seat (D d) |}
  | SetValue d v => if held d then D else put D d {| d_state := d_state (D d); d_value := v; d_seat := d_seat (D d) |}
  | Seat d b => put D d {| d_state := d_state (D d); d_value := d_value (D d); d_seat := b |}
  end.
Definition exec (held : Z -> bool) (l : list cmd) (D : Z -> dstate) : Z -> dstate := fold_left (apply held) l D.

(** * Configuration and inputs *)

(** [action::devices], h:150: groups of subgroups of devices.  [action::action] and
    [add_dev] give every group at least the number of subgroups the action uses. *)
Definition groups := list (list (list Z)).
Definition main (g : groups) : list (list Z) := nth 0 g [].
Definition sub (i : nat) (l : list (list Z)) : list Z := nth i l [].
(** cpp:627-641. *)
Definition no_dev (l : list Z) : bool := match l with [] => true | _ => false end.
Definition is_empty (g : groups) : bool := forallb (forallb no_dev) g.
(** cpp:700-719. *)
Fixpoint app_at (k : nat) (l : list (list Z)) (d : Z) : list (list Z) :=
  match k, l with
  | O, x :: r => (x ++ [d]) :: r
  | O, [] => [[d]]
  | S k', x :: r => x :: app_at k' r d
  | S k', [] => [] :: app_at k' [] d
  end.
Fixpoint add_dev (cnt : nat) (g : groups) (d : Z) (grp subgrp : nat) : groups :=
  match grp, g with
  | O, x :: r => app_at subgrp x d :: r
  | O, [] => [app_at subgrp (repeat [] cnt) d]
  | S n, x :: r => x :: add_dev cnt r d n subgrp
  | S n, [] => repeat [] cnt :: add_dev cnt [] d n subgrp
  end.

(** [open_seat_action::add_dev], cpp:1456-1478, on the list of groups of one kind of
    seats: at most one group is appended; a device for a farther group is left out. *)
Fixpoint add_to (k : nat) (l : list (list Z)) (d : Z) : list (list Z) :=
  match k, l with
  | O, x :: r => (x ++ [d]) :: r
  | S k', x :: r => x :: add_to k' r d
  | _, [] => []
  end.
Definition add_seat (l : list (list Z)) (d : Z) (grp : nat) : list (list Z) :=
  let l := if (length l <=? grp)%nat then l ++ [[]] else l in
  if (length l <=? grp)%nat then l else add_to grp l d.
(** [action::set_param_idx], h:109-117, and the list of [jump_if_action::set_int_property],
    cpp:1807-1831: the list is filled up with [z]. *)
Fixpoint set_at (z : Z) (k : nat) (l : list Z) (v : Z) : list Z :=
  match k, l with
  | O, _ :: r => v :: r
  | O, [] => [v]
  | S k', x :: r => x :: set_at z k' r v
  | S k', [] => z :: set_at z k' [] v
  end.

(** The actions of a step (cpp:914-949) with their parameter numbers (h:109-117). *)
Record acts := {
  a_on : groups; a_rev : groups; a_off : groups;
  a_upper : list (list Z); a_lower : list (list Z);
  a_dido : groups; a_inv : groups; a_aiao : groups; a_wash : groups; a_wash_par : list Z;
  a_enable : groups; a_don : groups; a_don_par : list Z; a_doff : groups; a_doff_par : list Z;
  a_mode : bool }.

(** [i_set_time]: [get_active_step_set_time] of the state; [i_period], [i_upper],
    [i_lower]: parameters of the controller (PAC_info.h:19-21). *)
Record inputs := {
  i_now : Z;
  i_active : Z -> bool;
  i_value : Z -> Z;
  i_failed : Z -> bool;
  i_held : Z -> bool;
  i_par : Z -> Z;
  i_set_time : Z; i_period : Z; i_upper : Z; i_lower : Z }.

(** h:268-282 and the start times h:183, 226. *)
Record adyn := {
  y_phase : Z; y_next : Z; y_group : Z; y_wait : Z; y_cycle : Z;
  y_don : Z; y_doff : Z }.
Definition P_WAITING := 0. Definition P_OPEN_UPPER := 1. Definition P_OPEN_LOWER := 2.
(** Constructors, cpp:756-758, 834-838, 1285-1295. *)
Definition new_dyn (now : Z) : adyn :=
  {| y_phase := P_WAITING; y_next := P_OPEN_UPPER; y_group := 0; y_wait := 60000; y_cycle := 0; y_don := now; y_doff := now |}.
Definition seat_dyn (y : adyn) (ph nx gr wt cy : Z) : adyn :=
  {| y_phase := ph; y_next := nx; y_group := gr; y_wait := wt; y_cycle := cy; y_don := y_don y; y_doff := y_doff y |}.

Section Step.
  Context (w : Z) (kind : Z -> Z) (a : acts) (i : inputs).

  (** * Commands of the actions *)

  (** cpp:741-753. *)
  Definition on_cmds : list cmd := if is_empty (a_on a) then [] else map On (sub 0 (main (a_on a))).
  (** cpp:794-806. *)
  Definition rev_cmds : list cmd :=
    if is_empty (a_rev a) then [] else map (fun d => SetState d 2) (sub 0 (main (a_rev a))).
  (** cpp:809-832. *)
  Definition off_cmds (D : Z -> dstate) : list cmd :=
    if is_empty (a_off a) then []
    else flat_map (fun d => if kind d =? DT_V then (if d_seat (D d) then [] else [Off d]) else [Off d])
           (sub 0 (main (a_off a))).

  (** A loop over the subgroups with their numbers. *)
  Fixpoint number {A} (n : nat) (l : list A) : list (nat * A) :=
    match l with [] => [] | x :: r => (n, x) :: number (S n) r end.
  (** cpp:775-783, 855-863: is the delay over? *)
  Definition late (start : Z) (pars : list Z) (idx : nat) : bool :=
    let p := nth idx pars 0 in
    if 0 <? p then negb (f_le (f_of_Z (get_delta_millisec w (i_now i) start)) (i_par i p)) else true.
  (** cpp:765-791. *)
  Definition don_cmds (start : Z) : list cmd :=
    if is_empty (a_don a) then []
    else flat_map (fun x => if late start (a_don_par a) (fst x) then map On (snd x) else []) (number 0 (main (a_don a))).
  (** cpp:845-873. *)
  Definition doff_cmds (start : Z) : list cmd :=
    if is_empty (a_doff a) then []
    else flat_map (fun x => map (fun d => SetState d (if late start (a_doff_par a) (fst x) then 0 else 1)) (snd x))
           (number 0 (main (a_doff a))).

  (** cpp:1119-1137, 1161-1177. *)
  Definition dido_group (l : list Z) : list cmd :=
    match l with
    | [] => []
    | x :: r => if i_active i x then map On r else map Off r
    end.
  Definition dido_cmds : list cmd :=
    if is_empty (a_dido a) then [] else flat_map dido_group (main (a_dido a)).
  (** cpp:1185-1196. *)
  Definition inv_group (l : list Z) : list cmd :=
    match l with
    | [] => []
    | x :: r => map (fun d => SetState d (if i_active i x then 0 else 1)) r
    end.
  Definition inv_cmds : list cmd :=
    if is_empty (a_inv a) then [] else flat_map inv_group (main (a_inv a)).
  (** cpp:1239-1260. *)
  Definition aiao_group (l : list Z) : list cmd :=
    match l with
    | [] => []
    | x :: r => map (fun d => SetValue d (i_value i x)) r
    end.
  Definition aiao_cmds : list cmd :=
    if is_empty (a_aiao a) then [] else flat_map aiao_group (main (a_aiao a)).

  (** cpp:1600-1706; subgroups of h:374-384. *)
  Definition G_DI := 0%nat. Definition G_DO := 1%nat. Definition G_DEV := 2%nat.
  Definition G_REV_DEV := 3%nat. Definition G_PUMP_FREQ := 4%nat.
  Definition request (g : list (list Z)) : bool := no_dev (sub G_DI g) || existsb (i_active i) (sub G_DI g).
  Definition setting (idx : nat) (g : list (list Z)) : Z :=
    match sub G_PUMP_FREQ g with
    | x :: _ => i_value i x
    | [] => let p := u32 (nth idx (a_wash_par a) 0) in if 0 <? p then i_par i p else f_of_Z (-1)
    end.
  Definition wash_group (idx : nat) (g : list (list Z)) : list cmd :=
    let on := request g in
    let v := setting idx g in
    let given := negb (f_eq v (f_of_Z (-1))) in
    let val d := SetValue d (if on then v else f_of_Z 0) in
    map On (sub G_DO g)
    ++ flat_map (fun d => SetState d (if on then 1 else 0) ::
         (if given && ((kind d =? DT_M) || (kind d =? DT_VC) || (kind d =? DT_AO) || (kind d =? DT_REGULATOR))
          then [val d] else [])) (sub G_DEV g)
    ++ flat_map (fun d => SetState d (if on then 2 else 0) ::
         (if given && (kind d =? DT_M) then [val d] else [])) (sub G_REV_DEV g)
    ++ (if existsb (i_failed i) (sub G_DEV g) || existsb (i_failed i) (sub G_REV_DEV g)
        then map Off (sub G_DO g) else []).
  Definition wash_cmds : list cmd :=
    if is_empty (a_wash a) then [] else flat_map (fun x => wash_group (fst x) (snd x)) (number 0 (a_wash a)).

  (** * Washing of seats *)

  (** cpp:1543-1577. *)
  Definition off_checked (D : Z -> dstate) (l : list Z) : list cmd :=
    flat_map (fun d => if (kind d =? DT_V) && d_seat (D d) then [] else [Off d]) l.
  Definition off_seats (l : list Z) : list cmd :=
    flat_map (fun d => if kind d =? DT_V then [Off d; Seat d false] else [Off d]) l.
  (** cpp:1579-1597. *)
  Definition on_seats (st : Z) (l : list Z) : list cmd :=
    flat_map (fun d => if kind d =? DT_V then [SetState d st; Seat d true] else [On d]) l.
  Definition no_seats : bool := match a_upper a, a_lower a with [], [] => true | _, _ => false end.
  Definition nth_group (y : adyn) (l : list (list Z)) : list Z := sub (Z.to_nat (y_group y)) l.

  (** cpp:1309-1345. *)
  Definition seat_init (y : adyn) : adyn :=
    if no_seats then y else
    let g := Z.of_nat (length (a_upper a) + length (a_lower a)) in
    let base := if a_mode a then u32 (i_period i * 1000) else u32 (i_set_time i) in
    let flip := Z.max (i_upper i) (i_lower i) in
    let wait := u32 ((base - flip * g) mod 2 ^ w / (g + 1)) in
    seat_dyn y P_WAITING P_OPEN_UPPER 0 wait (u32 (i_now i)).

  (** cpp:1435-1454. *)
  Definition seat_finalize (y : adyn) : list cmd :=
    if no_seats then []
    else if y_phase y =? P_OPEN_UPPER then off_seats (nth_group y (a_upper a))
    else if y_phase y =? P_OPEN_LOWER then off_seats (nth_group y (a_lower a))
    else [].
  (** cpp:1374-1432: one of the two phases of opening. *)
  Definition seat_phase (y : adyn) (own : list (list Z)) (st time other : Z) : list cmd * adyn :=
    match own with
    | [] => ([], seat_dyn y other other (y_group y) (y_wait y) (y_cycle y))
    | _ =>
        if get_delta_millisec w (i_now i) (y_cycle y) <? time
        then (on_seats st (nth_group y own), y)
        else
          let n := y_group y + 1 in
          let last := Z.of_nat (length own) <=? n in
          (seat_finalize y,
           seat_dyn y P_WAITING (if last then other else y_next y) (if last then 0 else n) (y_wait y) (u32 (i_now i)))
    end.
  (** cpp:1347-1433. *)
  Definition seat_eval (D : Z -> dstate) (y : adyn) : list cmd * adyn :=
    if no_seats then ([], y)
    else if y_phase y =? P_WAITING then
      (flat_map (off_checked D) (a_lower a) ++ flat_map (off_checked D) (a_upper a),
       if y_wait y <? get_delta_millisec w (i_now i) (y_cycle y)
       then seat_dyn y (y_next y) (y_next y) (y_group y) (y_wait y) (u32 (i_now i)) else y)
    else if y_phase y =? P_OPEN_UPPER then seat_phase y (a_upper a) V_UPPER_SEAT (i_upper i) P_OPEN_LOWER
    else seat_phase y (a_lower a) V_LOWER_SEAT (i_lower i) P_OPEN_UPPER.

  (** * The step *)

  (** cpp:975-984. *)
  Definition step_init (y : adyn) : adyn :=
    let y := seat_init y in
    {| y_phase := y_phase y; y_next := y_next y; y_group := y_group y; y_wait := y_wait y; y_cycle := y_cycle y;
       y_don := i_now i; y_doff := i_now i |}.
  (** cpp:986-992. *)
  Definition step_evaluate (D : Z -> dstate) (y : adyn) : (Z -> dstate) * adyn :=
    let ex := exec (i_held i) in
    let D := ex (rev_cmds) (ex on_cmds D) in
    let D := ex (off_cmds D) D in
    let s := seat_eval D y in
    let D := ex (fst s) D in
    let D := ex wash_cmds (ex aiao_cmds (ex inv_cmds (ex dido_cmds D))) in
    (ex (doff_cmds (y_doff y)) (ex (don_cmds (y_don y)) D), snd s).
  (** cpp:598-625, 1139-1159, 1262-1282, 1733-1757. *)
  Definition off_all (g : groups) : list cmd := map Off (concat (concat g)).
  Definition off_tails (g : groups) : list cmd := map Off (flat_map (fun l => tl l) (main g)).
  Definition off_wash (g : groups) : list cmd :=
    flat_map (fun x => map Off (sub G_DO x ++ sub G_DEV x ++ sub G_REV_DEV x)) g.
  (** cpp:994-1002, in the order of the actions. *)
  Definition fin_cmds (y : adyn) : list cmd :=
    off_all (a_on a) ++ off_all (a_rev a) ++ off_all (a_off a) ++ seat_finalize y
    ++ off_tails (a_dido a) ++ off_tails (a_inv a) ++ off_tails (a_aiao a) ++ off_wash (a_wash a)
    ++ off_all (a_enable a) ++ off_all (a_don a) ++ off_all (a_doff a).
  Definition step_finalize (D : Z -> dstate) (y : adyn) : Z -> dstate := exec (i_held i) (fin_cmds y) D.
End Step.

(** * Conditions *)

(** cpp:1868-1891 [is_any_group_active]. *)
Definition any_group_active (active : Z -> bool) (g : groups) : bool :=
  if is_empty g then false else existsb (forallb active) (main g).
(** cpp:1786-1806: [ok] tells whether a device is on ([true]) or off ([false]) as the
    list demands: a valve is asked [is_opened] and [is_closed], others [is_active]. *)
Definition jump_check (kind : Z -> Z) (active opened closed : Z -> bool) (want : bool) (l : list Z) : bool :=
  forallb (fun d => if kind d =? DT_V then (if want then opened d else closed d)
                    else (if want then active d else negb (active d))) l.
(** cpp:1765-1785; [None]: no jump.  [nx] is the value left by the groups before. *)
Fixpoint jump_groups (kind : Z -> Z) (active opened closed : Z -> bool) (next_n : list Z) (nx : Z) (g : groups) : option Z :=
  match g with
  | [] => None
  | x :: r =>
      let nx := match next_n with n :: _ => n | [] => nx end in
      if jump_check kind active opened closed true (sub 0 x) && jump_check kind active opened closed false (sub 1 x)
      then Some nx else jump_groups kind active opened closed (tl next_n) nx r
  end.
Definition is_jump (kind : Z -> Z) (active opened closed : Z -> bool) (next_n : list Z) (g : groups) : option Z :=
  match next_n with [] => None | _ => jump_groups kind active opened closed next_n (-1) g end.

(** * Names of devices with errors, cpp:643-697 *)

(** [text]: the bytes from the start of the buffer; [free]: [free_size];
    [total]: [written_size].  A negative limit given to [fmt::format_to_n] is a huge
    unsigned one. *)
Record names := { text : list Z; free : Z; total : Z }.
Definition quote (nm : list Z) : list Z := [39] ++ nm ++ [39; 44; 32].
Definition add_name (nm : list Z) (s : names) : names :=
  let q := quote nm in
  let n := Z.of_nat (length q) in
  {| text := text s ++ (if free s <? 0 then q else firstn (Z.to_nat (free s)) q);
     free := free s - n; total := total s + n |}.
(** A device: its name and whether it has an error that is not suppressed. *)
Fixpoint add_subgroup (l : list (list Z * bool)) (s : names) : names :=
  match l with
  | [] => s
  | (nm, bad) :: r =>
      if bad then (let s := add_name nm s in if free s <? 0 then s else add_subgroup r s) else add_subgroup r s
  end.
Definition all_names (size : Z) (g : list (list (list (list Z * bool)))) : names :=
  fold_left (fun s x => fold_left (fun s l => add_subgroup l s) x s) g {| text := []; free := size - 1; total := 0 |}.
(** The text with its final zero, and the result. *)
Definition check_devices (size : Z) (g : list (list (list (list Z * bool)))) : list Z * Z :=
  let s := all_names size g in
  let n := length (text s) in
  if 2 <? total s then
    if free s <? 0 then (firstn (n - 3) (text s) ++ [46; 46; 46; 0], size)
    else (firstn (n - 2) (text s) ++ [0], total s - 2 + 1)
  else (text s ++ [0], 0).

(** * Checks before a start *)

(** cpp:1084-1117, 1203-1237: the first device of every list must have one of the
    given types. *)
Definition check_first (kind : Z -> Z) (types : list Z) (g : groups) : bool :=
  if is_empty g then true
  else forallb (fun l => match l with [] => true | x :: _ => existsb (Z.eqb (kind x)) types end) (main g).
(** cpp:876-896. *)
Definition check_required (active : Z -> bool) (g : groups) : bool :=
  if is_empty g then true else forallb active (sub 0 (main g)).
(** [step::check], cpp:956-973: 0 if the step may be started.  [req] are the signals
    of the action required for a state. *)
Definition step_check (kind : Z -> Z) (active : Z -> bool) (a : acts) (req : groups) : Z :=
  if negb (check_first kind [DT_DI; DT_SB; DT_GS; DT_LS; DT_FS] (a_dido a)) then 1
  else if negb (check_first kind [DT_AI; DT_PT; DT_LT; DT_FQT; DT_QT; DT_TE] (a_aiao a)) then 1
  else if negb (check_first kind [DT_DI; DT_SB; DT_GS; DT_LS; DT_FS] (a_inv a)) then 1
  else if a_mode a then (if check_required active req then 0 else 1) else 0.
