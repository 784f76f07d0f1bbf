(** Independent specification for the actions of a step: what one device is told. *)
From Coq Require Import ZArith List Bool QArith.
From Verif Require Import Base FTextModel FloatModel OpModel OpSpec ActModel.
Import ListNotations.
Open Scope Z_scope.

Definition has (d : Z) (l : list Z) : bool := existsb (Z.eqb d) l.
(** The first group of an action, the [k]-th list of a group. *)
Definition row {A} (g : list (list A)) : list A := match g with [] => [] | x :: _ => x end.
Definition col (k : nat) (l : list (list Z)) : list Z := nth k l [].

(** The word that counts is the last one. *)
Definition over (x y : option Z) : option Z := match y with Some _ => y | None => x end.
Fixpoint latest {A} (f : A -> option Z) (l : list A) : option Z :=
  match l with [] => None | x :: r => over (f x) (latest f r) end.
Fixpoint latest_at {A} (f : nat -> A -> option Z) (n : nat) (l : list A) : option Z :=
  match l with [] => None | x :: r => over (f n x) (latest_at f (S n) r) end.
Definition heard (old : Z) (x : option Z) : Z := match x with Some v => v | None => old end.

(** A delay of [limit] (a float, ms) has passed [e] ms after its start; without a
    number it counts as passed at once. *)
Definition passed (e limit : Z) : bool :=
  if f_isnan limit then true
  else if f_isinf limit then f_neg limit
  else negb (Qle_bool (inject_Z e) (f_val limit)).

Definition VALVE := 0. Definition MOTOR := 2. Definition CONTROL_VALVE := 1.
Definition ANALOG_OUT := 16. Definition REGULATOR := 20.

Section Device.
  Context (kind : Z -> Z) (a : acts) (i : inputs) (y : adyn) (flag : bool) (d : Z).
  (** [flag]: a seat of this valve is being washed. *)
  Definition washed : bool := (kind d =? VALVE) && flag.

  (** ** Orders for the state, in the order in which they are given *)
  Definition s_on : option Z := if has d (col 0 (row (a_on a))) then Some 1 else None.
  Definition s_reverse : option Z := if has d (col 0 (row (a_rev a))) then Some 2 else None.
  Definition s_off : option Z := if has d (col 0 (row (a_off a))) && negb washed then Some 0 else None.

  (** Seats. *)
  Definition s_wait : option Z :=
    if existsb (has d) (a_upper a ++ a_lower a) && negb washed then Some 0 else None.
  Definition s_open (seat : Z) (group : list Z) : option Z :=
    if has d group then Some (if kind d =? VALVE then seat else 1) else None.
  Definition s_close (group : list Z) : option Z := if has d group then Some 0 else None.

  (** Phase 0: waiting; 1: the upper seats of a group are open; 2: the lower ones. *)
  Definition seat_group : list Z := col (Z.to_nat (y_group y)) (if y_phase y =? 1 then a_upper a else a_lower a).
  Definition seat_open_now : bool :=
    negb (y_phase y =? 0) && (i_now i - y_cycle y <? (if y_phase y =? 1 then i_upper i else i_lower i)).
  Definition s_seat : option Z :=
    if y_phase y =? 0 then s_wait
    else if seat_open_now then s_open (if y_phase y =? 1 then 2 else 3) seat_group
    else s_close seat_group.
  Definition flag_after : bool :=
    if (kind d =? VALVE) && negb (y_phase y =? 0) && has d seat_group then seat_open_now else flag.

  Definition told (sig : Z -> Z) (l : list Z) : option Z :=
    match l with [] => None | x :: r => if has d r then Some (sig x) else None end.
  Definition s_dido : option Z := latest (told (fun x => if i_active i x then 1 else 0)) (row (a_dido a)).
  Definition s_inverted : option Z := latest (told (fun x => if i_active i x then 0 else 1)) (row (a_inv a)).

  (** Washing: requested if there is no request signal or one of them is on. *)
  Definition asked (g : list (list Z)) : bool :=
    match col 0 g with [] => true | l => existsb (i_active i) l end.
  Definition faulty (g : list (list Z)) : bool := existsb (i_failed i) (col 2 g ++ col 3 g).
  Definition s_wash (g : list (list Z)) : option Z :=
    if faulty g && has d (col 1 g) then Some 0
    else if has d (col 3 g) then Some (if asked g then 2 else 0)
    else if has d (col 2 g) then Some (if asked g then 1 else 0)
    else if has d (col 1 g) then Some 1 else None.

  Definition delay_over (start : Z) (pars : list Z) (n : nat) : bool :=
    let p := nth n pars 0 in if 0 <? p then passed (i_now i - start) (i_par i p) else true.
  Definition s_delay_on (n : nat) (l : list Z) : option Z :=
    if has d l && delay_over (y_don y) (a_don_par a) n then Some 1 else None.
  Definition s_delay_off (n : nat) (l : list Z) : option Z :=
    if has d l then Some (if delay_over (y_doff y) (a_doff_par a) n then 0 else 1) else None.

  (** ** Orders for the value *)
  (** Switching off resets the value; switching on and [set_state] keep it. *)
  Definition zeroed (s : option Z) : option Z := match s with Some 0 => Some 0 | _ => None end.
  Definition v_dido : option Z := latest (fun l => zeroed (told (fun x => if i_active i x then 1 else 0) l)) (row (a_dido a)).
  Definition v_aiao : option Z := latest (told (i_value i)) (row (a_aiao a)).
  (** The setting of a group: the first setting device, else the parameter, else none. *)
  Definition wash_setting (n : nat) (g : list (list Z)) : option Z :=
    let v := match col 4 g with
             | x :: _ => i_value i x
             | [] => if nth n (a_wash_par a) 0 mod 2 ^ 32 =? 0 then 3212836864
                     else i_par i (nth n (a_wash_par a) 0 mod 2 ^ 32)
             end in
    if v =? 3212836864 then None else Some v.
  Definition v_wash (n : nat) (g : list (list Z)) : option Z :=
    if faulty g && has d (col 1 g) then Some 0
    else match wash_setting n g with
    | None => None
    | Some v =>
        if has d (col 3 g) && (kind d =? MOTOR) || has d (col 2 g) && existsb (Z.eqb (kind d)) [MOTOR; CONTROL_VALVE; ANALOG_OUT; REGULATOR]
        then Some (if asked g then v else 0) else None
    end.

  (** ** Together *)
  Definition state_order : option Z :=
    fold_left over [s_on; s_reverse; s_off; s_seat; s_dido; s_inverted; latest s_wash (a_wash a);
                    latest_at s_delay_on 0 (row (a_don a)); latest_at s_delay_off 0 (row (a_doff a))] None.
  Definition value_order : option Z :=
    fold_left over [zeroed s_off; zeroed s_seat; v_dido; v_aiao; latest_at v_wash 0 (a_wash a)] None.
End Device.

(** ** Names *)

(** Lists in which an action can switch a device on. *)
Definition named (a : acts) (d : Z) : Prop :=
  In d (col 0 (row (a_on a))) \/ In d (col 0 (row (a_rev a)))
  \/ (exists l, (In l (row (a_dido a)) \/ In l (row (a_inv a)) \/ In l (row (a_aiao a))) /\ In d (tl l))
  \/ (exists g, In g (a_wash a) /\ (In d (col 1 g) \/ In d (col 2 g) \/ In d (col 3 g)))
  \/ (exists l, (In l (row (a_don a)) \/ In l (row (a_doff a))) /\ In d l).
(** Everything the end of a step switches off besides the open seats. *)
Definition listed (a : acts) (d : Z) : Prop :=
  named a d
  \/ (exists g l, In g (a_on a ++ a_rev a ++ a_off a ++ a_enable a ++ a_don a ++ a_doff a) /\ In l g /\ In d l).
Definition seated (a : acts) (d : Z) : Prop := exists l, In l (a_upper a ++ a_lower a) /\ In d l.

(** ** A history of steps acting on devices *)

Record world := { devs : Z -> dstate; dyns : Z -> Z -> adyn }.
(** [A s k]: the actions of step [k] of state [s]. *)
Definition act_on (w : Z) (kind : Z -> Z) (A : Z -> Z -> acts) (x : event * inputs) (W : world) : world :=
  let i := snd x in
  let upd s k y := fun s' k' => if (s' =? s) && (k' =? k) then y else dyns W s' k' in
  match fst x with
  | Init s k => {| devs := devs W; dyns := upd s k (step_init w (A s k) i (dyns W s k)) |}
  | Eval s k => let r := step_evaluate w kind (A s k) i (devs W) (dyns W s k) in
                {| devs := fst r; dyns := upd s k (snd r) |}
  | Fin s k => {| devs := step_finalize kind (A s k) i (devs W) (dyns W s k); dyns := dyns W |}
  end.
(** Newest event first, as in the trace of an operation. *)
Fixpoint play (w : Z) (kind : Z -> Z) (A : Z -> Z -> acts) (t : list (event * inputs)) (W : world) : world :=
  match t with [] => W | x :: r => act_on w kind A x (play w kind A r W) end.
(** Before the first event: the device is off, no action has run yet. *)
Definition resting (d : Z) (W : world) : Prop :=
  d_state (devs W d) = 0 /\ d_value (devs W d) = 0 /\ d_seat (devs W d) = false /\
  forall s k, exists now, dyns W s k = new_dyn now.
(** No step is started while it is engaged. *)
Fixpoint no_restart (t : list event) : Prop :=
  match t with
  | [] => True
  | x :: r => match x with Init s k => engaged r s k = false | _ => True end /\ no_restart r
  end.

(** ** Washing of seats as a round *)

(** All groups in the order of the round: upper seats, then lower ones. *)
Definition round_groups (a : acts) : list (list Z) := a_upper a ++ a_lower a.
(** At this evaluation the time of the open group is over. *)
Definition closes (a : acts) (i : inputs) (y : adyn) : bool :=
  negb (y_phase y =? 0) && negb (seat_open_now i y) &&
  match (if y_phase y =? 1 then a_upper a else a_lower a) with [] => false | _ => true end.
(** Devices, state of the washing and number of finished openings after a series of
    evaluations. *)
Fixpoint washing (w : Z) (kind : Z -> Z) (a : acts) (l : list inputs) (D : Z -> dstate) (y : adyn) (c : nat)
  : (Z -> dstate) * adyn * nat :=
  match l with
  | [] => (D, y, c)
  | i :: r => let s := step_evaluate w kind a i D y in
              washing w kind a r (fst s) (snd s) (if closes a i y then S c else c)
  end.
(** The clock does not go back and does not wrap. *)
Fixpoint forward (t : Z) (l : list inputs) : Prop :=
  match l with [] => True | i :: r => t <= i_now i < 2 ^ 32 /\ forward (i_now i) r end.

(** ** Conditions for a jump, names *)

Definition device_ok (kind : Z -> Z) (active opened closed : Z -> bool) (want : bool) (d : Z) : Prop :=
  if kind d =? VALVE then (if want then opened d = true else closed d = true) else active d = want.
Definition group_ok (kind : Z -> Z) (active opened closed : Z -> bool) (g : list (list Z)) : Prop :=
  (forall d, In d (col 0 g) -> device_ok kind active opened closed true d) /\
  (forall d, In d (col 1 g) -> device_ok kind active opened closed false d).

(** Where devices are put: device, group, list. *)
Definition cell (g : list (list (list Z))) (n k : nat) : list Z := nth k (nth n g []) [].
Definition placed (n k : nat) (l : list (Z * nat * nat)) : list Z :=
  map (fun x => fst (fst x)) (filter (fun x => (snd (fst x) =? n)%nat && (snd x =? k)%nat) l).

(** The names in quotes, separated by a comma and a space. *)
Fixpoint joined (l : list (list Z)) : list Z :=
  match l with
  | [] => []
  | [x] => 39 :: x ++ [39]
  | x :: r => 39 :: x ++ 39 :: 44 :: 32 :: joined r
  end.
(** The names of the devices with errors. *)
Definition bad_names (l : list (list Z * bool)) : list (list Z) := map fst (filter snd l).
