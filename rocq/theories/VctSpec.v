(** What a virtual counter should count. *)
From Coq Require Import ZArith List Bool QArith.
From Verif Require Import Base FTextModel FloatModel DevModel DevSpec VctModel.
Import ListNotations.
Open Scope Z_scope.

(** Manual mode after a history. *)
Definition hand (h : list vev) : bool :=
  fold_left (fun b e => match e with
                        | VCmd (77 :: _) (DFin _ q) => if Qeq_bool q 0 then false else if Qeq_bool q 1 then true else b
                        | _ => b
                        end) h false.
(** The last readings. *)
Definition last_read (h : list vev) : option (Z * Z) :=
  fold_left (fun l e => match e with VEval rv av _ => Some (rv, av) | _ => l end) h None.
(** Growth of a reading. *)
Definition growth (before : option Z) (now : Z) : Z := match before with Some b => Z.max 0 (now - b) | None => 0 end.
(** Litres counted: the growth of the readings since the last new start. *)
Fixpoint litres (rh : list vev) : Z :=       (* latest event first *)
  match rh with
  | [] => 0
  | VEval rv _ _ :: h => litres h + growth (option_map fst (last_read (rev h))) rv
  | VSet nv _ _ :: _ => nv
  | VReset :: _ => 0
  | VOrder (OOff | OInstantOff) :: h => if hand (rev h) then litres h else 0
  | _ :: h => litres h
  end.
Fixpoint total (rh : list vev) : Z :=
  match rh with
  | [] => 0
  | VEval _ av _ :: h => total h + growth (option_map snd (last_read (rev h))) av
  | VSet _ na _ :: _ => na
  | VAbsReset :: _ => 0
  | VCmd (65 :: _) (DFin _ q) :: _ => Z.quot (Qnum q) (Zpos (Qden q))
  | _ :: h => total h
  end.
(** The state: 1 working, 2 paused. *)
Fixpoint counter_state (rh : list vev) : Z :=
  match rh with
  | [] => 1
  | VPause :: _ => 2
  | VStart :: _ => 1
  | VOrder OOn :: h => if hand (rev h) then counter_state h else 1
  | VOrder (OSetState n) :: h => if hand (rev h) then counter_state h else n
  | VCmd (83 :: _) v :: h => match whole_part v with Some n => n | None => counter_state h end
  | _ :: h => counter_state h
  end.
(** Unsigned numbers of 32 bits as arguments. *)
Definition args_ok (e : vev) : Prop :=
  match e with
  | VEval rv av _ => 0 <= rv < 2 ^ 32 /\ 0 <= av < 2 ^ 32
  | VSet nv na _ => 0 <= nv < 2 ^ 32 /\ 0 <= na < 2 ^ 32
  | _ => True
  end.
(** The program and the operator give no value directly. *)
Definition only_counts (e : vev) : Prop :=
  match e with
  | VOrder (OSetValue _) => False
  | VCmd (86 :: _) _ => False
  | _ => True
  end.
(** At no time more than [m] litres, readings grow by less than 2^24 at once. *)
Fixpoint moderate (rh : list vev) : Prop :=
  match rh with
  | [] => True
  | e :: h => litres rh < 2 ^ 24 /\ moderate h
  end.
