(** What is claimed about motors, in terms of the orders given, the outputs and the states
    reported.  Nothing here is taken from the functions of the model: only the kinds, the
    orders and the shapes of the records. *)
From Coq Require Import ZArith List Bool Lia.
From Verif Require Import Base MotModel.
Import ListNotations.
Open Scope Z_scope.

Inductive want := Stop | Ahead | Astern.
Definition want_eqb (a b : want) : bool := match a, b with Stop, Stop | Ahead, Ahead | Astern, Astern => true | _, _ => false end.
Definition runs (q : want) : bool := negb (want_eqb q Stop).
(** The motor has a reverse; as a direction beside the start, or as a second contactor. *)
Definition reverses (k : kind) : bool := match k with M | Freq => false | _ => true end.
Definition contactors (k : kind) : bool := match k with Rev2 | RevFreq2 | Rev2Err | RevFreq2Err => true | _ => false end.
Definition speed_set (k : kind) : bool := match k with Freq | RevFreq | RevFreq2 | RevFreq2Err => true | _ => false end.
Definition monitored (k : kind) : bool := match k with Rev2Err | RevFreq2Err => true | _ => false end.
(** The outputs: start, reverse. *)
Definition wires (k : kind) (q : want) : bool * bool :=
  match q with Stop => (false, false) | Ahead => (true, false) | Astern => (negb (contactors k), true) end.

(** A state command: 0 stops, 2 reverses if there is a reverse, any other number starts. *)
Definition meaning (k : kind) (n : Z) : want := if n =? 0 then Stop else if reverses k && (n =? 2) then Astern else Ahead.
Definition asks (k : kind) (held : bool) (o : order) : option want :=
  match o with
  | On => if held then None else Some Ahead
  | Off => if held then None else Some Stop
  | Set_ n => if held then None else Some (meaning k n)
  | Back => if held then None else Some (meaning k 2)
  | Cmd n => Some (meaning k n)
  | _ => None
  end.
Definition speed_asked (held : bool) (o : order) : option Z :=
  match o with Value v => if held then None else Some v | CmdV v => Some v | _ => None end.
(** [since]: the last time the motor was switched or was seen in order. *)
Record past := { held : bool; asked : want; speed : Z; since : Z }.
Definition fresh (t0 : Z) : past := {| held := false; asked := Stop; speed := 0; since := t0 |}.
(** The input shows the motor in order. *)
Definition fine (k : kind) (i : bool) (q : want) : bool := if monitored k then negb i else Bool.eqb i (runs q).
Definition note (k : kind) (p : past) (x : order * env) : past :=
  let q := match asks k (held p) (fst x) with Some q => q | None => asked p end in
  {| held := match fst x with Man n => if n =? 0 then false else if n =? 1 then true else held p | _ => held p end;
     asked := q;
     speed := if speed_set k then
                match asks k (held p) (fst x) with
                | Some Stop => 0
                | _ => match speed_asked (held p) (fst x) with Some v => v | None => speed p end
                end
              else 0;
     since := if negb (want_eqb q (asked p)) || match fst x with Poll => fine k (di (snd x)) (asked p) | _ => false end
              then now (snd x) else since p |}.
Definition past_of (k : kind) (t0 : Z) (l : list (order * env)) : past := fold_left (note k) l (fresh t0).
Fixpoint timely (w t : Z) (l : list (order * env)) : Prop :=
  match l with
  | [] => True
  | x :: r => t <= now (snd x) < 2 ^ w /\ timely w (now (snd x)) r
  end.

(** 0, 1, 2: stands, runs, runs in reverse; -1: error. *)
Definition code (q : want) : Z := match q with Stop => 0 | Ahead => 1 | Astern => 2 end.
Definition report (k : kind) (E : env) (p : past) : Z :=
  if fine k (di E) (asked p) then code (asked p)
  else if p_time E <? now E - since p then -1
  else if monitored k then code (asked p) else if di E then 1 else 0.
