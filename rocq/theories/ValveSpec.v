(** What is claimed about valves, in terms of the orders given, the outputs driven and
    the states reported.  Nothing here is taken from the functions of the model: only
    the kinds of valves, the orders and the shapes of the records. *)
From Coq Require Import ZArith List Bool Lia.
From Verif Require Import Base ValveModel.
Import ListNotations.
Open Scope Z_scope.

(** The clock of the calls never goes back and does not wrap. *)
Fixpoint timely (w t : Z) (l : list (order * env)) : Prop :=
  match l with
  | [] => True
  | x :: r => t <= now (snd x) < 2 ^ w /\ timely w (now (snd x)) r
  end.

(** The valve an order is for; readings are for nobody. *)
Definition target (o : order) : option Z :=
  match o with
  | On d | Off d | Instant d | Set_ d _ | Seat d _ | Cmd d _ | Man d _ => Some d
  | Poll _ | Eval => None
  end.
(** No order for valve [d]. *)
Definition quiet (d : Z) (l : list (order * env)) : Prop :=
  Forall (fun x => target (fst x) <> Some d) l.
(** No order for valve [d] but to close. *)
Definition only_off (d : Z) (l : list (order * env)) : Prop :=
  Forall (fun x => target (fst x) <> Some d \/ fst x = Off d) l.
(** The operator last left the valve under manual control. *)
Fixpoint held (d : Z) (l : list (order * env)) (b : bool) : bool :=
  match l with
  | [] => b
  | (Man x n, _) :: r =>
      held d r (if x =? d then if n =? 0 then false else if n =? 1 then true else b else b)
  | _ :: r => held d r b
  end.

(** The outputs an order to open / to close leaves a valve with. *)
Definition opens (k : kind) (a b c : bool) : Prop :=
  match k with
  | DO1 | DI1off | DI1on | DI2 => a = true
  | DO2 => a = false /\ b = true
  | DO2DI2 => a = true /\ b = false
  | Mix => a = true /\ b = false /\ c = false
  | Mini => a = true /\ b = false
  | _ => False
  end.
Definition shuts (k : kind) (a b c : bool) : Prop :=
  match k with
  | DO1 | DI1off | DI1on | DI2 => a = false
  | DO2 => a = true /\ b = false
  | DO2DI2 => a = false /\ b = true
  | Mix => a = false /\ b = false /\ c = false
  | Mini => a = false /\ b = false
  | _ => False
  end.
(** Valves that keep their position by their outputs and have no valve of their own
    to close later. *)
Definition plain (k : kind) : bool :=
  match k with DO1 | DO2 | DI1off | DI1on | DI2 | DO2DI2 | Mix | Mini => true | _ => false end.

Definition is_open (k : kind) (s : vst) : Prop := opens k (o0 s) (o1 s) (o2 s).
Definition is_shut (k : kind) (s : vst) : Prop := shuts k (o0 s) (o1 s) (o2 s).
Definition outputs (s : vst) : bool * bool * bool := (o0 s, o1 s, o2 s).

(** Every service cycle of [l] comes at most its delay after [t]. *)
Definition within (t : Z) (l : list (order * env)) : Prop :=
  Forall (fun x => fst x = Eval -> now (snd x) - t <= delay (snd x)) l.

(** Classes whose state command is the one of the base class. *)
Definition bare (k : kind) : bool :=
  match k with DO1 | DO2 | DI1off | DI1on | DI2 | DO2DI2 => true | _ => false end.

(** Outputs that exclude each other. *)
Definition exclusive (k : kind) (a b c : bool) : Prop :=
  match k with
  | DO2 | DO2DI2 | Bist | Mini => ~ (a = true /\ b = true)
  | Mix => ~ (a = true /\ b = true) /\ ~ (a = true /\ c = true) /\ ~ (b = true /\ c = true)
  | Bottom => ~ (a = true /\ c = true)
  | _ => True
  end.

(** The sensors of a valve agree with its outputs. *)
Definition agrees (k : kind) (a b c i0 i1 : bool) : bool :=
  match k with
  | DI1off => xorb a i0
  | DI1on => eqb a i0
  | DI2 | Mini => if a then i0 && negb i1 else negb i0 && i1
  | DO2DI2 => eqb a i0 && eqb b i1
  | Mix => if a then i0 && negb i1 else b || c || (negb i0 && i1)
  | Bottom => if a then i0 && negb i1 else c || (negb i0 && i1)
  | _ => true
  end.
(** The position the outputs mean, as it is reported. *)
Inductive position := Opened | Closed | Upper | Lower.
Definition position_of (k : kind) (a b c : bool) : position :=
  match k with
  | DO2DI2 => if b then Closed else Opened
  | Mix | Bottom => if a then Opened else if b then Upper else if c then Lower else Closed
  | Mini => if a then Opened else if b then Lower else Closed
  | _ => if a then Opened else Closed
  end.
(** The verdict on the feedback. *)
Inductive verdict := Good | Moving | Bad | NoFeedback.
(** valve.h:69-103: the codes of states. *)
Definition code (p : position) (man : bool) (v : verdict) : Z :=
  match p, v with
  | Upper, NoFeedback => if man then 22 else 32
  | Upper, _ => if man then 22 else 2
  | Lower, NoFeedback => if man then 23 else 33
  | Lower, _ => if man then 23 else 3
  | Opened, Good => if man then 21 else 1
  | Opened, Moving => if man then 42 else 40
  | Opened, Bad => if man then -12 else -2
  | Opened, NoFeedback => if man then 31 else 11
  | Closed, Good => if man then 20 else 0
  | Closed, Moving => if man then 43 else 41
  | Closed, Bad => if man then -13 else -3
  | Closed, NoFeedback => if man then 30 else 10
  end.
(** Valves with feedback whose outputs stay. *)
Definition steady (k : kind) : bool :=
  match k with DI1off | DI1on | DI2 | DO2DI2 | Mix | Bottom | Mini => true | _ => false end.
Definition one_sensor (k : kind) : bool := match k with DI1off | DI1on => true | _ => false end.
Definition opposite (p : position) : position :=
  match p with Opened => Closed | Closed => Opened | q => q end.
(** The time allowed for the feedback starts again: the outputs of the valve change, or
    a valve with one sensor is read and the sensor agrees. *)
Definition restarts (k : kind) (d : Z) (before after : vst) (x : order * env) : Prop :=
  outputs before <> outputs after \/
  (one_sensor k = true /\ fst x = Poll d /\ p_fb (ins (snd x) d) = true /\
   agrees k (o0 before) (o1 before) (o2 before) (di0 (ins (snd x) d)) (di1 (ins (snd x) d)) = true).
(** Orders to close and commands of the mode only. *)
Definition only_off_man (d : Z) (l : list (order * env)) : Prop :=
  Forall (fun x => target (fst x) <> Some d \/ fst x = Off d \/ exists n, fst x = Man d n) l.
Definition no_cycle (l : list (order * env)) : Prop := Forall (fun x => fst x <> Eval) l.
(** Codes of a feedback error. *)
Definition error_code (c : Z) : Prop := c = -2 \/ c = -3 \/ c = -12 \/ c = -13.
(** [dt]: the time since the outputs were last switched (for a valve with one sensor:
    or since the sensor was last seen to agree). *)
Definition judge (agree fb : bool) (dt T : Z) : verdict :=
  if fb then if agree || (dt <? T) then Good else if dt =? T then Moving else Bad
  else NoFeedback.
(** The list of bistable valves is right. *)
Definition wired (K : Z -> kind) (B : list Z) : Prop := forall d, In d B <-> K d = Bist.
(** The outputs a state command gives to the valves with seats: 0 closed, 2 upper seat,
    3 lower seat, anything else open. *)
Definition commanded (k : kind) (n : Z) : bool * bool * bool :=
  match k with
  | Mix => if n =? 0 then (false, false, false) else if n =? 2 then (false, true, false)
           else if n =? 3 then (false, false, true) else (true, false, false)
  | _ => if (n =? 0) || (n =? 2) then (false, false, false)
         else if n =? 3 then (false, true, false) else (true, false, false)
  end.
(** The input (0 or 1) of the sensor of the open and of the closed position. *)
Definition open_sensor (k : kind) : option Z :=
  match k with
  | DI1on | DI2 | Bist | Mix | Bottom | Mini => Some 0
  | DO2DI2 => Some 1
  | DI1off | Virt | DO1 | DO2 => None
  end.
Definition closed_sensor (k : kind) : option Z :=
  match k with
  | DI2 | Bist | Mix | Bottom | Mini => Some 1
  | DI1off | DO2DI2 => Some 0
  | DI1on | Virt | DO1 | DO2 => None
  end.
