(** What is claimed about timers and threshold regulators.  Only calls, their execution and
    the readings come from the model. *)
From Coq Require Import ZArith List Bool Lia QArith Qabs.
From Verif Require Import Base FTextModel FloatModel TmrModel.
Import ListNotations.
Open Scope Z_scope.

(** * Timers *)

Definition time_of (e : tev) : Z := match e with Start t | Reset t | Hold t | Count t _ => t end.
(** The clock does not go back and does not wrap. *)
Fixpoint timely (w t : Z) (l : list tev) : Prop := match l with [] => True | e :: r => t <= time_of e < 2 ^ w /\ timely w (time_of e) r end.
Fixpoint latest (t : Z) (l : list tev) : Z := match l with [] => t | e :: r => latest (time_of e) r end.
(** A timer runs in the millisecond [u] if the last of the calls that start, stop or reset it, up to then, started it. *)
Definition running (l : list tev) (u : Z) : bool :=
  fold_left (fun b e => if time_of e <=? u then match e with Start _ => true | Reset _ | Hold _ => false | Count _ _ => b end else b) l false.
(** The time of the last reset (0: none) and the limit last set. *)
Definition reset_at (l : list tev) : Z := fold_left (fun t e => match e with Reset u => u | _ => t end) l 0.
Definition limit (l : list tev) : Z := fold_left (fun n e => match e with Count _ m => m | _ => n end) l 0.
(** The number of the milliseconds from [a], [n] of them, in which [f] holds. *)
Fixpoint count (f : Z -> bool) (a : Z) (n : nat) : Z := match n with O => 0 | S n => Z.b2z (f a) + count f (a + 1) n end.
(** For how long the timer ran since the last reset. *)
Definition elapsed (l : list tev) (now : Z) : Z := count (running l) (reset_at l) (Z.to_nat (now - reset_at l)).
(** The calls that concern timer [i]. *)
Definition calls (i : Z) (l : list (Z * tev)) : list tev := map snd (filter (fun c => fst c =? i) l).

(** * Threshold regulators *)

(** Rounding of a sum of two numbers of single precision. *)
Definition slack (x : Q) : Q := Qabs x * (1 # 16777216) + p2 (-150).
Definition small (a b : Z) : Prop :=
  f_finite a = true /\ f_finite b = true /\ (Qabs (f_val a + f_val b) <= p2 127 /\ Qabs (f_val a - f_val b) <= p2 127)%Q.
(** Above the set value by more than the band; below; within the band. *)
Definition above (v d x : Z) : Prop := (f_val v + f_val d + slack (f_val v + f_val d) < f_val x)%Q.
Definition below (v d x : Z) : Prop := (f_val x < f_val v - f_val d - slack (f_val v - f_val d))%Q.
Definition inside (v d x : Z) : Prop :=
  (f_val v - f_val d + slack (f_val v - f_val d) <= f_val x /\ f_val x <= f_val v + f_val d - slack (f_val v + f_val d))%Q.
(** Regulation that is on: calls that leave it on, manual mode off, parameters alone; only values within the band. *)
Definition quiet (d : Z) (e : rev_) : Prop :=
  match e with
  | On => True
  | Set_ n | CmdSt n => n <> 0
  | Val v x | CmdV v x => small v d /\ f_finite x = true /\ inside v d x
  | Man _ => True
  | _ => False
  end.
(** Manual mode and the parameters after some calls. *)
Definition manual (l : list rev_) : bool := fold_left (fun b e => match e with Man n => if n =? 0 then false else if n =? 1 then true else b | _ => b end) l false.
Definition band (l : list rev_) : Z := fold_left (fun d e => match e with ParDelta v => v | _ => d end) l 0.
Definition reverse (l : list rev_) : Z := fold_left (fun d e => match e with ParRev v => v | _ => d end) l 0.
(** A regulation call that is executed. *)
Definition regulate (man : bool) (e : rev_) : option (Z * Z) :=
  match e with Val v x => if man then None else Some (v, x) | CmdV v x => Some (v, x) | _ => None end.
