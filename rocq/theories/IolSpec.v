(** What is claimed about valves with an IO-Link head, in terms of the bytes exchanged with
    the head, the orders given and the states reported.  Nothing here is taken from the
    functions of the model: only the classes, the orders and the shapes of the records. *)
From Coq Require Import ZArith List Bool Lia.
From Verif Require Import Base IolModel.
Import ListNotations.
Open Scope Z_scope.

Inductive want := Shut | Open | Upper | Lower.
Definition gea (k : cls) : bool := match k with GeaS | GeaD => true | _ => false end.
Definition two_seats (k : cls) : bool := match k with Mix | GeaD => true | _ => false end.
Definition is_open (q : want) : bool := match q with Open => true | _ => false end.
Definition is_shut (q : want) : bool := match q with Shut => true | _ => false end.

(** * The bytes *)

(** The byte sent to the head: one solenoid and the light. *)
Definition byte_of (k : cls) (q : want) (lamp : bool) : Z :=
  match k, q with
  | _, Shut => 0
  | (Mix | Think), Open => 16
  | Mix, Upper => 32
  | Mix, Lower => 64
  | (Sorio | GeaS | GeaD), Open => 1
  | GeaD, Upper => 4
  | GeaD, Lower => 2
  | _, _ => 0
  end + match k with Mix | Think => if lamp then 128 else 0 | Sorio => if lamp then 8 else 0 | _ => 0 end.

(** Bits of the bytes received: byte, bit. *)
Definition bit (d : mem) (a n : Z) : bool := Z.testbit (d a) n.
(** Alfa Laval and Definox: byte 3: closed, open, upper seat, lower seat, position reached;
    byte 2 (Definox: the high half of byte 3): errors.  GEA: byte 0: limit switches 1, 2, -, 4, setup; byte 1:
    solenoids 1, 2, 3, error. *)
Definition errors (k : cls) (d : mem) : bool :=
  match k with
  | Mix | Think => negb (Z.land (d 2) 31 =? 0)
  | Sorio => negb (Z.land (d 3) 240 =? 0)
  | _ => bit d 1 3 || bit d 0 4
  end.
(** Where the head says the valve is. *)
Definition position (k : cls) (d : mem) : want :=
  match k with
  | Mix => if bit d 3 0 then Shut else if bit d 3 1 then Open else if bit d 3 2 then Upper else if bit d 3 3 then Lower else Shut
  | Think | Sorio => if bit d 3 0 then Shut else if bit d 3 1 then Open else Shut
  | GeaS => if bit d 1 0 then Open else Shut
  | GeaD => match bit d 1 0, bit d 1 1, bit d 1 2 with
            | true, false, false => Open
            | false, false, true => Upper
            | false, true, false => Lower
            | _, _, _ => Shut
            end
  end.
(** The head confirms what was asked for (GEA: what its own solenoids do). *)
Definition confirms (k : cls) (d : mem) (q : want) : bool :=
  match k with
  | Mix => bit d 3 4 && match q with
                        | Shut => bit d 3 0
                        | Open => bit d 3 1
                        | Upper => bit d 3 0 || bit d 3 2
                        | Lower => bit d 3 0 || bit d 3 3
                        end
  | Think => bit d 3 4 && (if is_open q then bit d 3 1 else bit d 3 0)
  | Sorio => if is_open q then bit d 3 1 else bit d 3 0
  | _ => match bit d 1 0, bit d 1 1, bit d 1 2 with
         | false, false, false => bit d 0 0 && bit d 0 3
         | true, false, false => bit d 0 1
         | false, true, false => true
         | false, false, true => bit d 0 0 && bit d 0 3
         | _, _, _ => false
         end
  end.

(** * Orders *)

(** A state command: 0 closes, 2 and 3 open a seat of a valve with two, any other number opens. *)
Definition meaning (k : cls) (n : Z) : want :=
  if n =? 0 then Shut else if two_seats k && (n =? 2) then Upper else if two_seats k && (n =? 3) then Lower else Open.
Definition asks (k : cls) (held : bool) (o : order) : option want :=
  match o with
  | On => if held then None else Some Open
  | Instant => if held then None else Some Shut
  | Set_ n => if held then None else Some (meaning k n)
  | Cmd n => Some (meaning k n)
  | Seat u => if two_seats k then Some (if u then Upper else Lower) else None
  | _ => None
  end.
(** What is known after a history: the bytes received last, manual mode, the light, what
    was asked for, since when. *)
Record past := { got : mem; held : bool; lamp : bool; asked : want; since : Z }.
(** The order starts the time anew: an order to open unless the head reports the valve open
    (GEA: all three solenoids on), any other order if the valve was not to be closed. *)
Definition restarts (k : cls) (p : past) (q : want) : bool :=
  if is_open q then
    if gea k then negb (bit (got p) 1 0 && bit (got p) 1 1 && bit (got p) 1 2) else negb (bit (got p) 3 1)
  else negb (is_shut (asked p)).
Definition note (k : cls) (p : past) (x : order * env) : past :=
  {| got := match fst x with Eval => data (snd x) | _ => got p end;
     held := match fst x with Man n => if n =? 0 then false else if n =? 1 then true else held p | _ => held p end;
     lamp := match fst x with Blink b => b | _ => lamp p end;
     asked := match asks k (held p) (fst x) with Some q => q | None => asked p end;
     since := match asks k (held p) (fst x) with Some q => if restarts k p q then now (snd x) else since p | None => since p end |}.
(** After the first cycle with the bytes [d]. *)
Definition first (d : mem) (t0 : Z) : past := {| got := d; held := false; lamp := false; asked := Shut; since := t0 |}.
Definition past_of (k : cls) (d : mem) (t0 : Z) (l : list (order * env)) : past := fold_left (note k) l (first d t0).
(** The clock never goes back and does not wrap. *)
Fixpoint timely (w t : Z) (l : list (order * env)) : Prop :=
  match l with
  | [] => True
  | x :: r => t <= now (snd x) < 2 ^ w /\ timely w (now (snd x)) r
  end.

(** * What is reported *)

Definition right (k : cls) (E : env) (p : past) : bool :=
  (link E =? 0) && negb (errors k (got p)) && ((now E - since p <? p_time E) || confirms k (got p) (asked p)).
(** h:64-99. *)
Definition report (k : cls) (E : env) (p : past) : Z :=
  let late := p_time E <? now E - since p in
  match position k (got p) with
  | Open => if negb (p_fb E) then (if held p then 31 else 11)
            else if right k E p then (if held p then 21 else 1)
            else if late then (if held p then -12 else -2) else (if held p then 42 else 40)
  | Shut => if negb (p_fb E) then (if held p then 30 else 10)
            else if right k E p then (if held p then 20 else 0)
            else if late then (if held p then -13 else -3) else (if held p then 43 else 41)
  | q => let n := match q with Upper => 2 | _ => 3 end in
         if held p then 20 + n
         else if negb (p_fb E) then 30 + n
         else if gea k || right k E p then n else -3
  end.
