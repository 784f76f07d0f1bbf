(** What is claimed about valves on AS-interface gateways and pneumatic terminals, in terms
    of the orders given, the bits sent and the states reported.  Nothing here is taken from
    the functions of the model: only the classes, the orders and the shapes of the records. *)
From Coq Require Import ZArith List Bool Lia.
From Verif Require Import Base BusModel.
Import ListNotations.
Open Scope Z_scope.

(** * Where the solenoids are *)

Definition gateway (c : conf) : bool := match kind c with AsMix | AsCut => true | _ => false end.
Definition seats (c : conf) : bool := match kind c with AsMix | T3 | T3two => true | _ => false end.
Definition base (c : conf) (i : Z) : Z := match ch c i with Some a => a | None => 0 end.
(** The half-bytes of a gateway are numbered from its first byte, the high half first;
    numbers 0..31 (slaves A) follow each other from half-byte 16, numbers from 32 (slaves B)
    from half-byte 49. *)
Definition half (n : Z) : Z := if n <? 32 then 16 + n else 17 + n.
Definition lowest (n : Z) : Z := if Z.even (half n) then 4 else 0.
(** Solenoids 0: the valve, 1: the upper seat, 2: the lower seat; byte and bit. *)
Definition sol (c : conf) (i : Z) : Z * Z :=
  if gateway c then
    (base c 0 + half (num c 0) / 2,
     lowest (num c 0) + (if i =? 0 then 1 else if Bool.eqb (i =? 1) (rev c) then 2 else 3))
  else (base c i + (num c i - 1) / 8, (num c i - 1) mod 8).
Definition sols (c : conf) : list Z := if seats c then [0; 1; 2] else [0].
Definition bit (m : mem) (x : Z * Z) : bool := Z.testbit (m (fst x)) (snd x).
(** The bits that belong to a valve: a half-byte of a gateway, the outputs of a terminal. *)
Definition owns (c : conf) (x : Z * Z) : Prop :=
  if gateway c then
    fst x = base c 0 + half (num c 0) / 2 /\ lowest (num c 0) <= snd x < lowest (num c 0) + 4
  else exists i, In i (sols c) /\ x = sol c i.

(** A valve with all its channels and with numbers; the outputs of a terminal are
    different ones. *)
Definition good (c : conf) : Prop :=
  if gateway c then ch c 0 <> None /\ 0 <= num c 0
  else (forall i, In i (sols c) -> ch c i <> None /\ 1 <= num c i) /\
       (forall i j, In i (sols c) -> In j (sols c) -> sol c i = sol c j -> i = j).
(** No bit belongs to two valves of [D]. *)
Definition apart (K : Z -> conf) (D : list Z) : Prop :=
  forall d e x, In d D -> In e D -> owns (K d) x -> owns (K e) x -> d = e.
Definition target (o : order) : option Z :=
  match o with
  | On d | Instant d | Set_ d _ | Seat d _ | Cmd d _ | Man d _ | Poll d => Some d
  | Sent => None
  end.
Definition within (D : list Z) (l : list (order * env)) : Prop :=
  Forall (fun x => forall d, target (fst x) = Some d -> In d D) l.
(** The clock never goes back and does not wrap. *)
Fixpoint timely (w t : Z) (l : list (order * env)) : Prop :=
  match l with
  | [] => True
  | x :: r => t <= now (snd x) < 2 ^ w /\ timely w (now (snd x)) r
  end.

(** * What an order asks for *)

Inductive want := Shut | Open | Upper | Lower.
Definition lit (w : want) (i : Z) : bool :=
  match w with Shut => false | Open => i =? 0 | Upper => i =? 1 | Lower => i =? 2 end.
Definition want_eqb (a b : want) : bool :=
  match a, b with Shut, Shut | Open, Open | Upper, Upper | Lower, Lower => true | _, _ => false end.
(** A state command: 0 closes, 2 and 3 open a seat if there are seats; a gateway valve
    without seats ignores 2 and 3; any other number opens. *)
Definition meaning (c : conf) (n : Z) : option want :=
  if n =? 0 then Some Shut
  else if seats c && (n =? 2) then Some Upper
  else if seats c && (n =? 3) then Some Lower
  else if gateway c && negb (seats c) && ((n =? 2) || (n =? 3)) then None
  else Some Open.
Definition asks (c : conf) (held : bool) (d : Z) (o : order) : option want :=
  match o with
  | On x => if (x =? d) && negb held then Some Open else None
  | Instant x => if (x =? d) && negb held then Some Shut else None
  | Set_ x n => if (x =? d) && negb held then meaning c n else None
  | Cmd x n => if x =? d then meaning c n else None
  | Seat x u => if (x =? d) && seats c then Some (if u then Upper else Lower) else None
  | _ => None
  end.
(** The operator last left the valve under manual control. *)
Definition held1 (d : Z) (o : order) (b : bool) : bool :=
  match o with
  | Man x n => if x =? d then if n =? 0 then false else if n =? 1 then true else b else b
  | _ => b
  end.

(** * What is known of one valve after a history *)

(** [asked]: what the last order asked for; [gone]: what was asked when the bytes were last
    sent; [since]: when the time allowed for the feedback started; [seen]: when the feedback
    was last seen to agree. *)
Record past := { held : bool; asked : want; gone : want; since : Z; seen : Z }.
Definition fresh (t0 : Z) : past := {| held := false; asked := Shut; gone := Shut; since := t0; seen := t0 |}.
(** What a valve shows: a gateway valve what was sent, a terminal valve what was asked. *)
Definition shown (c : conf) (p : past) : want := if gateway c then gone p else asked p.
(** The order starts the time anew: opening a valve that is not asked to be open, closing
    one that is open (terminal: or has an open seat), a seat of a gateway valve. *)
Definition restarts (c : conf) (old new : want) : bool :=
  match new with
  | Open => negb (want_eqb old Open)
  | Shut => if gateway c then want_eqb old Open else negb (want_eqb old Shut)
  | _ => gateway c
  end.
Definition sensor (c : conf) (i : din) (k : Z) : bool :=
  match ai c with
  | None => false
  | Some a => Z.testbit (ain i (a + half (num c 0) / 2)) (lowest (num c 0) + k)
  end.
Definition agrees (c : conf) (i : din) (q : want) : bool :=
  match kind c, q with
  | (AsMix | AsCut), Open => sensor c i 1 && negb (sensor c i 0)
  | (AsMix | AsCut), Shut => sensor c i 0 && negb (sensor c i 1)
  | T1on, Open => di0 i
  | T1on, Shut => negb (di0 i)
  | T1off, Open => negb (di0 i)
  | T1off, Shut => di0 i
  | (T1two | T3two), Open => di0 i && negb (di1 i)
  | (T1two | T3two), Shut => negb (di0 i) && di1 i
  | _, _ => true
  end.
Definition feedback (c : conf) : bool := match kind c with T1 | T3 => false | _ => true end.
Definition is_seat (q : want) : bool := match q with Upper | Lower => true | _ => false end.
(** A reading that looks at the feedback and finds it right. *)
Definition looks (c : conf) (d : Z) (x : order * env) (p : past) : bool :=
  let i := ins (snd x) d in
  match fst x with
  | Poll y =>
      (y =? d) && feedback c && p_fb i && negb (is_seat (shown c p)) &&
      (gateway c || (link i =? 0)) && agrees c i (shown c p)
  | _ => false
  end.
Definition note (c : conf) (d : Z) (p : past) (x : order * env) : past :=
  let t := now (snd x) in
  let q := match asks c (held p) d (fst x) with Some q => q | None => asked p end in
  let start := match asks c (held p) d (fst x) with Some q => restarts c (asked p) q | None => false end in
  let ok := looks c d x p in
  {| held := held1 d (fst x) (held p);
     asked := q;
     gone := match fst x with Sent => asked p | _ => gone p end;
     since := if start || (negb (gateway c) && ok) then t else since p;
     seen := if ok then t else seen p |}.
Definition past_of (c : conf) (d t0 : Z) (l : list (order * env)) : past :=
  fold_left (note c d) l (fresh t0).

(** * What is reported *)

Inductive verdict := Right | Moving | Wrong | NoFeedback.
(** valve.h:64-99. *)
Definition code (q : want) (held : bool) (v : verdict) : Z :=
  match q, v with
  | Upper, NoFeedback => if held then 22 else 32
  | Upper, _ => if held then 22 else 2
  | Lower, NoFeedback => if held then 23 else 33
  | Lower, _ => if held then 23 else 3
  | Open, Right => if held then 21 else 1
  | Open, Moving => if held then 42 else 40
  | Open, Wrong => if held then -12 else -2
  | Open, NoFeedback => if held then 31 else 11
  | Shut, Right => if held then 20 else 0
  | Shut, Moving => if held then 43 else 41
  | Shut, Wrong => if held then -13 else -3
  | Shut, NoFeedback => if held then 30 else 10
  end.
(** A shut-off valve of a gateway is also given the time from the last agreement. *)
Definition judge (c : conf) (i : din) (t : Z) (p : past) : verdict :=
  let T := p_time i in
  if feedback c then
    if p_fb i then
      if agrees c i (shown c p) || (t - since p <? T) ||
         (match kind c with AsCut => t - seen p <? T | _ => false end) then Right
      else if t - since p =? T then Moving else Wrong
    else NoFeedback
  else Right.
Definition report (c : conf) (i : din) (t : Z) (p : past) : Z :=
  if negb (gateway c) && negb (link i =? 0) then - link i
  else code (shown c p) (held p) (judge c i t p).
