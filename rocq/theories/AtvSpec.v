(** What is claimed about motors with an Altivar frequency converter, in terms of the
    orders given, the telegrams exchanged and the states reported.  Nothing here is taken from the
    functions of the model: only the events, their execution and the shapes of the records. *)
From Coq Require Import ZArith List Bool Lia QArith Qabs.
From Verif Require Import Base FTextModel FloatModel AtvModel.
Import ListNotations.
Open Scope Z_scope.

Inductive want := Stop | Ahead | Astern.
(** A state command: 0 stops, 2 reverses, 100 and 101 switch the exchange off and on, any
    other number starts. *)
Definition meaning (n : Z) : option want :=
  if n =? 0 then Some Stop else if n =? 2 then Some Astern else if (n =? 100) || (n =? 101) then None else Some Ahead.
Definition asks (held : bool) (e : ev) : option want :=
  match e with
  | On => if held then None else Some Ahead
  | Off => if held then None else Some Stop
  | Set_ n => if held then None else meaning n
  | Back => if held then None else Some Astern
  | Cmd n => meaning n
  | _ => None
  end.
Definition speed_asked (held : bool) (e : ev) : option Z :=
  match e with Value v => if held then None else Some v | CmdV v => Some v | _ => None end.
(** The command word: bit 0 ahead, bit 1 in reverse, bit 2 reset of a fault; [shown]: the state
    reported when the order is given. *)
Definition word (q : want) (shown : Z) : Z :=
  match q with Stop => if shown <? 0 then 4 else 0 | Ahead => 1 | Astern => 2 end.
(** An exchange was answered. *)
Definition answered (x : ev * option tele) : bool :=
  match x with (Tick i, Some (Xchg _ _ _)) => res i =? 1 | _ => false end.
(** The command words and the frequency registers sent. *)
Definition words (t : list (ev * option tele)) : list (Z * Z) :=
  flat_map (fun x => match snd x with Some (Xchg _ c f) => [(c, f)] | _ => [] end) t.

(** * What is reported *)

(** The drive's own state (DRIVECOM): the low seven bits without bit 4. *)
Definition status (r0 : Z) (back : bool) : Z :=
  let n := Z.land r0 111 in
  if (n =? 64) || (n =? 33) || (n =? 35) then 0 else if n =? 39 then (if back then 2 else 1) else -1.
(** Manual mode, exchange switched on, last order of direction, state shown, when the
    connection was last up, whether its loss has been reported, the limit of frequency (tenths of a hertz). *)
Record past := { held : bool; active : bool; back : bool; shown : Z; seen : Z; alarmed : bool; tenths : Z }.
Definition fresh (t0 : Z) : past := {| held := false; active := true; back := false; shown := 0; seen := t0; alarmed := false; tenths := 1200 |}.
Definition note (p : past) (x : ev * option tele) : past :=
  match fst x with
  | Tick i =>
      if active p then
        let lost := negb (conn i) && (5000 <? now i - seen p) && negb (alarmed p) in
        {| held := held p; active := active p; back := back p;
           shown := if lost then -100 else if answered x then status (regs i 0) (back p) else shown p;
           seen := if conn i then now i else seen p;
           alarmed := if conn i then false else alarmed p || lost;
           tenths := if answered x then Z.max 100 (Z.min 1200 (regs i 3)) else tenths p |}
      else p
  | Man n => {| held := if n =? 0 then false else if n =? 1 then true else held p; active := active p; back := back p; shown := shown p;
                seen := seen p; alarmed := alarmed p; tenths := tenths p |}
  | e =>
      let act n := if n =? 100 then false else if n =? 101 then true else active p in
      let n := match e with Set_ n => if held p then 1 else n | Cmd n => n | _ => 1 end in
      {| held := held p; active := act n; back := match asks (held p) e with Some Astern => true | Some _ => false | None => back p end; shown := shown p;
         seen := seen p; alarmed := if n =? 101 then false else alarmed p; tenths := tenths p |}
  end.
Definition past_of (t0 : Z) (t : list (ev * option tele)) : past := fold_left note t (fresh t0).
(** The clock never goes back and does not wrap. *)
Fixpoint timely (w t : Z) (l : list ev) : Prop :=
  match l with
  | [] => True
  | Tick i :: r => t <= now i < 2 ^ w /\ timely w (now i) r
  | _ :: r => timely w t r
  end.
(** The time of the last cycle. *)
Fixpoint last_time (t : Z) (l : list ev) : Z := match l with [] => t | Tick i :: r => last_time (now i) r | _ :: r => last_time t r end.
(** The register of the limit is a word with a sign. *)
Definition words_ok (l : list ev) : Prop := forall i, In (Tick i) l -> (- 2 ^ 15 <= regs i 3 < 2 ^ 15)%Z.
