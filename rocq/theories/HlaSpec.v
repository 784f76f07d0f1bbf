(** What is claimed about signal columns, in terms of requests, lamps and outputs.  Nothing
    here is taken from the functions of the model: only the calls, their execution and the shapes of the
    records. *)
From Coq Require Import ZArith List Bool Lia.
From Verif Require Import Base HlaModel.
Import ListNotations.
Open Scope Z_scope.

(** * Wiring *)

(** Channel [n] has an output. *)
Definition drives (wr : wiring) (n : Z) : Prop := 1 <= n <= nch wr.
(** No output is shared by two lamps or by a lamp and the siren. *)
Definition separate (wr : wiring) : Prop :=
  (forall l l', drives wr (ch wr l) -> ch wr l = ch wr l' -> l = l') /\
  (forall l, drives wr (sch wr) -> ch wr l <> sch wr).
(** The text has letter [x] at place [n] for the first time (places from 1). *)
Definition first_at (t : list Z) (x n : Z) : Prop :=
  exists a b, t = a ++ x :: b /\ ~ In x a /\ n = Z.of_nat (length a) + 1.

(** * What is displayed *)

Inductive look := Dark | Lit | Blinking.
Definition look_of (s : stp) : look := match s with Off => Dark | On => Lit | BlinkOff | BlinkOn => Blinking end.

(** The last request of [l] about a batch that runs ([true]) or an operation that does not
    ([false]). *)
Fixpoint last_word (l : list event) (r : option bool) : option bool :=
  match l with
  | [] => r
  | OpOff :: t => last_word t (Some false)
  | BatchOn :: t => last_word t (Some true)
  | _ :: t => last_word t r
  end.
Definition asked (e : event) (l : list event) : bool :=
  existsb (fun x => match x, e with
                    | Idle, Idle | Error, Error | Message, Message | BatchOff, BatchOff | BatchOn, BatchOn | OpOff, OpOff | OpOn, OpOn => true
                    | _, _ => false end) l.
(** The looks of the red, yellow and green lamp and the siren after the requests [l] of one
    cycle; [self]: the red lamp blinks by program. *)
Definition display (self : bool) (l : list event) : look * look * look * bool :=
  if asked Error l then (if self then Blinking else Lit, Dark, Dark, true)
  else if asked Message l then (Dark, Blinking, Dark, false)
  else if asked BatchOff l then (Dark, Lit, Dark, false)
  else match last_word l None with
       | Some false => (Dark, Lit, Dark, false)
       | Some true => (Dark, Dark, Lit, false)
       | None => if asked OpOn l then (Dark, Dark, Lit, false) else (Dark, Dark, Dark, false)
       end.
Definition displayed (c : col) : look * look * look * bool :=
  (look_of (sp (li c Red)), look_of (sp (li c Yellow)), look_of (sp (li c Green)), siren c).
(** Requests which leave the blue lamp alone. *)
Definition spares_blue (e : event) : bool := match e with Error | BatchOff => true | _ => false end.

(** * Blinking *)

(** The number of the command to blink, fast or slow. *)
Definition blink_code (l : lamp) (slow : bool) : Z :=
  match l, slow with
  | Green, false => 11 | Yellow, false => 12 | Red, false => 13 | Blue, false => 14
  | Green, true => 15 | Yellow, true => 16 | Red, true => 17 | Blue, true => 18
  end.
Definition half (slow : bool) : Z := if slow then 1000 else 250.
(** One cycle at time [t] in which lamp [l] is told to blink: a command of an operator or of
    the program, or an event, with any requests of other kinds after it. *)
Inductive round (l : lamp) (slow : bool) (t : Z) : list (Z * call) -> Prop :=
| round_cmd : round l slow t [(t, Cmd (blink_code l slow))]
| round_set : round l slow t [(t, Cycle); (t, SetState (blink_code l slow))]
| round_error r : l = Red -> slow = false -> Forall (fun e => e <> Error) r ->
    round l slow t ((t, Cycle) :: (t, Show Error) :: map (fun e => (t, Show e)) r)
| round_message r : l = Yellow -> slow = false -> Forall (fun e => e <> Error /\ e <> Message) r ->
    round l slow t ((t, Cycle) :: (t, Show Message) :: map (fun e => (t, Show e)) r).
(** Rounds one after another with gaps of at most [g], from time [t] on. *)
Inductive rounds (l : lamp) (slow : bool) (w g : Z) : Z -> list (Z * list (Z * call)) -> Prop :=
| rounds_nil t : rounds l slow w g t []
| rounds_cons t t' x r : t <= t' <= t + g -> t' < 2 ^ w -> round l slow t' x -> rounds l slow w g t' r ->
    rounds l slow w g t ((t', x) :: r).
(** The lamp has been [o] since [s]; the later times and outputs: no stretch is longer
    than [d + 2 g], none that ends is as short as [d - g]. *)
Fixpoint stretches (d g s : Z) (o : bool) (l : list (Z * bool)) : Prop :=
  match l with
  | [] => True
  | (t, o') :: r =>
      t - s <= d + 2 * g /\
      if eqb o' o then stretches d g s o r else d - g < t - s /\ stretches d g t o' r
  end.

(** The times of the rounds and the output of lamp [l] after each. *)
Fixpoint trace (w : Z) (wr : wiring) (l : lamp) (rs : list (Z * list (Z * call))) (c : col) : list (Z * bool) :=
  match rs with
  | [] => []
  | (t, x) :: r => let c' := run w wr x c in (t, out c' (ch wr l)) :: trace w wr l r c'
  end.
(** * Commands *)

Inductive wish := Dark_ (l : lamp) | Lit_ (l : lamp) | Siren_ (b : bool).
(** What the commands without blinking ask for, in order of their numbers. *)
Definition wishes (n : Z) : list wish :=
  let all := [Dark_ Red; Dark_ Yellow; Dark_ Green; Dark_ Blue] in
  if n <? 0 then [] else nth (Z.to_nat n)
    [ all ++ [Siren_ false]; [Dark_ Red; Dark_ Yellow; Lit_ Green; Dark_ Blue; Siren_ false]; all;
      [Lit_ Green]; [Lit_ Yellow]; [Lit_ Red]; [Lit_ Blue];
      [Dark_ Green]; [Dark_ Yellow]; [Dark_ Red]; [Dark_ Blue];
      []; []; []; []; []; []; []; []; [Siren_ true]; [Siren_ false] ] [].
Definition fulfilled (wr : wiring) (c : col) (x : wish) : Prop :=
  match x with
  | Dark_ l => look_of (sp (li c l)) = Dark /\ (drives wr (ch wr l) -> out c (ch wr l) = false)
  | Lit_ l => look_of (sp (li c l)) = Lit /\ (drives wr (ch wr l) -> out c (ch wr l) = true)
  | Siren_ b => siren c = b /\ (drives wr (sch wr) -> out c (sch wr) = b)
  end.
Definition touches (n : Z) (l : lamp) : Prop := In (Dark_ l) (wishes n) \/ In (Lit_ l) (wishes n).
