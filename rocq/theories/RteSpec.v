(** What an operator expects of the valves of a washing station. *)
From Coq Require Import ZArith List Bool Lia.
From Verif Require Import CipModel RteModel.
Import ListNotations.
Open Scope Z_scope.

(** * Routes *)

(** The step set up last. *)
Definition at_step (tr : list act) : Z := fold_left (fun n a => match a with Init m _ => m | _ => n end) tr 0.
(** Pairs of the first numbers of a table: [has n l] says whether step [n] is listed. *)
Definition has (n : Z) (l : list Z) : bool := existsb (Z.eqb n) l.
(** Where a step may take from, without the pipe to and past the object and the water supply. *)
Definition sources (n : Z) : list vlv :=
  if has n [0; 154; 188; 555] then []
  else if has n [5; 7; 8; 14; 33; 34; 35; 37] then [V01; V04]
  else if has n [22; 23; 24; 106; 108; 109; 155; 156; 157; 168; 175; 176] then [V03]
  else if has n [42; 43; 44; 116; 118; 119; 162; 163; 164; 174; 181; 182] then [V02]
  else if has n [26; 28] then [V01; V03]
  else if has n [46; 48] then [V01; V02]
  else if has n [151; 152; 161; 169; 170; 180; 183; 184] then [V04]
  else [V01].
(** Where the solution may return to. *)
Definition returns (n : Z) : list vlv :=
  if has n [154; 188] then []
  else if has n [0; 5; 6; 7; 8; 9; 12; 14; 15; 16; 22; 23; 42; 43; 78; 79; 151; 152; 555] then [V11]
  else if has n [10; 11; 13; 26; 46; 66; 76; 77] then [V10]
  else if has n [28] then [V09; V10]
  else if has n [48] then [V08; V10]
  else if has n [29; 105; 106; 108; 109; 155; 168] then [V09]
  else if has n [49; 115; 116; 118; 119; 162; 174] then [V08]
  else if has n [31] then [V09; V11]
  else if has n [24; 33; 34; 35; 111; 160; 163; 164; 179; 185] then [V09; V11; V12]
  else if has n [44; 53; 54; 55; 121; 167; 169; 170; 186] then [V08; V11; V12]
  else if has n [61; 71; 81] then [V07; V08; V09; V11]
  else if has n [91; 300] then [V07; V08; V09; V11; V12]
  else if has n [153; 156; 157; 173; 175; 176; 187] then [V07; V11; V12]
  else if has n [161; 180] then [V07]
  else if has n [181; 182; 183; 184] then [V11; V12]
  else [V07; V11].
Definition is_source (x : vlv) : Prop := In x [V01; V02; V03; V04].
Definition is_tank (x : vlv) : Prop := In x [V07; V08; V09].
Definition is_return (x : vlv) : Prop := In x [V07; V08; V09; V10; V11; V12].
(** Steps that fill the buffer tank with water, the return being left as it was. *)
Definition fills_buffer (n : Z) : bool := has n [31; 61; 65; 71; 75; 81].
(** The cleaning of the station itself, where solutions are pumped through each others tanks. *)
Definition cleans_station (n : Z) : bool := (151 <=? n) && (n <=? 188).

(** A history: the acts of a line from its start and what the sensors and settings were at each;
    [xs] are those done up to now. *)
Definition history (o : opts) (es : list ev) (xs : list (act * env)) : Prop :=
  exists rest, map fst xs ++ rest = snd (run o new_line es).

(** * A step that goes on *)

Definition calls (n : Z) (l : list env) : list (act * env) := map (pair (Do n)) l.
(** The clock does not go back (it does not overflow during the step). *)
Fixpoint ordered (t0 : Z) (l : list env) : Prop :=
  match l with
  | [] => True
  | e :: r => t0 <= now e /\ ordered (now e) r
  end.
(** Whether such a reading was made in the [age] milliseconds before [t]. *)
Definition lately (f : env -> bool) (age t : Z) (l : list env) : bool :=
  existsb (fun e => f e && (t - now e <=? age)) l.

(** * Sorting *)

(** Steps that sort the returned solution, with the valve of the tank. *)
Definition sort_tank (n : Z) : option vlv :=
  if has n [24; 33; 34; 35; 111] then Some V09
  else if has n [44; 53; 54; 55; 121] then Some V08 else None.
(** Calls that look at the concentration. *)
Definition looks (n : Z) (e : env) : bool :=
  negb (err e)
  && (if has n [24] then negb (quit e) && lsl e else if has n [44] then negb (quit e) && lkl e
      else if has n [35; 55] then negb (quit e) else if has n [34; 54] then negb (isline e) else true).
(** It is sampled every three seconds. *)
Fixpoint samples (last : option Z) (l : list env) : list env :=
  match l with
  | [] => []
  | e :: r => if match last with None => true | Some t => 3000 <=? now e - t end
              then e :: samples (Some (now e)) r else samples last r
  end.
(** Into the tank if it is rich enough and the tank was not full for 20 s, otherwise into the
    neutralisation or the drain. When a solution is made in the tank (111, 121) its level is not
    looked at. *)
Definition tank_full (n : Z) (e : env) : bool :=
  if has n [24; 33; 34; 35] then lsh e else if has n [44; 53; 54; 55] then lkh e else false.
Definition sorted_to (n : Z) (tank : vlv) (ss : list env) (d : env) : vlv :=
  if rich d && negb (lately (tank_full n) 20000 (now d) ss) then tank
  else if some d && negb (noneutro d) then V12 else V11.

(** * The tank of water *)

(** Calls that look at the return or at the source. *)
Definition evals (n : Z) (e : env) : bool := negb (err e) && negb (has n [7; 35; 64; 74; 85] && quit e).
(** Steps that return into the tank of water, not taking from it; steps that take from it. *)
Definition returns_w (n : Z) (e : env) : bool :=
  if has n [57; 62; 64; 72; 74] then tankw e
  else if has n [83; 85; 86] then rinse e
  else if has n [37] then tankw e && negb (progk e) else false.
Definition takes_w (n : Z) (e : env) : bool :=
  if has n [5; 7; 8; 14] then tankw e
  else if has n [33; 35; 37] then tankw e && progk e else false.

(** * Feeding during circulation *)

(** The valve that feeds, and whether the solution is not circulated through its tank. *)
Definition feed_valve (n : Z) : option vlv :=
  if has n [28] then Some V03 else if has n [48] then Some V02 else if has n [11; 66; 77] then Some V00 else None.
Definition no_tank (n : Z) (e : env) : Prop := (n = 28 -> circs e = false) /\ (n = 48 -> circk e = false).
(** Feeding is switched on and the step is evaluated. *)
Definition feeds_now (n : Z) (e : env) : bool :=
  negb (err e) && (if has n [28] then feeds e else if has n [48] then feedk e else feedw e).
(** The step is evaluated, or the line is interrupted and goes on with the step. *)
Inductive moment := Go (e : env) | Break (halts : list env) (e : env).
Definition acts_of (n : Z) (x : moment) : list (act * env) :=
  match x with Go e => [(Do n, e)] | Break hs e => map (pair Halt) hs ++ [(Init n true, e)] end.
Definition course (n : Z) (l : list moment) : list (act * env) := flat_map (acts_of n) l.
Definition fits (n M : Z) (x : moment) : Prop :=
  match x with Go e => most e = M | Break _ e => no_tank n e end.
(** How often a valve is opened. *)
Definition opened (x : vlv) (a b : plant) : Z := if vs b x && negb (vs a x) then 1 else 0.
Fixpoint openings (w : Z) (n : Z) (x : vlv) (p : plant) (l : list moment) : Z :=
  match l with
  | [] => 0
  | c :: r => let q := react_all w p (acts_of n c) in opened x p q + openings w n x q r
  end.
(** The number of feedings set in bits 12-19 of the options of the object; 0 stands for three. *)
Definition set_limit (v : Z) : Z := let k := (v / 4096) mod 256 in if k =? 0 then 3 else k.
(** Open after each of the calls. *)
Fixpoint stays_open (w n : Z) (x : vlv) (p : plant) (l : list env) : Prop :=
  match l with
  | [] => True
  | e :: r => let q := react_all w p [(Do n, e)] in vs q x = true /\ stays_open w n x q r
  end.
