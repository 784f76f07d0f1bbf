(** What an operator expects of a washing line. *)
From Coq Require Import ZArith List Bool Lia.
From Verif Require Import CipModel.
Import ListNotations.
Open Scope Z_scope.

(** * The course of a program *)

(** The steps of each stage; [o]: options, [p]: program, [nr]: without the final rinsing. *)
Definition block (o : opts) (p : Z) (nr : bool) (b : Z) : list Z :=
  match b with
  | 11 => [151; 152; 153; 154; 155; 156; 157] ++ (if vol_s o then [160] else []) ++ [161; 162; 163; 164]
          ++ (if vol_k o then [167] else []) ++ [168; 169; 170] ++ (if vol_w o then [173] else [])
          ++ [174; 175; 176] ++ (if vol_s o then [179] else [])
          ++ [180; 181; 182; 183; 184; 185; 186; 187; 188]
  | 10 => [300]
  | 9 => [105; 106; 108; 111]
  | 8 => [115; 116; 118; 121]
  | 7 => [5; 7; 8; 16] ++ (if p =? 128 then [9] else [])
  | 6 => [10; 11; 12; 13; 14; 15]
  | 5 | 3 => [22; 23; 24] ++ (if circ_s o then [] else [26]) ++ [28; 29; 31; 33; 34; 35; 37; 39; 40]
  | 4 => [42; 43; 44] ++ (if circ_k o then [] else [46]) ++ [48; 49; 53; 54; 55; 57; 59; 60]
  | 2 => [61] ++ (if Z.testbit p 3 || Z.testbit p 4 || Z.testbit p 5 then [] else [62; 63; 64; 65]) ++ [66; 67]
  | 1 => [71; 72; 73; 74; 75; 76; 77; 78; 79]
  | 0 => if nr then [91] else (if p =? 1 then [] else [81]) ++ [83; 84; 85; 86; 91]
  | _ => []
  end.
(** All stages of a program, the highest bit first; a bit above them makes the program empty. *)
Definition plan (o : opts) (p : Z) (nr : bool) : list Z :=
  if existsb (Z.testbit p) [15; 14; 13; 12] then []
  else flat_map (block o p nr) (filter (Z.testbit p) [11; 10; 9; 8; 7; 6; 5; 4; 3; 2; 1; 0]).

(** The steps that are begun, apart from the filling of the tank (0). *)
Definition inits (tr : list act) : list Z :=
  flat_map (fun a => match a with Init n false => if n =? 0 then [] else [n] | _ => [] end) tr.
(** The repetitions of preparing a solution (109, 106, 108 or 119, 116, 118) left out. *)
Definition visit (k : bool * list Z) (n : Z) : bool * list Z :=
  if (n =? 109) || (n =? 119) then (true, snd k)
  else if fst k && ((n =? 106) || (n =? 116)) then (true, snd k)
  else if fst k && ((n =? 108) || (n =? 118)) then (false, snd k)
  else (false, snd k ++ [n]).
Definition unloop (ns : list Z) : list Z := snd (fold_left visit ns (false, [])).

(** Events that neither change the program nor reset the washing. *)
Definition keeps_program (e : ev) : Prop :=
  match e with Cmd n => n <> 4 | SelPrg _ | SetProg _ => False | _ => True end.
(** A cycle in which all goes well. *)
Definition good (i : inp) : Prop := i_do i = 1 /\ i_delay i = true /\ i_held i = false.
(** Nothing but the last step is begun or evaluated. *)
Definition only_end (a : act) : Prop := match a with Init n _ | Do n => n = 555 | RecOn _ => False | _ => True end.

(** * Devices and recipes *)

(** Whether the last order to the devices lets them work. *)
Definition busy1 (b : bool) (a : act) : bool :=
  match a with Halt => false | Init n _ => negb (n =? 555) | _ => b end.
Definition busy (tr : list act) : bool := fold_left busy1 tr false.
(** The recipe whose valves are in service; putting another one out of service does not change it. *)
Definition serve1 (s : option Z) (a : act) : option Z :=
  match a, s with
  | RecOn r, _ => Some r
  | RecOff r, Some q => if r =? q then None else s
  | _, _ => s
  end.
Definition service (tr : list act) : option Z := fold_left serve1 tr None.

(** All events of a history meet a condition on the line and on what was done until then. *)
Fixpoint always (P : line -> list act -> ev -> Prop) (o : opts) (l : line) (tr : list act) (es : list ev) : Prop :=
  match es with
  | [] => True
  | e :: r => P l tr e /\ always P o (fst (step_ev o l e)) (tr ++ snd (step_ev o l e)) r
  end.
(** A line is unlocked only if it is locked. *)
Definition unlock_locked (l : line) (tr : list act) (e : ev) : Prop :=
  match e with Cycle _ => cmd l = 11 -> locked l = true | _ => True end.
(** While the valves of a recipe are in service: no recipe is selected, no unlocking in step 0. *)
Definition keeps_recipe (l : line) (tr : list act) (e : ev) : Prop :=
  service tr <> None ->
  match e with
  | SelRec n => n <= 0
  | Cycle _ => cmd l = 11 -> step l <> 0
  | _ => True
  end.
(** A refused start is neither skipped nor (without the devices of the object) continued. *)
Definition heeds_refusal (l : line) (tr : list act) (e : ev) : Prop :=
  service tr = None ->
  match e with
  | Cycle _ => state l < 0 -> cmd l <> 1 /\ (state l = -30 -> cmd l <> 3)
  | _ => True
  end.

(** * Several lines *)

Definition of_line (k : nat) (tr : list (nat * act)) : list act :=
  map snd (filter (fun x => Nat.eqb (fst x) k) tr).
Fixpoint always_all (P : line -> list act -> ev -> Prop) (os : nat -> opts) (b : book) (ls : list line)
  (tr : list (nat * act)) (es : list (nat * ev)) : Prop :=
  match es with
  | [] => True
  | e :: r => (forall l, nth_error ls (fst e) = Some l -> P l (of_line (fst e) tr) (snd e))
              /\ always_all P os b (fst (station_ev os b ls e)) (tr ++ snd (station_ev os b ls e)) r
  end.
(** Two recipes disagree about a valve: one opens it, the other one uses it. *)
Definition disagree (o1 c1 o2 c2 : list Z) : Prop :=
  exists v, v <> 0 /\ v < 1000 /\ ((In v o1 /\ (In v o2 \/ In v c2)) \/ (In v c1 /\ In v o2)).
