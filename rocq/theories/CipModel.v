(** The washing sequencer: one line of a washing station.

    Source: /repo/PAC/common/cip_tech_def.cpp (below cpp), cip_tech_def.h (below h).

    Simplifications:
    - stations for cars, the cleaning of the tanks of the station on request of other lines
      ([scenabled]) and the functions a project may supply in Lua are left out;
    - what a step does (valves, pumps, temperatures) is not modelled: that a step is set up, is
      evaluated, or that all devices are stopped is an action; its result is an input, as are the
      clock, the checks of the devices of the object and the sensors;
    - the numbers of program and recipe are integers (they are stored as floats); the contents of the
      recipes do not change; what the number -1 (no recipe selected) reads from the memory of recipes is
      an arbitrary given list;
    - texts, statistics, lists for panels and the manual switching of the return pump are left out. *)
From Coq Require Import ZArith List Bool Lia.
Import ListNotations.
Open Scope Z_scope.

(** Constants, h:108-119, 132-153, 156, 161-167, 214-237. *)
Definition NEXT := 1.
Definition PAUSE := 2.
Definition EVALUATE := 3.
Definition RESET := 4.
Definition LOCK := 10.
Definition UNLOCK := 11.

(** What is configured for the washed object and the station: the circulation through the tanks
    ([circ_tank_s], [circ_tank_k], set by [init_object_devices]) and whether the volumes
    [SCP_V_PROM_TS], [_TK], [_TW] are positive. *)
Record opts := { circ_s : bool; circ_k : bool; vol_s : bool; vol_k : bool; vol_w : bool }.

(** [state], [curstep], [curprg], [blocked], [rt_par_float[P_PROGRAM]], [loadedRecipe],
    [valvesAreInConflict], [disable_final_rinsing], [ncmd], [rt_par_float[P_SELECT_REC]],
    [rt_par_float[P_SELECT_PRG]], [program_was_terminated], [is_reset], h:548-748. *)
Record line := { state : Z; step : Z; stage : Z; locked : bool; prog : Z; recipe : Z; conflict : bool;
                 norinse : bool; cmd : Z; selrec : Z; selprg : Z; aborted : bool; isreset : bool }.

Definition set_state (x : Z) (l : line) : line := {| state := x; step := step l; stage := stage l; locked := locked l; prog := prog l; recipe := recipe l; conflict := conflict l; norinse := norinse l; cmd := cmd l; selrec := selrec l; selprg := selprg l; aborted := aborted l; isreset := isreset l |}.
Definition set_step (x y : Z) (l : line) : line := {| state := state l; step := x; stage := y; locked := locked l; prog := prog l; recipe := recipe l; conflict := conflict l; norinse := norinse l; cmd := cmd l; selrec := selrec l; selprg := selprg l; aborted := aborted l; isreset := isreset l |}.
Definition set_locked (x : bool) (l : line) : line := {| state := state l; step := step l; stage := stage l; locked := x; prog := prog l; recipe := recipe l; conflict := conflict l; norinse := norinse l; cmd := cmd l; selrec := selrec l; selprg := selprg l; aborted := aborted l; isreset := isreset l |}.
Definition set_prog (x : Z) (y : bool) (l : line) : line := {| state := state l; step := step l; stage := stage l; locked := locked l; prog := x; recipe := recipe l; conflict := conflict l; norinse := y; cmd := cmd l; selrec := selrec l; selprg := selprg l; aborted := aborted l; isreset := isreset l |}.
Definition set_recipe (x : Z) (l : line) : line := {| state := state l; step := step l; stage := stage l; locked := locked l; prog := prog l; recipe := x; conflict := conflict l; norinse := norinse l; cmd := cmd l; selrec := selrec l; selprg := selprg l; aborted := aborted l; isreset := isreset l |}.
Definition set_conflict (x : bool) (l : line) : line := {| state := state l; step := step l; stage := stage l; locked := locked l; prog := prog l; recipe := recipe l; conflict := x; norinse := norinse l; cmd := cmd l; selrec := selrec l; selprg := selprg l; aborted := aborted l; isreset := isreset l |}.
Definition set_cmd (x : Z) (l : line) : line := {| state := state l; step := step l; stage := stage l; locked := locked l; prog := prog l; recipe := recipe l; conflict := conflict l; norinse := norinse l; cmd := x; selrec := selrec l; selprg := selprg l; aborted := aborted l; isreset := isreset l |}.
Definition set_sel (x y : Z) (l : line) : line := {| state := state l; step := step l; stage := stage l; locked := locked l; prog := prog l; recipe := recipe l; conflict := conflict l; norinse := norinse l; cmd := cmd l; selrec := x; selprg := y; aborted := aborted l; isreset := isreset l |}.
Definition set_abort (x y : bool) (l : line) : line := {| state := state l; step := step l; stage := stage l; locked := locked l; prog := prog l; recipe := recipe l; conflict := conflict l; norinse := norinse l; cmd := cmd l; selrec := selrec l; selprg := selprg l; aborted := x; isreset := y |}.

(** A new line, cpp:122-123, 137, 162-168, 272, h:573. *)
Definition new_line : line :=
  {| state := 0; step := 0; stage := -1; locked := false; prog := 0; recipe := -1; conflict := false;
     norinse := false; cmd := 0; selrec := 0; selprg := 0; aborted := false; isreset := false |}.

(** What the line does: all devices are stopped ([StopDev]); a step is set up ([InitStep]), anew or
    again after an interruption; a step is evaluated ([DoStep]); the valves of a recipe are put in
    service or out of it; the end of the washing is signalled, with or without an abort. *)
Inductive act := Halt | Init (n : Z) (again : bool) | Do (n : Z) | RecOn (r : Z) | RecOff (r : Z) | Finished (ab : bool).

(** Inputs of a cycle: the result of the step; the delay after the end has passed; the object still
    reports that it is ready; the devices of the object are there; the valves are in conflict with
    those of another line; too many washings without acid; the objects signals allow to resume. *)
Record inp := { i_do : Z; i_delay : bool; i_held : bool; i_ready : bool; i_conf : bool; i_acid : bool; i_resume : bool }.

(** [getNexpPrg], cpp:36-61. *)
Fixpoint scan (n : nat) (prg : Z) : Z :=
  match n with
  | O => -1
  | S i => if Z.testbit prg (Z.of_nat i) then Z.of_nat i else scan i prg
  end.
Definition next_prg (cur prg : Z) : Z :=
  let tmp := if cur <? 0 then 15 else cur - 1 in
  if (0 <=? tmp) && (tmp <? 16) then scan (Z.to_nat (tmp + 1)) prg else -1.

(** [_LoadProgram], cpp:3148-3228: the first step of a stage. *)
Definition first_step (l : line) (b : Z) : Z :=
  if b =? 7 then 5 else if b =? 6 then 10 else if b =? 5 then 22 else if b =? 4 then 42
  else if b =? 3 then 22 else if b =? 2 then 61 else if b =? 1 then 71
  else if b =? 0 then (if norinse l then 91 else if prog l =? 1 then 83 else 81)
  else if b =? 9 then 105 else if b =? 8 then 115 else if b =? 11 then 151 else if b =? 10 then 300
  else 555.
Definition load_program (l : line) : line :=
  let b := next_prg (stage l) (prog l) in set_step (first_step l b) b l.

(** [_GoToStep], cpp:2041-2241: [None] stands for the call of [LoadProgram]. *)
Definition one_of (x : Z) (xs : list Z) : bool := existsb (Z.eqb x) xs.
Definition succ_step (o : opts) (p cur param : Z) : option Z :=
  if one_of cur [0; 9; 15; 40; 60; 67; 79; 91; 111; 121; 188; 300] then None
  else if cur =? 5 then Some 7
  else if one_of cur [6; 7; 10; 11; 12; 13; 14; 22; 23; 42; 43; 62; 63; 64; 65; 66; 71; 72; 73; 74; 75; 76; 77; 78; 83; 84; 85] then Some (cur + 1)
  else if cur =? 8 then Some 16
  else if cur =? 16 then (if negb (p =? 128) then None else Some 9)
  else if cur =? 24 then Some (if circ_s o then 28 else 26)
  else if cur =? 26 then Some 28 else if cur =? 28 then Some 29 else if cur =? 29 then Some 31
  else if cur =? 31 then Some 33 else if cur =? 33 then Some 34 else if cur =? 34 then Some 35
  else if cur =? 35 then Some 37 else if cur =? 37 then Some 39 else if cur =? 39 then Some 40
  else if cur =? 44 then Some (if circ_k o then 48 else 46)
  else if cur =? 46 then Some 48 else if cur =? 48 then Some 49 else if cur =? 49 then Some 53
  else if cur =? 53 then Some 54 else if cur =? 54 then Some 55 else if cur =? 55 then Some 57
  else if cur =? 57 then Some 59 else if cur =? 59 then Some 60
  else if cur =? 61 then Some (if negb (Z.land p 56 =? 0) then 66 else 62)
  else if cur =? 81 then Some 83 else if cur =? 86 then Some 91
  else if cur =? 105 then Some 106 else if cur =? 106 then Some 108
  else if cur =? 108 then Some (if param =? 1 then 111 else 109)
  else if cur =? 109 then Some 106
  else if cur =? 115 then Some 116 else if cur =? 116 then Some 118
  else if cur =? 118 then Some (if param =? 1 then 121 else 119)
  else if cur =? 119 then Some 116
  else if one_of cur [151; 152; 153; 154; 155; 156; 158; 159; 160; 161; 162; 163; 165; 166; 167; 168; 169; 171; 172; 173; 174; 175; 177; 178; 179; 180; 181; 182; 183; 184; 185; 186; 187] then Some (cur + 1)
  else if cur =? 157 then Some (if vol_s o then 160 else 161)
  else if cur =? 164 then Some (if vol_k o then 167 else 168)
  else if cur =? 170 then Some (if vol_w o then 173 else 174)
  else if cur =? 176 then Some (if vol_s o then 179 else 180)
  else Some (-2).
Definition goto_step (o : opts) (param : Z) (l : line) : line :=
  match succ_step o (prog l) (step l) param with
  | Some n => set_step n (stage l) l
  | None => load_program l
  end.

(** [_InitStep], cpp:2243-2478: the signal of the end is given in step 555 (2455-2472). *)
Definition init_step (again : bool) (l : line) : list act :=
  Init (step l) again :: (if step l =? 555 then [Finished (aborted l)] else []).

(** [_Stop], cpp:1610-1628. *)
Definition stop (l : line) : line * list act := (set_state 0 l, [Halt]).

(** [EvalBlock], cpp:1490-1522. *)
Definition eval_lock (l : line) : line :=
  if cmd l =? LOCK then set_cmd 0 (set_locked true l)
  else if cmd l =? UNLOCK then set_cmd 0 (set_state (if 0 <? step l then -1 else 0) (set_locked false l))
  else l.

(** [loadProgramFromList], cpp:1242-1384. *)
Definition load_list (n : Z) (l : line) : line :=
  if one_of n [1; 3; 5; 128; 133; 144; 149; 160; 165; 176; 181; 179; 163; 147; 1024] then set_prog n false l
  else if one_of n [256; 512; 2048] then set_prog n (norinse l) l
  else if one_of n [9000; 9001] then set_prog 1 false l
  else if (n =? 9010) && one_of (prog l) [5; 165; 149; 181] then set_prog (prog l) true l
  else set_prog 0 false l.

(** [EvalRecipes], the selection of recipe and program, cpp:1696-1718. *)
Definition eval_recipes (l : line) : line :=
  let l1 := if 0 <? selrec l then set_sel 0 (selprg l) (set_recipe (selrec l - 1) l) else l in
  if 0 <? selprg l1 then set_sel (selrec l1) 0 (load_list (selprg l1) l1) else l1.

(** [EvalCommands], cpp:1773-2039. *)
Definition eval_command (o : opts) (i : inp) (l : line) : line * list act :=
  if cmd l =? NEXT then (* 1778-1787 *)
    if negb (state l =? 0) && negb (step l =? 555)
    then let l1 := set_state 1 (goto_step o 0 l) in (l1, init_step false l1)
    else (l, [])
  else if cmd l =? PAUSE then (* 1788-1796 *)
    if (0 <? state l) && negb (step l =? 555)
    then (set_state (-1) (fst (stop l)), snd (stop l))
    else (l, [])
  else if cmd l =? RESET then (* 1797-1818 *)
    if negb (state l =? 0)
    then let l1 := set_state 1 (set_abort true true (set_step 555 (stage l) (fst (stop l)))) in
         (l1, snd (stop l) ++ init_step false l1)
    else (set_prog 0 (norinse l) (set_recipe (-1) l), [])
  else if cmd l =? EVALUATE then
    if state l <? 0 then (* 1820-1853 *)
      if conflict l then (l, [])
      else if negb (i_ready i) then (set_state (-30) l, [])
      else if state l =? -32 then (l, [])
      else let l1 := set_state 1 l in (l1, init_step true l1)
    else if (state l =? 0) && ((0 <=? recipe l) || (256 <=? prog l)) && (0 <? prog l) then (* 1854-1963 *)
      let l1 := set_conflict (i_conf i) (set_abort false (isreset l) l) in
      if i_conf i then (set_state (-31) l1, [])
      else if negb (i_ready i) then (set_state (-30) l1, [])
      else if i_acid i && negb (Z.testbit (prog l) 4) && Z.testbit (prog l) 5 then (set_state (-32) l1, [])
      else let l2 := set_state 1 l1 in (l2, RecOn (recipe l) :: init_step false l2)
    else (l, [])
  else (l, []).

(** The end of a washing, cpp:2906-2921, 2983-2996, 3110, 3122, 3132, 3230-3252. *)
Definition finish (l : line) : line * list act :=
  let l1 := fst (stop l) in
  (set_sel (-1) (-1) (set_prog 0 false (set_abort false false (set_recipe (-1) (set_conflict false (set_step 0 (-1) l1))))),
   snd (stop l) ++ (if conflict l then [] else [RecOff (recipe l)])).

(** [EvalCipInProgress] with [_DoStep], cpp:2601-2632, 2891-2926. *)
Definition in_progress (o : opts) (i : inp) (l : line) : line * list act :=
  if step l =? 555 then
    if i_delay i && (isreset l || negb (i_held i)) then (fst (finish l), Do 555 :: snd (finish l))
    else (l, [Do 555])
  else if 0 <? i_do i then
    let l1 := goto_step o (i_do i) l in
    if negb (step l1 =? step l) then (l1, Do (step l) :: init_step false l1) else (l1, [Do (step l)])
  else if i_do i <? 0 then (set_state (i_do i) (fst (stop l)), Do (step l) :: snd (stop l))
  else (l, [Do (step l)]).

(** [EvalCipInError], cpp:2931-2965. *)
Definition in_error (i : inp) (l : line) : line * list act :=
  if i_resume i && ((state l =? -20) || (state l =? -19)) then let l1 := set_state 1 l in (l1, init_step true l1)
  else (l, []).

(** [evaluate], cpp:701-775, with the second half of [EvalBlock], cpp:1511-1521. *)
Definition cycle (o : opts) (i : inp) (l : line) : line * list act :=
  let l0 := eval_lock l in
  if locked l0 then
    (set_state (-1000) (set_cmd 0 l0), (if 0 <? state l0 then snd (stop l0) else []) ++ [Halt])
  else
    let l1 := eval_recipes l0 in
    if negb (cmd l1 =? 0) then let r := eval_command o i l1 in (set_cmd 0 (fst r), snd r)
    else if 0 <? state l1 then in_progress o i l1
    else if state l1 <? 0 then in_error i l1
    else (l1, []).

(** Events: a command, a number written to [P_SELECT_REC], [P_SELECT_PRG] or [P_PROGRAM]
    ([set_cmd], cpp:487-605), a cycle. *)
Inductive ev := Cmd (n : Z) | SelRec (n : Z) | SelPrg (n : Z) | SetProg (n : Z) | Cycle (i : inp).
Definition step_ev (o : opts) (l : line) (e : ev) : line * list act :=
  match e with
  | Cmd n => (set_cmd n l, [])
  | SelRec n => (set_sel n (selprg l) l, [])
  | SelPrg n => (set_sel (selrec l) n l, [])
  | SetProg n => (set_prog n (norinse l) l, [])
  | Cycle i => cycle o i l
  end.
Fixpoint run (o : opts) (l : line) (es : list ev) : line * list act :=
  match es with
  | [] => (l, [])
  | e :: r => let x := step_ev o l e in let y := run o (fst x) r in (fst y, snd x ++ snd y)
  end.

(** * Several lines *)

(** The numbers of the valves a recipe opens and closes, mcaRec.h:145-148, by line and recipe. *)
Record book := { opens : nat -> Z -> list Z; closes : nat -> Z -> list Z }.
(** [getValvesConflict], cpp:1426-1470: line [k] against the other ones. *)
Definition meets (xs ys : list Z) : bool :=
  existsb (fun v => negb (v =? 0) && (v <? 1000) && one_of v ys) xs.
Definition valves_conflict (b : book) (ls : list line) (k : nat) (l : line) : bool :=
  existsb (fun j => match nth_error ls j with
                    | Some m => negb (Nat.eqb j k) && negb (state m =? 0) && (0 <=? recipe m)
                                && (meets (opens b k (recipe l)) (opens b j (recipe m) ++ closes b j (recipe m))
                                    || meets (closes b k (recipe l)) (opens b j (recipe m)))
                    | None => false end) (seq 0 (length ls)).
Fixpoint put {A} (k : nat) (x : A) (xs : list A) : list A :=
  match xs, k with
  | [], _ => []
  | _ :: r, O => x :: r
  | y :: r, S n => y :: put n x r
  end.
(** The input of a cycle with the conflict computed from the other lines; [EvalRecipes] may change
    the recipe before the check, so that the recipe is the one selected. *)
Definition with_conf (c : bool) (i : inp) : inp :=
  {| i_do := i_do i; i_delay := i_delay i; i_held := i_held i; i_ready := i_ready i; i_conf := c; i_acid := i_acid i; i_resume := i_resume i |}.
Definition station_ev (os : nat -> opts) (b : book) (ls : list line) (ke : nat * ev) : list line * list (nat * act) :=
  match nth_error ls (fst ke) with
  | None => (ls, [])
  | Some l =>
      let e := match snd ke with
               | Cycle i => Cycle (with_conf (valves_conflict b ls (fst ke) (eval_recipes l)) i)
               | e => e end in
      let r := step_ev (os (fst ke)) l e in
      (put (fst ke) (fst r) ls, map (pair (fst ke)) (snd r))
  end.
Fixpoint station (os : nat -> opts) (b : book) (ls : list line) (es : list (nat * ev)) : list line * list (nat * act) :=
  match es with
  | [] => (ls, [])
  | e :: r => let x := station_ev os b ls e in let y := station os b (fst x) r in (fst y, snd x ++ snd y)
  end.
