(** Operations, their states and steps.

    Source: /repo/PAC/common/operation_mngr.cpp and operation_mngr.h (classes
    step, operation_state, operation).

    Simplifications:
    - the actions of a step (lists of devices) are not expanded: switching a
      step on, executing it and switching it off are recorded as events;
    - device signals, checks and step parameters are inputs ([env]) of every
      call;  one clock reading is used throughout a call;
    - [u_long] is 32 bit (controllers with a 32-bit processor), so
      [step::start_time] and [operation_state::start_time] hold the clock
      reading unchanged;
    - diagnostic printing ([G_DEBUG], [G_LOG]) is left out. *)
From Coq Require Import ZArith List Bool Lia.
From Verif Require Import Base TimeModel.
Import ListNotations.
Open Scope Z_scope.

(** What happens to step [k] of state [s]; [k = 0] is the step that belongs to
    the state as a whole ([mode_step]). *)
Inductive event := Init (s k : Z) | Eval (s k : Z) | Fin (s k : Z).

(** Configuration of a state, operation_mngr.h:630,640-646; step numbers are
    counted from one.  [empty] is the result of [operation_state::is_empty]
    (operation_mngr.cpp:2401-2409). *)
Record sconf := {
  n_steps : Z;
  next_n : Z -> Z;
  dur_par : Z -> Z;
  max_par : Z -> Z;
  empty : bool }.

(** Inputs of a call.  [par p] is [u_int( owner->get_step_param( p ) * 1000L )]
    (lines 2076, 2206) and [parmax p] is [u_int( owner->get_step_param( p ) )];
    [ok k]: [steps[ k - 1 ]->check] returns 0 (line 2500); [auto_off k]: the
    step has an enable-by-signal action with [should_turn_off()] (2034-2037);
    [signal1], [signal2]: [is_any_group_active()] at lines 2036 and 2050;
    [jump k]: result of [is_jump] of step [k] (line 2105). *)
Record env := {
  now : Z;
  par : Z -> Z;
  parmax : Z -> Z;
  ok : Z -> bool;
  auto_off : Z -> bool;
  signal1 : Z -> bool;
  signal2 : Z -> bool;
  jump : Z -> option Z }.

(** Dynamic part of a state, operation_mngr.h:634-655, 686-688.  [act] is
    [active_step_n + 1] (0: none); [s_start], [s_dx] are [start_time] and
    [dx_time] of the steps (h:534, 539). *)
Record sdyn := {
  act : Z;
  act_time : Z;
  act_max : Z;
  act_next : Z;
  extra : list Z;
  saved : list Z;
  start_time : Z;
  dx_step : Z;
  s_start : Z -> Z;
  s_dx : Z -> Z }.

(** A state under execution together with the events so far (newest first) and
    a flag for an access outside the list of steps. *)
Record ctx := { dy : sdyn; tr : list event; ub : bool }.

Definition set_act x d := {| act := x; act_time := act_time d; act_max := act_max d; act_next := act_next d;
  extra := extra d; saved := saved d; start_time := start_time d; dx_step := dx_step d;
  s_start := s_start d; s_dx := s_dx d |}.
Definition set_time x d := {| act := act d; act_time := x; act_max := act_max d; act_next := act_next d;
  extra := extra d; saved := saved d; start_time := start_time d; dx_step := dx_step d;
  s_start := s_start d; s_dx := s_dx d |}.
Definition set_max x d := {| act := act d; act_time := act_time d; act_max := x; act_next := act_next d;
  extra := extra d; saved := saved d; start_time := start_time d; dx_step := dx_step d;
  s_start := s_start d; s_dx := s_dx d |}.
Definition set_next x d := {| act := act d; act_time := act_time d; act_max := act_max d; act_next := x;
  extra := extra d; saved := saved d; start_time := start_time d; dx_step := dx_step d;
  s_start := s_start d; s_dx := s_dx d |}.
Definition set_extra x d := {| act := act d; act_time := act_time d; act_max := act_max d; act_next := act_next d;
  extra := x; saved := saved d; start_time := start_time d; dx_step := dx_step d;
  s_start := s_start d; s_dx := s_dx d |}.
Definition set_saved x d := {| act := act d; act_time := act_time d; act_max := act_max d; act_next := act_next d;
  extra := extra d; saved := x; start_time := start_time d; dx_step := dx_step d;
  s_start := s_start d; s_dx := s_dx d |}.
Definition set_start x d := {| act := act d; act_time := act_time d; act_max := act_max d; act_next := act_next d;
  extra := extra d; saved := saved d; start_time := x; dx_step := dx_step d;
  s_start := s_start d; s_dx := s_dx d |}.
Definition set_dx x d := {| act := act d; act_time := act_time d; act_max := act_max d; act_next := act_next d;
  extra := extra d; saved := saved d; start_time := start_time d; dx_step := x;
  s_start := s_start d; s_dx := s_dx d |}.
Definition set_s_start x d := {| act := act d; act_time := act_time d; act_max := act_max d; act_next := act_next d;
  extra := extra d; saved := saved d; start_time := start_time d; dx_step := dx_step d;
  s_start := x; s_dx := s_dx d |}.
Definition set_s_dx x d := {| act := act d; act_time := act_time d; act_max := act_max d; act_next := act_next d;
  extra := extra d; saved := saved d; start_time := start_time d; dx_step := dx_step d;
  s_start := s_start d; s_dx := x |}.

Definition upd (f : sdyn -> sdyn) (c : ctx) : ctx := {| dy := f (dy c); tr := tr c; ub := ub c |}.
Definition emit (e : event) (c : ctx) : ctx := {| dy := dy c; tr := e :: tr c; ub := ub c |}.
Definition wild (c : ctx) : ctx := {| dy := dy c; tr := tr c; ub := true |}.
Definition put (f : Z -> Z) (k v : Z) : Z -> Z := fun x => if x =? k then v else f x.

(** ** Class step, lines 982-1022 *)

Definition step_init (s : Z) (e : env) (k : Z) (c : ctx) : ctx :=
  emit (Init s k) (upd (fun d => set_s_start (put (s_start d) k (now e)) d) c).
Definition step_evaluate (s k : Z) (c : ctx) : ctx := emit (Eval s k) c.
Definition step_finalize (s k : Z) (c : ctx) : ctx :=
  emit (Fin s k) (upd (fun d => set_s_dx (put (s_dx d) k 0) d) c).
(** [get_latest_eval_time], [get_eval_time]. *)
Definition latest_time (e : env) (k : Z) (d : sdyn) : Z := get_delta_millisec 32 (now e) (s_start d k).
Definition eval_time (e : env) (k : Z) (d : sdyn) : Z := u32 (latest_time e k d + s_dx d k).

Section State.
  Context (s : Z) (cf : sconf) (e : env).

  Definition in_range (k : Z) : bool := (1 <=? k) && (k <=? n_steps cf).

  (** Access [steps[ k - 1 ]->...]: outside the vector it is undefined. *)
  Definition on_step (k : Z) (f : Z -> ctx -> ctx) (c : ctx) : ctx :=
    if in_range k then f k c else wild c.

  (** ** Class operation_state *)

  (** Lines 2183-2238. *)
  Definition to_step (new : Z) (c : ctx) : ctx :=
    if negb (in_range new) then c else
    let c1 := upd (fun d => set_next (-1) (set_time 0 d)) c in
    let c2 := if 0 <? act (dy c1) then on_step (act (dy c1)) (step_finalize s) c1 else c1 in
    let c3 := upd (fun d => set_next (next_n cf new) (set_act new d)) c2 in
    let p := dur_par cf new in
    let c4 := if 0 <? p then upd (set_time (s32 (par e p))) c3 else c3 in
    if (0 <? act_time (dy c4)) || (p <=? 0)
    then on_step new (step_evaluate s) (on_step new (step_init s e) c4)
    else c4.

  (** Lines 2240-2256. *)
  Definition to_next_step (c : ctx) : ctx :=
    let a := act (dy c) in
    if 0 <? a then if next_n cf a =? -1 then to_step (a + 1) c else to_step (next_n cf a) c
    else c.

  (** Lines 2258-2270. *)
  Definition turn_off_active_step (c : ctx) : ctx :=
    if 0 <? act (dy c)
    then upd (set_act 0) (on_step (act (dy c)) (step_finalize s) c)
    else c.

  (** Lines 2479-2530; [(size_t) step_idx > steps.size()] also rejects negative
      numbers. *)
  Definition on_extra_step (k : Z) (c : ctx) : ctx :=
    if (k <? 0) || (n_steps cf <? k) then c
    else if act (dy c) =? k then c
    else if existsb (Z.eqb k) (extra (dy c)) then c
    else
      let c1 := upd (fun d => set_extra (extra d ++ [k]) d) c in
      if in_range k then
        if ok e k then step_evaluate s k (step_init s e k c1) else c1
      else wild c1.

  (** [std::vector::erase] of the element found by [std::find]. *)
  Fixpoint remove_first (k : Z) (l : list Z) : list Z :=
    match l with
    | [] => []
    | x :: r => if x =? k then r else x :: remove_first k r
    end.

  (** Lines 2532-2563. *)
  Definition off_extra_step (k : Z) (c : ctx) : ctx :=
    if (k <? 0) || (n_steps cf <? k) then c
    else if existsb (Z.eqb k) (extra (dy c))
    then upd (fun d => set_extra (remove_first k (extra d)) d) (on_step k (step_finalize s) c)
    else c.

  Fixpoint replace_first (k v : Z) (l : list Z) : list Z :=
    match l with
    | [] => []
    | x :: r => if x =? k then v :: r else x :: replace_first k v r
    end.

  (** Lines 2569-2611. *)
  Definition switch_active_extra_step (off on : Z) (c : ctx) : ctx :=
    if (on <? 0) || (n_steps cf <? on) then c
    else if act (dy c) =? on then c
    else if existsb (Z.eqb off) (extra (dy c))
    then
      let c1 := on_step off (step_finalize s) c in
      let c2 := on_step on (step_evaluate s) (on_step on (step_init s e) c1) in
      upd (fun d => set_extra (replace_first off on (extra d)) d) c2
    else c.

  (** Lines 2469-2477. *)
  Definition save_steps (c : ctx) : ctx := upd (fun d => set_saved (extra d) d) c.
  Definition load_steps (c : ctx) : ctx := upd (fun d => set_extra (saved d) d) c.

  (** Lines 1982-2014. *)
  Definition state_init (first : Z) (c : ctx) : ctx :=
    let c1 := upd (fun d => set_act 0 (set_start (now e) d)) (step_init s e 0 c) in
    if n_steps cf <=? 0 then c1 else
    let c2 := to_step first c1 in
    fold_left (fun c k => if in_range k then step_init s e k c else c) (extra (dy c2)) c2.

  (** Lines 2121-2160. *)
  Definition state_finalize (c : ctx) : ctx :=
    let c1 := upd (set_start (now e)) (step_finalize s 0 c) in
    let c2 :=
      if 0 <? act (dy c1) then
        let c' := upd (fun d => set_dx (eval_time e (act d) d) d) c1 in
        upd (set_act 0) (on_step (act (dy c')) (step_finalize s) c')
      else c1 in
    let c3 := fold_left (fun c k => if in_range k then step_finalize s k c else c) (extra (dy c2)) c2 in
    upd (set_extra []) c3.

  (** Lines 2023-2039: the index runs on while elements are erased. *)
  Fixpoint extra_loop (fuel : nat) (idx : nat) (c : ctx) : ctx :=
    match fuel with
    | O => c
    | S f =>
        match nth_error (extra (dy c)) idx with
        | None => c
        | Some k =>
            let c1 :=
              if in_range k then
                let c' := step_evaluate s k c in
                if auto_off e k && negb (signal1 e k) then off_extra_step k c' else c'
              else c in
            extra_loop f (S idx) c1
        end
    end.

  (** Lines 2040-2053. *)
  Definition enable_loop (c : ctx) : ctx :=
    fold_left (fun c i =>
        let k := Z.of_nat i in
        if existsb (Z.eqb k) (extra (dy c)) then c
        else if signal2 e k then on_extra_step k c else c)
      (seq 1 (Z.to_nat (n_steps cf))) c.

  (** Lines 2104-2116. *)
  Definition jump_part (c : ctx) : ctx :=
    let c1 := match jump e (act (dy c)) with
              | Some nx => if 0 <=? nx then to_step nx c else c
              | None => c
              end in
    on_step (act (dy c1)) (step_evaluate s) c1.

  (** Lines 2018-2119.  The second component tells whether the operation asks
      its object to be switched off (line 2092); [n] is the number of the
      operation. *)
  Definition state_evaluate (n : Z) (c : ctx) : ctx * bool :=
    let c1 := step_evaluate s 0 c in
    let c2 := extra_loop (length (extra (dy c1))) 0 c1 in
    let c3 := enable_loop c2 in
    let a := act (dy c3) in
    if a <=? 0 then (c3, false) else
    let mp := max_par cf a in
    let c4 := upd (set_max (if 0 <? mp then s32 (parmax e mp) else 0)) c3 in
    let p := dur_par cf a in
    if 0 <? p then
      let c5 := upd (set_time (s32 (par e p))) c4 in
      if (act_time (dy c5) =? 0) || (u32 (act_time (dy c5)) <? eval_time e a (dy c5)) then
        if act_next (dy c5) =? -1
        then if 0 <? n then (c5, true) else (state_finalize c5, false)
        else (to_step (act_next (dy c5)) c5, false)
      else (jump_part c5, false)
    else (jump_part c4, false).

  (** Lines 2428-2434. *)
  Definition add_dx_step_time (c : ctx) : ctx :=
    upd (fun d => if 0 <? act d then set_s_dx (put (s_dx d) (act d) (dx_step d)) d else d) c.
End State.

(** ** Class operation, operation_mngr.h:752-765 *)

Definition IDLE := 0.   Definition RUN := 1.       Definition PAUSE := 2.      Definition STOP := 3.
Definition STARTING := 10. Definition PAUSING := 11. Definition UNPAUSING := 12. Definition STOPPING := 13.

(** [num]: number of the operation; [conf]: configuration of its states. *)
Record oper := {
  num : Z;
  conf : Z -> sconf;
  cur : Z;
  sts : Z -> sdyn;
  otr : list event;
  oub : bool;
  run_step : Z;
  run_time : Z }.

Definition fresh_state : sdyn := {| act := 0; act_time := 0; act_max := 0; act_next := -1; extra := [];
  saved := []; start_time := 0; dx_step := 0; s_start := fun _ => 0; s_dx := fun _ => 0 |}.
(** operation.cpp:19-30 and the field initialisers h:867-883. *)
Definition new_oper (n : Z) (cf : Z -> sconf) : oper :=
  {| num := n; conf := cf; cur := IDLE; sts := fun _ => fresh_state; otr := []; oub := false;
     run_step := -1; run_time := 0 |}.

Definition in_state (s : Z) (f : ctx -> ctx) (o : oper) : oper :=
  let c := f {| dy := sts o s; tr := otr o; ub := oub o |} in
  {| num := num o; conf := conf o; cur := cur o;
     sts := fun x => if x =? s then dy c else sts o x;
     otr := tr c; oub := ub c; run_step := run_step o; run_time := run_time o |}.
Definition set_cur (s : Z) (o : oper) : oper :=
  {| num := num o; conf := conf o; cur := s; sts := sts o; otr := otr o; oub := oub o;
     run_step := run_step o; run_time := run_time o |}.
Definition set_run_step (x : Z) (o : oper) : oper :=
  {| num := num o; conf := conf o; cur := cur o; sts := sts o; otr := otr o; oub := oub o;
     run_step := x; run_time := run_time o |}.
Definition set_run_time (x : Z) (o : oper) : oper :=
  {| num := num o; conf := conf o; cur := cur o; sts := sts o; otr := otr o; oub := oub o;
     run_step := run_step o; run_time := x |}.

Section Operation.
  Context (e : env).

  Definition init_st (s first : Z) (o : oper) := in_state s (state_init s (conf o s) e first) o.
  Definition fin_st (s : Z) (o : oper) := in_state s (state_finalize s (conf o s) e) o.
  (** The second component is the request to be switched off; the object acts
      on it at once, but as nothing follows it in the functions below, it can
      be handed to the caller. *)
  Definition eval_st (s : Z) (o : oper) : oper * bool :=
    (in_state s (fun c => fst (state_evaluate s (conf o s) e (num o) c)) o,
     snd (state_evaluate s (conf o s) e (num o) {| dy := sts o s; tr := otr o; ub := oub o |})).

  Definition evaluation_time (s : Z) (o : oper) : Z := get_delta_millisec 32 (now e) (start_time (sts o s)).
  (** Lines 227-240. *)
  Definition op_evaluation_time (o : oper) : Z :=
    if cur o =? RUN then u32 (run_time o + evaluation_time RUN o) else run_time o.

  (** Lines 45-79. *)
  Definition op_pause (o : oper) : oper * bool :=
    if cur o =? RUN then
      let o1 := set_run_step (act (sts o RUN)) (set_run_time (u32 (run_time o + evaluation_time RUN o)) o) in
      let o2 := fin_st RUN (in_state RUN save_steps o1) in
      let nx := if empty (conf o PAUSING) then PAUSE else PAUSING in
      eval_st nx (init_st nx 1 (set_cur nx o2))
    else if cur o =? PAUSING then (init_st PAUSE 1 (set_cur PAUSE (fin_st PAUSING o)), false)
    else (o, false).

  (** Lines 81-111. *)
  Definition op_stop (o : oper) : oper * bool :=
    let s := cur o in
    if (s =? PAUSING) || (s =? PAUSE) || (s =? UNPAUSING) || (s =? STARTING) || (s =? RUN) then
      let nx := if empty (conf o STOPPING) then STOP else STOPPING in
      eval_st nx (init_st nx 1 (set_cur nx (fin_st s o)))
    else if s =? STOPPING then eval_st STOP (init_st STOP 1 (set_cur STOP (fin_st STOPPING o)))
    else (o, false).

  (** Lines 113-124. *)
  Definition op_switch_off (o : oper) : oper * bool :=
    if cur o =? IDLE then (o, false)
    else eval_st IDLE (init_st IDLE 1 (set_cur IDLE (fin_st (cur o) o))).

  (** Lines 183-205. *)
  Definition to_run_state (new : Z) (o : oper) : oper * bool :=
    let o1 := in_state RUN load_steps (set_cur RUN o) in
    let o2 :=
      if 0 <? new then
        let x := init_st RUN new o1 in
        if new =? run_step o then in_state RUN add_dx_step_time x else x
      else if 0 <? run_step o then in_state RUN add_dx_step_time (init_st RUN (run_step o) o1)
      else init_st RUN 1 o1 in
    eval_st RUN o2.

  (** Lines 132-181; [start()] of lines 126-130 passes [run_step]. *)
  Definition op_start (new : Z) (o : oper) : oper * bool :=
    let s := cur o in
    if s =? IDLE then
      let nx := if empty (conf o STARTING) then RUN else STARTING in
      (set_run_time 0 (init_st nx 1 (set_cur nx (fin_st IDLE o))), false)
    else if s =? PAUSE then
      let o1 := fin_st PAUSE o in
      if empty (conf o UNPAUSING) then to_run_state new o1
      else eval_st UNPAUSING (init_st UNPAUSING 1 (set_cur UNPAUSING o1))
    else if s =? STARTING then (set_run_time 0 (init_st RUN 1 (set_cur RUN (fin_st STARTING o))), false)
    else if s =? UNPAUSING then to_run_state new o
    else (o, false).

  (** Lines 398-411; the loop resets [dx_step_time] of all states. *)
  Definition op_finalize (o : oper) : oper :=
    if 0 <? cur o then
      let o1 := fin_st (cur o) o in
      set_cur IDLE {| num := num o1; conf := conf o1; cur := cur o1;
        sts := fun x => if (0 <=? x) && (x <? 15) then set_dx 0 (sts o1 x) else sts o1 x;
        otr := otr o1; oub := oub o1; run_step := run_step o1; run_time := run_time o1 |}
    else o.

  (** The first part of [operation::evaluate], line 246; the request to be
      switched off is passed on to the object. *)
  Definition op_evaluate_state (o : oper) : oper * bool := eval_st (cur o) o.

  (** Lines 413-421. *)
  Definition active_step (o : oper) : Z := if 0 <? cur o then act (sts o (cur o)) else 0.

  (** Lines 483-554. *)
  Definition op_to_step (k : Z) (o : oper) := in_state (cur o) (to_step (cur o) (conf o (cur o)) e k) o.
  Definition op_to_next (o : oper) := in_state (cur o) (to_next_step (cur o) (conf o (cur o)) e) o.
  Definition op_turn_off (o : oper) := in_state (cur o) (turn_off_active_step (cur o) (conf o (cur o))) o.
  Definition op_on_extra (k : Z) (o : oper) := in_state (cur o) (on_extra_step (cur o) (conf o (cur o)) e k) o.
  Definition op_off_extra (k : Z) (o : oper) := in_state (cur o) (off_extra_step (cur o) (conf o (cur o)) k) o.
  Definition op_switch_extra (off on : Z) (o : oper) :=
    in_state (cur o) (switch_active_extra_step (cur o) (conf o (cur o)) e off on) o.
End Operation.

(** ** Exceeding the permitted time of a step, lines 2324-2376

    The message names a step and a limit; [Outside]: the name of a step outside
    the list is read (undefined).  The limits of the extra steps are passed in
    the wrong order: [make_str( extra_active_step_max_time, a_step_n - 1 )]. *)
Inductive overrun := NoOverrun | Overrun (step limit : Z) | Outside.
Definition make_str (cf : sconf) (step_n step_max_time : Z) : overrun :=
  if in_range cf (step_n + 1) then Overrun (step_n + 1) step_max_time else Outside.
Definition exceeded (e : env) (d : sdyn) (k limit : Z) : bool :=
  negb (limit =? 0) && (u32 (1000 * u32 limit) <=? latest_time e k d).
Fixpoint check_extra_max (cf : sconf) (e : env) (d : sdyn) (l : list Z) : overrun :=
  match l with
  | [] => NoOverrun
  | a :: r =>
      if negb (in_range cf a) then Outside
      else let p := max_par cf a in
      if (0 <? p) && exceeded e d a (parmax e p) then make_str cf (parmax e p) (a - 1)
      else check_extra_max cf e d r
  end.
Definition check_max_step_time (cf : sconf) (e : env) (d : sdyn) : overrun :=
  if n_steps cf <=? 0 then NoOverrun
  else if (0 <? act d) && in_range cf (act d) && exceeded e d (act d) (act_max d)
  then make_str cf (act d - 1) (act_max d)
  else check_extra_max cf e d (extra d).
