(** Independent specification for operations. *)
From Coq Require Import ZArith List Bool.
From Verif Require Import Base TimeModel OpModel.
Import ListNotations.
Open Scope Z_scope.

(** The step an event is about. *)
Definition owner (x : event) : Z := match x with Init s _ | Eval s _ | Fin s _ => s end.
Definition stepno (x : event) : Z := match x with Init _ k | Eval _ k | Fin _ k => k end.
Definition ends (x : event) : bool := match x with Fin _ _ => true | _ => false end.

(** A step is engaged if it was started or executed after it was last stopped:
    its devices may be on.  Newest event first. *)
Fixpoint engaged (t : list event) (s k : Z) : bool :=
  match t with
  | [] => false
  | x :: r => if (owner x =? s) && (stepno x =? k) then negb (ends x) else engaged r s k
  end.

(** No step of a state is started or executed while a step of another state is
    engaged; the state [free] is not watched. *)
Fixpoint exclusive (free : Z) (t : list event) : Prop :=
  match t with
  | [] => True
  | x :: r =>
      (ends x = false -> forall s k, engaged r s k = true -> s = owner x \/ s = free) /\
      exclusive free r
  end.

(** Calls that reach an operation: from the operator, from scripts and from the
    cyclic evaluation. *)
Inductive call :=
| CStart (new : Z) | CPause | CStop | CSwitchOff | CFinalize | CEvaluate
| CToStep (k : Z) | CToNext | CTurnOff
| COnExtra (k : Z) | COffExtra (k : Z) | CSwitchExtra (off on : Z).

Definition do_call (e : env) (c : call) (o : oper) : oper :=
  match c with
  | CStart n => fst (op_start e n o)
  | CPause => fst (op_pause e o)
  | CStop => fst (op_stop e o)
  | CSwitchOff => fst (op_switch_off e o)
  | CFinalize => op_finalize e o
  | CEvaluate => fst (op_evaluate_state e o)
  | CToStep k => op_to_step e k o
  | CToNext => op_to_next e o
  | CTurnOff => op_turn_off o
  | COnExtra k => op_on_extra e k o
  | COffExtra k => op_off_extra k o
  | CSwitchExtra a b => op_switch_extra e a b o
  end.

Fixpoint run_calls (h : list (env * call)) (o : oper) : oper :=
  match h with
  | [] => o
  | (e, c) :: r => run_calls r (do_call e c o)
  end.

(** The state diagram: which call may lead from which state to which. *)
Inductive edge : Z -> call -> Z -> Prop :=
| start_idle n s : s = RUN \/ s = STARTING -> edge IDLE (CStart n) s
| start_starting n : edge STARTING (CStart n) RUN
| start_pause n s : s = RUN \/ s = UNPAUSING -> edge PAUSE (CStart n) s
| start_unpausing n : edge UNPAUSING (CStart n) RUN
| pause_run s : s = PAUSE \/ s = PAUSING -> edge RUN CPause s
| pause_pausing : edge PAUSING CPause PAUSE
| stop_any s s' : In s [RUN; PAUSE; STARTING; PAUSING; UNPAUSING] -> s' = STOP \/ s' = STOPPING ->
    edge s CStop s'
| stop_stopping : edge STOPPING CStop STOP
| off_any s c : s <> IDLE -> c = CSwitchOff \/ c = CFinalize -> edge s c IDLE.

(** Calls that are refused in a state. *)
Definition refused (s : Z) (c : call) : bool :=
  match c with
  | CStart _ => (s =? RUN) || (s =? STOP) || (s =? PAUSING) || (s =? STOPPING)
  | CPause => negb ((s =? RUN) || (s =? PAUSING))
  | CStop => (s =? IDLE) || (s =? STOP)
  | CSwitchOff | CFinalize => s =? IDLE
  | _ => false
  end.

(** Calls that name a step number which does not exist. *)
Definition wild_call (c : call) : bool :=
  match c with COnExtra k => k =? 0 | CSwitchExtra _ on => on =? 0 | _ => false end.

(** A step number of a state's configuration. *)
Definition configured (cf : sconf) (k : Z) : Prop := 1 <= k <= n_steps cf.

(** The step in force after an evaluation at which [elapsed] ms of the current
    step have passed. *)
Definition next_step (cf : sconf) (limit : Z -> Z) (jumps : option Z) (nx a elapsed : Z) : Z :=
  if (0 <? dur_par cf a) && ((limit a =? 0) || (limit a <? elapsed)) then
    if in_range cf nx then nx else a
  else match jumps with Some j => if in_range cf j then j else a | None => a end.

(** Running time of an operation as an outside observer computes it from the
    states before and after each call: [since] is when the current running
    stretch began. *)
Record stopwatch := { total : Z; since : Z }.
Definition watch (w : stopwatch) (s s' t : Z) : stopwatch :=
  if (s =? RUN) && ((s' =? PAUSE) || (s' =? PAUSING))
  then {| total := u32 (total w + get_delta_millisec 32 t (since w)); since := since w |}
  else if (s =? s') then w
  else if (s =? IDLE) || (s =? STARTING) then {| total := if (s' =? RUN) || (s' =? STARTING) then 0 else total w; since := t |}
  else {| total := total w; since := if s' =? RUN then t else since w |}.
Definition shows (w : stopwatch) (s t : Z) : Z :=
  if s =? RUN then u32 (total w + get_delta_millisec 32 t (since w)) else total w.
Fixpoint watch_calls (h : list (env * call)) (o : oper) (w : stopwatch) : stopwatch :=
  match h with
  | [] => w
  | (e, c) :: r => let o' := do_call e c o in watch_calls r o' (watch w (cur o) (cur o') (now e))
  end.
