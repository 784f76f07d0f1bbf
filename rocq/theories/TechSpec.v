(** Independent specification for technological objects. *)
From Coq Require Import ZArith List Bool.
From Verif Require Import Base TimeModel OpModel OpSpec TechModel.
Import ListNotations.
Open Scope Z_scope.

(** ** What reaches the objects: a command number, a write to the list of
    operations, a call of a step function by a script, the cyclic evaluation of
    one operation (the cycle of an object evaluates its operations in order). *)
Inductive hcall :=
| HCmd (k val : Z)
| HModes (k n m : Z)
| HStep (k n : Z) (c : call)
| HEval (k n : Z).

Definition has (p : plant) (k n : Z) : bool := (1 <=? n) && (n <=? t_n (p_obj p k)).
Definition step_call (c : call) : bool :=
  match c with CToStep _ | CToNext | CTurnOff | COnExtra _ | COffExtra _ | CSwitchExtra _ _ => true | _ => false end.

Definition do_h (R : restr) (i : inp) (c : hcall) (p : plant) : plant :=
  match c with
  | HCmd k val => fst (set_cmd R i k (s32 val) p)
  | HModes k n m => fst (set_mode R i k (u32 n) m p)
  | HStep k n c =>
      if has p k n && step_call c
      then put_obj k (set_op n (do_call (ienv i k n) c (t_ops (p_obj p k) n)) (p_obj p k)) p else p
  | HEval k n => if has p k n then eval_one R i k n p else p
  end.
Fixpoint run_h (R : restr) (h : list (inp * hcall)) (p : plant) : plant :=
  match h with [] => p | (i, c) :: r => run_h R r (do_h R i c p) end.

(** ** Reported and actual state *)
Definition reported_on (p : plant) (k n : Z) : Prop := get_mode (p_obj p k) n = 1.
Definition idle (p : plant) (k n : Z) : Prop := cur (t_ops (p_obj p k) n) = IDLE.
Definition exists_op (p : plant) (k n : Z) : Prop := 1 <= n <= t_n (p_obj p k).

(** ** Command numbers *)
Inductive action :=
| Clear | On (n : Z) | Off (n : Z) | State (n s : Z) | ExtraOn (n st : Z) | ExtraOff (n st : Z).
Definition encode (a : action) : Z :=
  match a with
  | Clear => 0
  | On n => 1000 + n
  | Off n => 2000 + n
  | State n s => 100000 + 100 * n + s
  | ExtraOn n st => 200000 + 100 * n + st
  | ExtraOff n st => 300000 + 100 * n + st
  end.
Definition valid (a : action) : Prop :=
  match a with
  | Clear => True
  | On n | Off n => 0 <= n < 1000
  | State n s | ExtraOn n s | ExtraOff n s => 0 <= n < 1000 /\ 0 <= s < 100
  end.

(** Pause and stop are requested for operations that are reported on only. *)
Definition polite (c : hcall) (p : plant) : Prop :=
  match c with
  | HModes k n s => s = PAUSE \/ s = STOP -> exists_op p k (u32 n) -> reported_on p k (u32 n)
  | HCmd k v => forall n s, s32 v = encode (State n s) -> valid (State n s) -> s = PAUSE \/ s = STOP ->
      exists_op p k n -> reported_on p k n
  | _ => True
  end.
Fixpoint polite_run (R : restr) (h : list (inp * hcall)) (p : plant) : Prop :=
  match h with [] => True | (i, c) :: r => polite c p /\ polite_run R r (do_h R i c p) end.

(** ** Restrictions *)
Definition blocks (R : restr) (k n k' n' : Z) : Prop := (k = k' /\ rin R k n n' = true) \/ rout R k n k' n' = true.
Definition mutual (R : restr) : Prop := forall k n k' n', blocks R k n k' n' -> blocks R k' n' k n.

(** Number of operations of [1..m] with a property. *)
Fixpoint count_nat (f : Z -> bool) (m : nat) : Z :=
  match m with O => 0 | S r => count_nat f r + (if f (Z.of_nat m) then 1 else 0) end.
Definition count (f : Z -> bool) (m : Z) : Z := count_nat f (Z.to_nat m).
(** The operations that are on and block operation [x]. *)
Definition blockers (R : restr) (p : plant) (k x : Z) : Z :=
  count (fun j => negb (j =? x) && rin R k x j && (get_mode (p_obj p k) j =? 1)) (t_n (p_obj p k)).
Definition shown_available (p : plant) (k x : Z) : bool := t_avail (p_obj p k) x =? 0.

(** ** Automatic switching on, as seen from outside: since when the present
    request is refused, when this was last reported, whether it was given up. *)
Inductive request := NoRefusal | Refused (since reported : Z) | GivenUp (since reported : Z).

(** The plant after the actions of the current state were executed. *)
Definition acted (R : restr) (i : inp) (k n : Z) (p : plant) : plant :=
  put_obj k (act_op R i k n op_evaluate_state (p_obj p k)) p.
(** May the operation be switched on now? *)
Definition may_start (R : restr) (i : inp) (k n : Z) (p : plant) : bool :=
  negb (deverr i k n && checked i k n) && (check_on_mode R i k n p =? 0).

(** One evaluation with the answer to the request and the messages given. *)
Definition ask (R : restr) (i : inp) (k n : Z) (p : plant) (r : request) : request * list msg :=
  let q := acted R i k n p in
  let s := cur (t_ops (p_obj q k) n) in
  let t := now (ienv i k n) in
  match goto_ i k n s with
  | None => (NoRefusal, [])
  | Some _ =>
      if negb (s =? IDLE) then (r, [])
      else match r with
           | GivenUp _ _ => (r, [])
           | _ =>
               if may_start R i k n q then (r, [AutoOn n])
               else match r with
                    | Refused since rep =>
                        let again := warn_time i <? get_delta_millisec 32 t rep in
                        let over := wait_time i <? get_delta_millisec 32 t since in
                        let rep' := if again then t else rep in
                        (if over then GivenUp since rep' else Refused since rep',
                         (if over then [AutoGivenUp n] else []) ++ (if again then [AutoRefused n] else []))
                    | _ => (Refused t t, [AutoRefused n])
                    end
           end
  end.
Definition watch_request (R : restr) (k n : Z) (i : inp) (c : hcall) (p : plant) (r : request) : request :=
  match c with
  | HEval k' n' => if (k' =? k) && (n' =? n) && has p k n then fst (ask R i k n p r) else r
  | _ => r
  end.
Fixpoint request_after (R : restr) (k n : Z) (h : list (inp * hcall)) (p : plant) (r : request) : request :=
  match h with
  | [] => r
  | (i, c) :: rest => request_after R k n rest (do_h R i c p) (watch_request R k n i c p r)
  end.
