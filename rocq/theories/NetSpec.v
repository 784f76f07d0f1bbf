(** Independent specification for the network part. *)
From Coq Require Import ZArith List Bool.
From Verif Require Import Base TimeModel NetModel.
Import ListNotations.
Open Scope Z_scope.

(** ** Histories *)

(** What a program does with client [i]: [Send] (AsyncSend), [Result]
    (get_async_result), [Receive] (AsyncRecive), [Exchange] (Communicate), [Poll]
    (an asynchronous Modbus request), [Drop] (Disconnect); and the evaluation of
    the communicator.  Each with what the operating system answers. *)
Inductive call :=
| Send (i n : Z) | Result (i : Z) | Receive (i : Z) | Exchange (i : Z) | Poll (i n expected : Z) | Drop (i : Z)
| Eval (l : list cycle).
Definition item := (os * os * call)%type.

Definition do_call (W : Z) (x : item) (w : world) : world :=
  let '(o, o2, c) := x in
  match c with
  | Send i n => async_send W i n o w
  | Result i => fst (get_async_result W i o w)
  | Receive i => fst (async_receive W i o w)
  | Exchange i => fst (communicate i o w)
  | Poll i n e => fst (modbus_poll W i n e o o2 w)
  | Drop i => disconnect i w
  | Eval l => evaluate_clients W l w
  end.

Definition run (W : Z) (h : list item) (w : world) : world := fold_left (fun w x => do_call W x w) h w.

(** At the beginning: client [i] has timeout [T i]; [base] are the descriptors
    that are open already; [g]: values of the fields that are not initialised. *)
Definition start (W : Z) (T : Z -> Z) (t0 : Z) (base : Z -> bool) (g : Z -> Z * Z * bool) : world :=
  {| cl := fun i => new_client W (T i) t0 (fst (fst (g i))) (snd (fst (g i))) (snd (g i));
     opn := base; reg := []; tr := [] |}.

(** ** Waiting before the next attempt to connect *)

(** Number of attempts that failed since the last success. *)
Fixpoint failures (i : Z) (l : list ev) : nat :=
  match l with
  | [] => 0%nat
  | EResult j r :: t =>
      if j =? i then
        if r =? 1 then 0%nat else if r =? 0 then S (failures i t) else failures i t
      else failures i t
  | _ :: t => failures i t
  end.

(** 5, 10, 20, then always 40 timeouts. *)
Definition waiting (T : Z) (n : nat) : Z :=
  match n with 0%nat => 5 * T | 1%nat => 10 * T | 2%nat => 20 * T | _ => 40 * T end.

(** Time of the last attempt, or of the creation. *)
Fixpoint last_try (i t0 : Z) (l : list ev) : Z :=
  match l with
  | [] => t0
  | ETry j t :: r => if j =? i then t else last_try i t0 r
  | _ :: r => last_try i t0 r
  end.

(** ** Ownership of descriptors *)

Definition alive (w : world) (i : Z) : Prop := cst (cl w i) <> 0.
Definition registered (w : world) (i : Z) : Prop := exists k, In (k, i) (reg w).

(** A descriptor is open if and only if it was open at the beginning or is the
    socket of exactly one client that is connected or connecting. *)
Definition owned (base : Z -> bool) (w : world) : Prop :=
  (forall fd, opn w fd = true <-> base fd = true \/ exists i, alive w i /\ sock (cl w i) = fd) /\
  (forall i, alive w i -> base (sock (cl w i)) = false) /\
  (forall i j, alive w i -> alive w j -> sock (cl w i) = sock (cl w j) -> i = j).

(** The operating system returns descriptors that are not in use. *)
Definition fresh (w : world) (o : os) : Prop :=
  match o_open o with
  | NoSocket => True
  | NoOption fd | NoNonblock fd | Refused fd | Pending fd => 0 <= fd /\ opn w fd = false
  end.
Definition refused (o : os) : bool := match o_open o with Refused _ => true | _ => false end.

(** An asynchronous client that waits for its answer is left alone, except by
    the functions made for that ([Result], [Poll]). *)
Definition allowed (w : world) (c : call) : Prop :=
  match c with
  | Send i _ | Receive i | Exchange i | Drop i => ~ registered w i
  | _ => True
  end.

Definition proper (W : Z) (w : world) (x : item) : Prop :=
  let '(o, o2, c) := x in
  allowed w c /\
  match c with
  | Send _ _ | Result _ | Receive _ => fresh w o /\ refused o = false
  | Poll i _ _ => (fresh w o /\ refused o = false) /\
                  fresh (fst (get_async_result W i o w)) o2 /\ refused o2 = false
  | Exchange _ => fresh w o
  | Drop i => alive w i
  | Eval _ => True
  end.
Fixpoint proper_run (W : Z) (h : list item) (w : world) : Prop :=
  match h with
  | [] => True
  | x :: r => proper W w x /\ proper_run W r (do_call W x w)
  end.

(** ** Frames *)

(** Station, kind, number of the packet, length (high byte first), data. *)
Definition frame (station kind packet : Z) (data : list Z) : list Z :=
  let n := Z.of_nat (length data) in [station; kind; packet; n / 256; n mod 256] ++ data.
Definition cells (m : mem) (from n : Z) : list Z :=
  map (fun k => m (from + Z.of_nat k)) (seq 0 (Z.to_nat n)).

(** ** Sending *)

(** The operating system: [select] returns -1, 0 or a positive number, [send]
    takes no more than it is offered. *)
Definition select_ok (x : Z * Z) : Prop := -1 <= fst x.

(** ** Watching the link *)

(** The alarm of the link to the server, after the evaluations at the times
    [fst] with the last transfer at [snd]. *)
Fixpoint link_state (W : Z) (l : list (Z * Z)) (ok alarm : bool) : bool * bool :=
  match l with
  | [] => (ok, alarm)
  | (now, last) :: r =>
      let '(ok', e) := watch_link W now last ok in
      link_state W r ok' (match e with Some b => b | None => alarm end)
  end.
