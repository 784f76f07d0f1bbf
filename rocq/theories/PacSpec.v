(** Reference descriptions for PacProps.v. *)
From Coq Require Import ZArith QArith Qround List Bool.
From Verif Require Import PacModel ErrModel.
Import ListNotations.
Open Scope Z_scope.

(** * Running time *)

(** Did a clock of [w] bits start anew between two true times? *)
Definition wrapped (w t0 t : Z) : bool := t0 / 2 ^ w <? t / 2 ^ w.
Definition one_if (b : bool) : Z := if b then 1 else 0.

(** Is the shown time renewed by a cycle whose first reading is at [a], when it
    was last renewed at [last]?  More than a second has to pass; with a 64-bit
    clock every cycle renews it once the clock has passed 2^32 ms. *)
Definition renewed (w last a : Z) : bool :=
  if w =? 32 then a - last + one_if (wrapped 32 last a) >? 1000
  else (a - last >? 1000) || (2 ^ 32 <=? last).

(** The bookkeeping of a history of cycles, each with three readings: the moment
    of the last renewal, the milliseconds missed between the second and third
    readings, the milliseconds added by a 32-bit clock starting anew. *)
Record account := { ac_last : Z; ac_missed : Z; ac_added : Z }.

Definition acc_cycle (w : Z) (s : account) (r : Z * Z * Z) : account :=
  let '(a, b, c) := r in
  if renewed w (ac_last s) a then
    {| ac_last := c; ac_missed := ac_missed s + (c - b);
       ac_added := ac_added s + one_if ((w =? 32) && wrapped 32 (ac_last s) b) |}
  else s.

Definition acc_run (w t0 : Z) (h : list (Z * Z * Z)) : account :=
  fold_left (acc_cycle w) h {| ac_last := t0; ac_missed := 0; ac_added := 0 |}.

(** Cycles follow each other, all the readings of a cycle less than a day
    (minus one second and a bit) after the first reading of the one before. *)
Fixpoint paced (prev : Z) (prev_end : Z) (h : list (Z * Z * Z)) : Prop :=
  match h with
  | [] => True
  | (a, b, c) :: h' =>
      prev_end <= a /\ a <= b /\ b <= c /\ c - prev < 86400000 - 1001 /\ c < 2 ^ 50 /\
      paced a c h'
  end.

(** First and last readings of the last cycle. *)
Definition last_cycle (t0 : Z) (h : list (Z * Z * Z)) : Z * Z :=
  match rev h with [] => (t0, t0) | (a, _, c) :: _ => (a, c) end.
Definition all_missed (h : list (Z * Z * Z)) : Z :=
  fold_right (fun r s => (snd r - snd (fst r)) + s) 0 h.

(** * Restrictions mode *)

(** The time a clock of the controller measures between two true times. *)
Definition measured (w t0 t : Z) : Z := t - t0 + one_if (wrapped w t0 t).

(** Cycles and changes of the period only. *)
Definition quiet (e : rev_t) : bool :=
  match e with REval _ | RTime _ => true | _ => false end.

(** A number as an unsigned 32-bit one: the whole part, for numbers above -1 and
    below 2^32. *)
Definition whole (v : Q) : option Z :=
  if Qle_bool v (-1) || Qle_bool (inject_Z (2 ^ 32)) v then None
  else Some (if Qle_bool v 0 then 0 else Qfloor v).

(** The period in force after events, [m] before them. *)
Fixpoint period (m : Z) (h : list rev_t) : Z :=
  match h with
  | [] => m
  | RTime v :: h' => period (match whole v with Some n => n | None => m end) h'
  | RReset :: h' => period 120000 h'
  | _ :: h' => period m h'
  end.

(** The mode last commanded (which is the one kept for the next start). *)
Fixpoint commanded (m : Z) (h : list rev_t) : Z :=
  match h with
  | [] => m
  | RMode v _ :: h' => commanded (match whole v with Some n => n | None => m end) h'
  | RReset :: h' => commanded 0 h'
  | _ :: h' => commanded m h'
  end.

(** Times of the cycles lie within the range where elapsed time is measurable,
    after the command at [t]. *)
Definition in_range (t : Z) (e : rev_t) : Prop :=
  match e with REval r => t <= r < t + 2 ^ 32 - 2 | _ => True end.

(** * Couplers *)

(** In service: decided by the last command 0 or 1 for the coupler.  [h] is the
    history, latest event first; couplers are counted from 0 here and from 1 in
    commands. *)
Fixpoint in_service (h : list nev) (i : nat) : bool :=
  match h with
  | [] => true
  | NCmd idx v :: h' =>
      if Nat.eqb idx (S i) then
        if Qeq_bool v 1 then true else if Qeq_bool v 0 then false else in_service h' i
      else in_service h' i
  | NPoll _ _ :: h' => in_service h' i
  end.

(** The alarm about service work: decided by the last command 0, 1 or 100. *)
Fixpoint service_alarm (h : list nev) (i : nat) : bool :=
  match h with
  | [] => false
  | NCmd idx v :: h' =>
      if Nat.eqb idx (S i) then
        if Qeq_bool v 1 then false else if Qeq_bool v 0 then true
        else if Qeq_bool v 100 then false else service_alarm h' i
      else service_alarm h' i
  | NPoll _ _ :: h' => service_alarm h' i
  end.

(** The alarm about the connection: decided by the last poll made in service,
    cancelled by commands 0 and 100. *)
Fixpoint link_alarm (h : list nev) (i : nat) : bool :=
  match h with
  | [] => false
  | NCmd idx v :: h' =>
      if Nat.eqb idx (S i) then
        if Qeq_bool v 0 || Qeq_bool v 100 then false else link_alarm h' i
      else link_alarm h' i
  | NPoll j b :: h' =>
      if Nat.eqb i j && in_service h' i then b else link_alarm h' i
  end.

Definition service_error (k : Z) : crit_error :=
  {| ce_class := 5; ce_sub := 1; ce_param := k |}.
Definition link_error (k : Z) : crit_error :=
  {| ce_class := 1; ce_sub := 1; ce_param := k |}.
