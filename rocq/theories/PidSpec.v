(** What the regulator should do, in exact numbers. *)
From Coq Require Import ZArith List Bool QArith Qabs.
From Verif Require Import FTextModel FloatModel PidModel.
Import ListNotations.
Open Scope Q_scope.

(** A number of moderate size. *)
Definition small (n : Z) (b : Z) : Prop := f_finite b = true /\ Qabs (f_val b) <= Qpower 2 n.

(** The regulator in exact numbers: interval in seconds, error in percent of the
    range of the measurement, change of the output for one interval. *)
Definition seconds (ms : Q) : Q := if Qeq_bool ms 0 then 1 else ms / 1000.
Definition integral_time (t : Q) : Q := if Qeq_bool t 0 then 1 # 10000 else t.
Definition percent (sign : Z) (set current lo hi : Q) : Q := inject_Z sign * 100 * (set - current) / (hi - lo).
Definition change (K TI TD T e e1 e2 : Q) : Q :=
  K * (1 + TD / T) * e + K * (- 1 - 2 * TD / T + 2 * T / TI) * e1 + K * TD / T * e2.
(** The size of the terms of [change], for the accuracy. *)
Definition size (K TI TD T e e1 e2 : Q) : Q :=
  (Qabs K + 1) * ((2 + Qabs TD / T) * (Qabs e + 1) + (3 + 2 * Qabs TD / T + 2 * T / Qabs TI) * (Qabs e1 + 1)
                  + (1 + Qabs TD / T) * (Qabs e2 + 1)).
Definition cut (x : Q) : Q := if Qle_bool x 0 then 0 else if Qle_bool x 100 then x else 100.

(** Tuning a regulator can work with. *)
Definition sensible_gains (K TI TD : Z) : Prop :=
  small 10 K /\ small 20 TD /\ small 20 TI /\ (f_val TI == 0 \/ Qpower 2 (-20) <= Qabs (f_val TI)).
Definition sensible_interval (d : Z) : Prop :=
  f_finite d = true /\ (f_val d == 0 \/ (1 <= f_val d /\ f_val d <= Qpower 2 29)).
Definition sensible_range (lo hi : Z) : Prop :=
  small 20 lo /\ small 20 hi /\ (f_val hi == f_val lo \/ Qpower 2 (-20) <= Qabs (f_val hi - f_val lo)).
Definition sensible_time (a : Z) : Prop :=
  f_finite a = true /\ 0 <= f_val a /\ f_val a < Qpower 2 32.

(** Sensible settings of a regulator, given its parameters (numbered as in the
    device description: 1 k, 2 Ti, 3 Td, 4 dt, 5 max, 6 min, 7 acceleration time,
    8 manual mode, 9 manual value, 10 k2, 11 Ti2, 12 Td2, 13 upper limit,
    14 lower limit, 15 reverse, 16 zero start). *)
Definition settings (ps : Z -> Z) : Prop :=
  sensible_gains (ps 1%Z) (ps 2%Z) (ps 3%Z) /\ sensible_gains (ps 10%Z) (ps 11%Z) (ps 12%Z) /\
  sensible_interval (ps 4%Z) /\ sensible_range (ps 6%Z) (ps 5%Z) /\ sensible_time (ps 7%Z).
Definition tuned (ps : Z -> Z) : Prop :=
  settings ps /\ small 30 (ps 13%Z) /\ small 30 (ps 14%Z).

(** A number between two limits. *)
Definition within (lo hi x : Q) : Q := if Qle_bool x lo then lo else if Qle_bool x hi then x else hi.

(** * Histories *)

Definition upd (ps : Z -> Z) (i v : Z) : Z -> Z := fun j => if (j =? i)%Z then v else ps j.

(** Every number given to the regulator is of moderate size and every write of a
    parameter leaves the settings sensible. *)
Fixpoint sensible_history (ps : Z -> Z) (h : list pev) : Prop :=
  match h with
  | [] => True
  | PPar i v :: h' =>
      if ((i =? 9) || (i =? 13) || (i =? 14))%Z then small 30 v /\ sensible_history ps h'
      else settings (upd ps i v) /\ sensible_history (upd ps i v) h'
  | POldPar i v :: h' => (13 <= i)%Z /\ sensible_history ps h'
  | PValue v c _ :: h' | PCmdValue v c _ :: h' => small 30 v /\ small 30 c /\ sensible_history ps h'
  | PEval c s _ :: h' => small 30 c /\ (s = 1%Z \/ s = (-1)%Z) /\ sensible_history ps h'
  | PSet v :: h' | POldOut v :: h' => small 30 v /\ sensible_history ps h'
  | _ :: h' => sensible_history ps h'
  end.

(** Automatic work: nobody writes the parameter of manual mode or the limits. *)
Definition automatic (e : pev) : Prop :=
  match e with
  | PPar i _ | POldPar i _ => (i <> 8 /\ i <> 13 /\ i <> 14)%Z
  | _ => True
  end.
(** Nobody switches the regulator or uses manual mode. *)
Definition undisturbed (e : pev) : Prop :=
  match e with
  | PValue _ _ _ | PCmdValue _ _ _ | PEval _ _ _ | PSet _ | PUsed _ | PIo _ | PHold _ => True
  | PPar i _ | POldPar i _ => (i <> 8)%Z
  | _ => False
  end.

(** The time of an event, and histories in order of time. *)
Definition ev_time (e : pev) : option Z :=
  match e with
  | POn _ t | POff t | PState _ t | PIo t | PValue _ _ t | PCmdValue _ _ t | PEval _ _ t => Some t
  | _ => None
  end.
Fixpoint ordered (t : Z) (h : list pev) : Prop :=
  match h with
  | [] => True
  | e :: h' => match ev_time e with Some n => (t <= n)%Z /\ ordered n h' | None => ordered t h' end
  end.
Fixpoint last_event (t : Z) (h : list pev) : Z :=
  match h with
  | [] => t
  | e :: h' => last_event (match ev_time e with Some n => n | None => t end) h'
  end.
(** Nobody changes the way the regulator starts or its limits. *)
Definition starting (e : pev) : Prop :=
  undisturbed e /\ match e with PPar i _ | POldPar i _ => (i <> 7 /\ i <> 13 /\ i <> 14 /\ i <> 16)%Z | _ => True end.
(** The output [x] during the start, [t] ms after the regulator was switched on, when
    the start takes [a] ms: from the lower end it does not run ahead of the line, from the
    upper end it does not fall below it, unless a limit demands it. *)
Definition follows (zero_start : bool) (lo hi : Q) (a t : Z) (x : Q) : Prop :=
  let line := 100 * inject_Z t / inject_Z a in
  if zero_start then x <= lo \/ x <= line + (1 # 5000) else hi <= x \/ 100 - line - (1 # 5000) <= x.
(** Nobody switches the regulator on. *)
Definition not_on (e : pev) : Prop :=
  match e with POn _ _ => False | PState n _ => n <> 1%Z | _ => True end.
