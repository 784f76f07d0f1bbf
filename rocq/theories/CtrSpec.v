(** What is claimed about counters and filtered inputs, in terms of the pulses a meter
    has really given, the readings of inputs and the calls made.  Nothing here is taken
    from the functions of the model: only the calls, the states
    they report and the shapes of the records. *)
From Coq Require Import ZArith List Bool Lia QArith.
From Verif Require Import Base FTextModel FloatModel AioModel CtrModel.
Import ListNotations.
Open Scope Z_scope.

(** * Filtered inputs *)

(** The clock of the readings never goes back and stays below [2 ^ 32] ms. *)
Fixpoint ordered (t : Z) (l : list rd) : Prop :=
  match l with
  | [] => True
  | r :: l' => t <= r_now r < 2 ^ 32 /\ ordered (r_now r) l'
  end.
Definition binary (r : rd) : Prop := r_raw r = 0 \/ r_raw r = 1.

(** * Counters *)

(** A meter that has given [p] pulses shows [p] modulo 65536. *)
Definition shown (p : Z) : Z := f_of_Z (p mod 65536).
(** The pulses from [a] to [b] without one for each time the meter passed zero. *)
Definition counted (a b : Z) : Z := (b - a) - (b / 65536 - a / 65536).

(** The meter is read in the cycles of [l] and gives at most [m] pulses between two
    cycles; it had given [p] before and [q] at the last cycle. *)
Inductive fed (m : Z) : Z -> list call -> Z -> Prop :=
| fed_nil p : fed m p [] p
| fed_cycle p p' q i l : p <= p' <= p + m -> i_raw i = shown p' -> fed m p' l q -> fed m p (Cycle i :: l) q
| fed_other p q x l : (forall i, x <> Cycle i) -> fed m p l q -> fed m p (x :: l) q.

(** The calls do not change the total from outside. *)
Definition keeps_total (x : call) : Prop :=
  match x with AbsReset | SetAbs _ => False | _ => True end.
(** The calls do not change the daily values from outside. *)
Definition keeps_days (x : call) : Prop :=
  match x with SetDay _ _ _ | DayOn _ | DayOff _ => False | _ => True end.
(** All cycles of [l] are on day [y]. *)
Definition on_day (y : Z) (x : call) : Prop := match x with Cycle i => i_yday i = y | _ => True end.
(** All readings in cycles are zero. *)
Definition reads_zero (x : call) : Prop := match x with Cycle i => i_raw i = f_of_Z 0 | _ => True end.

(** A period of counting: cycles in pause, the pulses at the start, cycles after it with
    at most 301 pulses between two of them. *)
Record period := { idle : list cin; at_start : Z; work : list (cin * Z) }.
Definition calls_of (p : period) : list call :=
  Pause :: map Cycle (idle p) ++ Start (shown (at_start p)) :: map (fun x => Cycle (fst x)) (work p).
Fixpoint reads (p : Z) (l : list (cin * Z)) : Prop :=
  match l with
  | [] => True
  | (i, p') :: r => p <= p' <= p + 301 /\ i_raw i = shown p' /\ reads p' r
  end.
Definition at_end (p : period) : Z := last (map snd (work p)) (at_start p).
Fixpoint total (l : list period) : Z :=
  match l with [] => 0 | p :: r => counted (at_start p) (at_end p) + total r end.

(** Liquid flows (and a pump works, if pumps are given) in a call at time [t]. *)
Definition flows (t : Z) (i : cin) : Prop :=
  i_now i = t /\ f_lt (i_min i) (i_flow i) = true /\ (i_motors i = [] \/ In 1 (i_motors i)).

(** * The virtual counter *)

(** The sum of the rises between consecutive readings. *)
Fixpoint rises (p : Z) (l : list Z) : Z :=
  match l with [] => 0 | x :: r => Z.max 0 (x - p) + rises x r end.
Fixpoint readings (l : list vcall) : list (Z * Z) :=
  match l with [] => [] | VEval r a :: t => (r, a) :: readings t | _ :: t => readings t end.
Definition evals_only (x : vcall) : Prop :=
  match x with VEval r a => 0 <= r < 2 ^ 32 /\ 0 <= a < 2 ^ 32 | VPause | VStart => True | _ => False end.

(** * Supervision of counting *)

(** Readings and cycles from time [t] to time [u], in order, below [2 ^ 32] ms, while liquid
    flows, with the waiting time [dt]; the meter shows [raw] in all cycles. *)
Inductive steady (raw dt : Z) : Z -> list call -> Z -> Prop :=
| steady_nil t : steady raw dt t [] t
| steady_read t t' u i l : t <= t' < 2 ^ 32 -> flows t' i -> i_dt i = dt -> i_link i = 0 -> f_lt 0 (i_flow i) = true ->
    steady raw dt t' l u -> steady raw dt t (State i :: l) u
| steady_cycle t t' u i l : t <= t' < 2 ^ 32 -> flows t' i -> i_dt i = dt -> i_link i = 0 -> f_lt 0 (i_flow i) = true ->
    i_raw i = raw -> steady raw dt t' l u -> steady raw dt t (Cycle i :: l) u.
(** Readings and cycles only; no liquid flows. *)
Definition no_flow (x : call) : Prop :=
  match x with Cycle i | State i => f_le (i_flow i) (i_min i) = true | _ => False end.
Definition looks_only (x : call) : Prop := match x with Cycle _ | State _ => True | _ => False end.

(** The state each cycle of [l] reports satisfies [P]; only readings and cycles. *)
Fixpoint reporting (w : Z) (k : ckind) (P : Z -> Prop) (c : ctr) (l : list call) : Prop :=
  match l with
  | [] => True
  | x :: r => looks_only x /\
      (forall i, x = Cycle i -> exists st c1, get_state w k i c = Some (st, c1) /\ P st) /\
      exists c1, ctr_step w k c x = Some c1 /\ reporting w k P c1 r
  end.

(** The word of a channel that stands for a broken wire or a too large current. *)
Definition faulty (m : words) (c : chan) : Prop :=
  (mtype c = 466 \/ mtype c = 496) /\ (m (addr c) = 3 \/ 32761 <= m (addr c) < 2 ^ 15).
(** 4294967.5 and 4294967. *)
Definition OVER : Z := f_lit (8589935 # 2).
Definition UNDER : Z := f_lit 4294967.
