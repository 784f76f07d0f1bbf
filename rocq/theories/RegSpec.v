(** What the regulators of a washing line, the steam valve, the pump and the average
    should do. *)
From Coq Require Import ZArith List Bool QArith Qabs Sorting.Sorted.
From Verif Require Import FTextModel FloatModel RegModel PidSpec.
Import ListNotations.
Open Scope Z_scope.

(** * The steam valve *)

(** The heating was switched on last, not off. *)
Definition heating_after (b : bool) (e : lev) : bool :=
  match e with LHeat (MOn _ _) => true | LHeat MOff => false | _ => b end.
Definition heating (h : list lev) : bool := fold_left heating_after h false.
(** Steam is allowed: the heating works and asks for more than 1 %, there is a flow and
    the pump runs. *)
Definition allowed (heating_on : bool) (i : inp) : Prop :=
  heating_on = true /\ f_lt (f_of_Z 1) (i_heat_shown i) = true /\ f_lt (i_no_flow i) (i_flow i) = true /\ i_pump_shown i = 1.
(** Every call in [h2], after [h1], allows steam. *)
Definition all_allowed (h1 h2 : list lev) : Prop :=
  forall a i b, h2 = a ++ LCall i :: b -> allowed (heating (h1 ++ a)) i.
(** [h1] ends with the creation of the line or with a call that does not allow steam, at time [s]. *)
Definition refused_at (t0 : Z) (h1 : list lev) (s : Z) : Prop :=
  (h1 = [] /\ s = t0) \/ exists h0 i, h1 = h0 ++ [LCall i] /\ ~ allowed (heating h0) i /\ s = i_now i.
(** The readings of the clock in the calls. *)
Definition readings (h : list lev) : list Z := flat_map (fun e => match e with LCall i => [i_now i] | _ => [] end) h.
Definition in_order (t0 : Z) (h : list lev) : Prop := StronglySorted Z.le (t0 :: readings h).
(** The steam valve after what was written. *)
Definition valve_after (b : bool) (a : act) : bool :=
  match a with ASteamOn => true | ASteamOff => false | _ => b end.
Definition steam_open (l : list (list act)) : bool := fold_left valve_after (concat l) false.

(** * The pump *)

Definition forbidden (i : inp) : Prop := i_can_run i = Some false \/ i_pause i = Some true.
(** One of the two signals is there and none of them forbids the pump. *)
Definition permitted (i : inp) : Prop := (i_can_run i <> None \/ i_pause i <> None) /\ ~ forbidden i.
(** The pump was stopped by a signal and not restarted since. *)
Definition stopped_by_signal (h : list lev) : Prop :=
  exists a i b, h = a ++ LCall i :: b /\ forbidden i /\ forall j, In (LCall j) b -> permitted j -> i_wanted j = false.
(** The last of the written values a function recognises. *)
Definition last_of {A} (f : act -> option A) (l : list act) : option A :=
  fold_left (fun r a => match f a with Some v => Some v | None => r end) l None.
Definition pump_cmd (a : act) : option bool := match a with APumpOn => Some true | APumpOff => Some false | _ => None end.
Definition pump_value (a : act) : option Z := match a with APumpValue v => Some v | _ => None end.
Definition heat_value (a : act) : option Z := match a with AHeat v => Some v | _ => None end.

(** * The regulator *)

(** Manual mode is not used and the numbers given to the regulator are sensible. *)
Definition good_settings (f : Z -> Z) : Prop :=
  sensible_gains (f 1) (f 2) (f 3) /\ sensible_interval (f 4) /\ sensible_range (f 6) (f 5) /\
  small 30 (f 12) /\ f_finite (f 11) = true /\ (f_val (f 11%Z) <= 1000)%Q.
Definition upd (f : Z -> Z) (i v : Z) : Z -> Z := fun j => if j =? i then v else f j.
Fixpoint good_history (f : Z -> Z) (h : list mev) : Prop :=
  match h with
  | [] => True
  | MPar i v :: h' => i <> 0 /\ i <> 8 /\ good_settings (upd f i v) /\ good_history (upd f i v) h'
  | MEval c _ :: h' => small 30 c /\ good_history f h'
  | MTask c t _ :: h' => small 30 c /\ small 30 t /\ good_history f h'
  | _ :: h' => good_history f h'
  end.
(** The largest output, in percent, for a limit [x] (less than 0.1: no limit). *)
Definition top (x : Q) : Q := if Qle_bool (1 # 10) x then x else 100.

(** A number between 0 and the largest output for the limit in force, up to rounding. *)
Definition fits_limit (f : Z -> Z) (o : Z) : Prop :=
  f_finite o = true /\ (0 <= f_val o)%Q /\ (f_val o <= top (f_val (f 11%Z)) * (1 + (1 # 4000000)))%Q.
(** The settings after an event; the settings at each event of a history. *)
Definition next (f : Z -> Z) (e : mev) : Z -> Z := match e with MPar i v => upd f i v | _ => f end.
Fixpoint settings_then (f : Z -> Z) (h : list mev) : list (Z -> Z) :=
  match h with [] => [] | e :: h' => f :: settings_then (next f e) h' end.
(** The settings after a history. *)
Definition settings_at (f : Z -> Z) (h : list mev) : Z -> Z := fold_left next h f.
(** The interval of the recalculations in ms. *)
Definition interval_ms (f : Z -> Z) : Q := if Qeq_bool (f_val (f 4)) 0 then 1000 else f_val (f 4).

(** Work without manual mode and without a restart. *)
Definition automatic_event (e : mev) : Prop :=
  match e with MEval _ _ | MOn _ _ | MOff => True | MPar i _ => i <> 8 | _ => False end.
(** The answer is not a number. *)
Definition answers_nan (e : mev) (o : option Z) : Prop :=
  match e, o with MEval _ _, Some v => f_isnan v = true | _, _ => True end.
(** Work in manual mode. *)
Definition manual_event (e : mev) : Prop := match e with MEval _ _ => True | MPar i _ => i <> 8 | _ => False end.
(** What is written when the manual value is [v]. *)
Fixpoint manual_values (v : Z) (h : list mev) : list (option Z) :=
  match h with
  | [] => []
  | MEval _ _ :: h' => Some v :: manual_values v h'
  | MPar i x :: h' => None :: manual_values (if i =? 9 then x else v) h'
  | _ :: h' => None :: manual_values v h'
  end.
Fixpoint last_manual (v : Z) (h : list mev) : Z :=
  match h with [] => v | MPar i x :: h' => last_manual (if i =? 9 then x else v) h' | _ :: h' => last_manual v h' end.

(** * The average *)

(** A bound of the values. *)
Definition tops (m : Q) : Prop := (p2 (-60) <= m /\ m <= p2 60)%Q.


(** Readings of the counter grow. *)
Fixpoint growing (q : Z) (h : list (Z * Z)) : Prop :=
  match h with [] => True | (_, r) :: h' => q <= r /\ growing r h' end.
(** The sum of the values, each weighted with the litres since the reading before. *)
Fixpoint weighted (q : Z) (h : list (Z * Z)) : Q :=
  match h with [] => 0 | (v, r) :: h' => (f_val v * inject_Z (r - q) + weighted r h')%Q end.
Fixpoint last_reading (q : Z) (h : list (Z * Z)) : Z :=
  match h with [] => q | (_, r) :: h' => last_reading r h' end.
