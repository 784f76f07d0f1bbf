(** What the channels of a device are for, in exact numbers. *)
From Coq Require Import ZArith List Bool QArith Qabs Qminmax.
From Verif Require Import Base FTextModel FloatModel AioModel.
Open Scope Q_scope.

(** Codes per milliampere of an output module for 4..20 mA. *)
Definition out_scale (mt : Z) : option Q :=
  if Z.eqb mt 554 then Some (4095 # 2) else if Z.eqb mt 555 then Some (4095 # 2)
  else if Z.eqb mt 2688527 then Some 1875 else if Z.eqb mt 2702072 then Some 1875
  else if Z.eqb mt 1088123 then Some 1000 else None.

(** The current wanted for a value: the value itself without a scale, else the
    place of the value on the scale from [mn] to [mx]. *)
Definition no_scale (mn mx : Q) : bool := Qeq_bool mn 0 && Qeq_bool mx 0.
Definition wanted (v mn mx : Q) : Q := if no_scale mn mx then v else 4 + 16 * (v - mn) / (mx - mn).
(** Limited to the range of the module. *)
Definition limited (x : Q) : Q := Qmax 4 (Qmin 20 x).

(** [a] and [b] differ by at most [e]. *)
Definition within (e a b : Q) : Prop := Qabs (a - b) <= e.

(** Sensible numbers. *)
Definition sensible (b : Z) : Prop := f_finite b = true /\ Qabs (f_val b) <= p2 60.
Definition sensible_scale (mn mx : Z) : Prop :=
  sensible mn /\ sensible mx /\ (no_scale (f_val mn) (f_val mx) = true \/ p2 (-40) <= Qabs (f_val mx - f_val mn)).

(** A scale with which a place on it can be computed. *)
Definition usable_scale (mn mx : Z) : Prop :=
  f_finite mn = true /\ f_finite mx = true /\
  (no_scale (f_val mn) (f_val mx) = true \/ (~ f_val mn == f_val mx /\ Qabs (f_val mx - f_val mn) <= p2 127)).

(** What an input module reports with a word. *)
Inductive input :=
| Number (q : Q)              (* this many units per code *)
| Current (k : Q)             (* 4..20 mA, codes per milliampere *)
| Fault (value err : Z).
Definition input_of (mt code : Z) : input :=
  (if (mt =? 461) || (mt =? 450) then
     if code <? -2000 then Fault (-1000) 2 else if 8500 <? code then Fault (-1000) 3 else Number (1 # 10)
   else if (mt =? 466) || (mt =? 496) then
     if code =? 3 then Fault (-1) 2 else if 32760 <? code then Fault (-1) 3 else Current (4095 # 2)
   else if mt =? 491 then
     if (code <? -30000) || (30000 <? code) then Fault (-1000) 4 else Number (1 # 2000)
   else if mt =? 2688556 then if code <? -32000 then Fault (-1000) 2 else Number (1 # 10)
   else if (mt =? 2688491) || (mt =? 2702072) then if code <? -32000 then Fault (-1) 2 else Current 1875
   else if mt =? 1088062 then if code <? -32000 then Fault (-1) 2 else Current 1000
   else Number 1)%Z.
(** The value shown for a current of [4 + x] mA. *)
Definition shown (x mn mx : Q) : Q := if no_scale mn mx then 4 + x else mn + x * (mx - mn) / 16.
