(** Arithmetic of the C++ type [float] (IEEE 754 binary32, round to nearest even).

    Used by the analog channels, /repo/PAC/common/bus_coupler_io.cpp 123-552, and
    by the regulator, /repo/PAC/common/PID.cpp 65-223.  A [float] is its bit
    pattern, 0 <= b < 2^32, as in [FTextModel].  An operation is the exact
    operation on rationals followed by one rounding.

    Simplifications: all not-a-number results have one bit pattern; every
    operation is rounded to [float] at once (FLT_EVAL_METHOD = 0, no contraction
    of a product and a sum into one operation). *)
From Coq Require Import ZArith List Bool Lia QArith Qround.
From Verif Require Import Base FTextModel.
Open Scope Z_scope.

(** Magnitude bits of an infinity. *)
Definition INF : Z := 255 * 2 ^ 23.
Definition NAN : Z := 2143289344.
Definition f_isinf (b : Z) : bool := f_mag b =? INF.
Definition f_iszero (b : Z) : bool := f_mag b =? 0.

(** The number a finite float stands for. *)
Definition f_val (b : Z) : Q := if f_neg b then Qopp (f_abs b) else f_abs b.
(** The position of a float among the floats: equal for both zeros. *)
Definition key (b : Z) : Z := if f_neg b then - f_mag b else f_mag b.

Definition signed (s : bool) (m : Z) : Z := if s then 2 ^ 31 + m else m.
(** Bits of the magnitude nearest to [x >= 0]; too large numbers become infinite. *)
Definition mag (x : Q) : Z := Z.min (nearest x) INF.
(** Rounding; [s]: the sign of an exact zero. *)
Definition f_round (s : bool) (x : Q) : Z :=
  match Qcompare x 0 with
  | Lt => signed true (mag (Qopp x))
  | Eq => signed s 0
  | Gt => mag x
  end.

Definition f_opp (a : Z) : Z := signed (negb (f_neg a)) (f_mag a).

Definition f_add (a b : Z) : Z :=
  if f_isnan a || f_isnan b then NAN
  else if f_isinf a then (if f_isinf b && xorb (f_neg a) (f_neg b) then NAN else a)
  else if f_isinf b then b
  else f_round (f_neg a && f_neg b) (f_val a + f_val b).
Definition f_sub (a b : Z) : Z := f_add a (f_opp b).
Definition f_mul (a b : Z) : Z :=
  if f_isnan a || f_isnan b then NAN
  else let s := xorb (f_neg a) (f_neg b) in
  if f_isinf a then (if f_iszero b then NAN else signed s INF)
  else if f_isinf b then (if f_iszero a then NAN else signed s INF)
  else f_round s (f_val a * f_val b).
Definition f_div (a b : Z) : Z :=
  if f_isnan a || f_isnan b then NAN
  else let s := xorb (f_neg a) (f_neg b) in
  if f_isinf a then (if f_isinf b then NAN else signed s INF)
  else if f_isinf b then signed s 0
  else if f_iszero b then (if f_iszero a then NAN else signed s INF)
  else f_round s (f_val a / f_val b).

(** Comparisons; false if one is not a number. *)
Definition f_lt (a b : Z) : bool := negb (f_isnan a) && negb (f_isnan b) && (key a <? key b).
Definition f_le (a b : Z) : bool := negb (f_isnan a) && negb (f_isnan b) && (key a <=? key b).
Definition f_eq (a b : Z) : bool := negb (f_isnan a) && negb (f_isnan b) && (key a =? key b).

(** Conversion of an integer and of a decimal literal. *)
Definition f_of_Z (z : Z) : Z := f_round false (inject_Z z).
Definition f_lit (x : Q) : Z := f_round false x.
(** Conversion to [unsigned int]: towards zero; [None]: undefined. *)
Definition f_to_u32 (b : Z) : option Z :=
  if f_finite b then
    let t := Z.quot (Qnum (f_val b)) (Zpos (Qden (f_val b))) in
    if (0 <=? t) && (t <? 2 ^ 32) then Some t else None
  else None.
