(** Words for stating what happens to numbers written to and read from files. *)
From Coq Require Import ZArith List Bool QArith Qabs.
From Verif Require Import Base FTextModel.
Import ListNotations.
Open Scope Z_scope.

(** A float as bits. *)
Definition is_float (b : Z) : Prop := 0 <= b < 2 ^ 32.

(** The real number a finite float stands for. *)
Definition real (b : Z) : Q := (if f_neg b then - f_abs b else f_abs b)%Q.

(** [r] is a finite float with the sign of [b], at most six millionths of it away. *)
Definition close_to (b r : Z) : Prop :=
  is_float r /\ f_finite r = true /\ f_neg r = f_neg b /\
  (Qabs.Qabs (real r - real b) <= Qabs.Qabs (real b) * (6 # 1000000))%Q.

(** [b] is the float nearest to a decimal number of at most six digits (and not
    one of the tiny floats below 2^-126). *)
Definition six_digit (b : Z) : Prop :=
  f_mag b = 0 \/
  exists d x, 0 < d < 10 ^ 6 /\ (p2 (-126) <= inject_Z d * p10 x < p2 128)%Q /\
              f_mag b = nearest (inject_Z d * p10 x).
