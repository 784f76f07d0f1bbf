(** What a user expects of the volume of a tank, in kilograms (1 m³ holds 1000 kg). *)
From Coq Require Import ZArith QArith Qabs.
From Verif Require Import FTextModel FloatModel.
Open Scope Q_scope.

(** Pi is between these numbers. *)
Definition pi_like (q : Q) : Prop := (314159265 # 100000000) <= q <= (314159266 # 100000000).
(** Height in metres of a product: [p] bar times [x] percent, in kPa, over 9.81. *)
Definition height_m (p x : Q) : Q := p * x / (981 # 100).
(** Cubic metres: a cylinder; a cone of height [c] below a cylinder. *)
Definition cyl_m3 (q r h : Q) : Q := q * r * r * h.
Definition cone_m3 (q r c h : Q) : Q := if Qle_bool h c then q * r * r * h * h * h / (3 * c * c) else q * r * r * (h - 2 * c / 3).
(** A float is a number in a range. *)
Definition within (a b : Q) (f : Z) : Prop := f_finite f = true /\ a <= f_val f <= b.
(** Kilograms given in tens, with a relative error of a millionth [k] times and at most 5.01 kg more. *)
Definition fits (k : Q) (n : Z) (m3 : Q) : Prop := Qabs (inject_Z n - 1000 * m3) <= (501 # 100) + 1000 * m3 * (k * (1 # 1000000)) /\ exists t, n = (10 * t)%Z.
