(** What a user expects of scales. *)
From Coq Require Import ZArith List Bool Lia QArith.
From Verif Require Import FloatModel WghModel.
Import ListNotations.
Open Scope Z_scope.

(** A function of texts looks at the characters only. *)
Definition by_text (num : (Z -> Z) -> Z) : Prop := forall f g, (forall k, 0 <= k -> f k = g k) -> num f = num g.
(** The text in an answer of a serial module: two characters in each word, the second one first; only the
    first three words are put in order. *)
Definition letter (f : Z -> Z) (k : Z) : Z := if k <? 6 then f (6 + (if Z.even k then k + 1 else k - 1)) else f (6 + k).
Inductive answer := Idle | Waiting | Bad | Weight.
Definition kind (f : Z -> Z) : answer :=
  if (f 0 =? 0) && (f 1 =? 0) then Idle else if (f 0 =? 1) && (f 1 =? 0) then Waiting else if f 2 =? 43 then Weight else Bad.
(** State and value after the answers. *)
Definition heard (num : (Z -> Z) -> Z) (o : Z * Z) (f : Z -> Z) : Z * Z :=
  match kind f with Weight => (1, num (letter f)) | Bad => (-1, 0) | _ => o end.

(** Messages of a scale on Ethernet: a whole one has its unit in its ninth and tenth byte. *)
Definition whole (l : list Z) : Prop := (10 <= length l)%nat.
Definition in_kg (l : list Z) : bool := (nth 8 l 0 =? 107) && (nth 9 l 0 =? 103).
(** The number is written before the unit. *)
Definition before_unit (num : (Z -> Z) -> Z) : Prop :=
  forall f g, (forall k, 0 <= k <= 7 -> f k = g k) -> f 7 = 107 -> num f = num g.
Definition told (num : (Z -> Z) -> Z) (o : Z * Z) (l : list Z) : Z * Z :=
  if in_kg l then (1, num (fun k => nth (Z.to_nat (1 + k)) l 0)) else (0, snd o).

(** Readings of a strain gauge with non-decreasing times. *)
Fixpoint in_time (t : Z) (rs : list reading) : Prop := match rs with [] => True | r :: q => t <= now r /\ in_time (now r) q end.
(** The values shown. *)
Fixpoint shown (w : Z) (p : gauge_par) (s : gauge) (rs : list reading) : list Z :=
  match rs with [] => [] | r :: q => snd (get_weight w p r s) :: shown w p (fst (get_weight w p r s)) q end.
(** Weight of a reading. *)
Definition load (p : gauge_par) (r : reading) : Z := f_mul (f_div (f_div (ud r) (rkp p)) (uref r)) (nominal p).
(** The word written to a serial module after an answer: 12288 asks for the text. *)
Definition asked (c : Z) (f : Z -> Z) : Z := match kind f with Waiting => 12288 | Idle => c | _ => 0 end.
(** Readings that differ by at most P_DT from a weight. *)
Definition steady (p : gauge_par) (w0 : Z) (r : reading) : Prop :=
  f_eq 0 (uref r) = false /\ f_le (FTextModel.f_mag (f_sub (load p r) w0)) (dt p) = true.
