(** Volume of tanks from the level: cylinder, cylinder with a cone.  Source:
    /repo/PAC/common/device/device.cpp (cpp), base.cpp (base), without the emulator. Floats are bit patterns. *)
From Coq Require Import ZArith List Bool Lia QArith.
From Verif Require Import Base FTextModel FloatModel.
Open Scope Z_scope.

(** (float)M_PI, 9.81f, 100, 0.5f, 2, 3. *)
Definition PI_F : Z := 0x40490FDB.
Definition G_F : Z := 0x411CF5C3.
Definition F100 : Z := 0x42C80000.
Definition F_HALF : Z := 0x3F000000.
Definition F2 : Z := 0x40000000.
Definition F3 : Z := 0x40400000.

(** Conversion to [int]: towards zero; [None]: undefined. *)
Definition f_to_s32 (b : Z) : option Z :=
  if f_finite b then
    let t := Z.quot (Qnum (f_val b)) (Zpos (Qden (f_val b))) in
    if (- 2 ^ 31 <=? t) && (t <? 2 ^ 31) then Some t else None
  else None.
(** [10 * (int)( v * 100 + 0.5f )], cpp:2160, 2196, 2775, 2798; [None] also if the product overflows. *)
Definition kilograms (v : Z) : option Z :=
  match f_to_s32 (f_add (f_mul v F100) F_HALF) with
  | Some t => if (- 2 ^ 31 <=? 10 * t) && (10 * t <? 2 ^ 31) then Some (10 * t) else None
  | None => None
  end.
(** [level_e_cyl::calc_volume], cpp:2154-2163; [r]: P_R, [p]: P_MAX_P, [x]: the value in percent. *)
Definition cylinder (r p x : Z) : option Z :=
  kilograms (f_div (f_mul (f_mul (f_mul (f_mul PI_F r) r) x) p) G_F).
(** [level_e_cone::calc_volume], cpp:2175-2200: height of the product, volume; [c]: P_H_CONE. *)
Definition height (p x : Z) : Z := f_div (f_mul p x) G_F.
Definition tangent (r c : Z) : Z := if f_lt 0 c then f_div r c else 0.
Definition in_cone (r c h : Z) : Z :=
  let t := tangent r c in f_div (f_mul (f_mul (f_mul (f_mul (f_mul PI_F h) t) h) t) h) F3.
Definition above_cone (r c h : Z) : Z := f_mul (f_mul (f_mul PI_F r) r) (f_sub h (f_div (f_mul c F2) F3)).
Definition cone (r c p x : Z) : option Z :=
  let h := height p x in kilograms (if f_le h c then in_cone r c h else above_cone r c h).
(** [level_e_iolink::calc_volume], cpp:2751-2802: [v] the pressure measured, [e] the value of the second sensor. *)
Definition iolink (r c v : Z) (e : option Z) : option Z :=
  let v1 := match e with Some q => f_sub v q | None => v end in
  if f_le c 0 then cylinder r F100 v1 else cone r c F100 v1.
(** [level::get_volume], base:756-764: in a state of error P_ERR. *)
Definition get_volume (st err : Z) (calc : option Z) : option Z := if st <? 0 then f_to_s32 err else calc.
