(** Numbers as text: how the C++ library prints and reads [int] and [float].

    Used by the files of recipes, /repo/PAC/common/params_recipe_manager.cpp
    288-363 ([outfile << float], [infile >> float], default format) and 455-509,
    179-220 ([int]).  The library itself is not part of /repo; modelled is
    [operator<<(float)] with precision 6 (conversion "%g", exact, ties to even)
    and [operator>>(float)], [operator>>(int)] of the GNU library: the characters
    taken by num_get, then the conversion of the whole text taken (correctly
    rounded, ties to even).

    A [float] is its bit pattern, 0 <= b < 2^32.  A text is a list of bytes. *)
From Coq Require Import ZArith List Bool Lia QArith Qround.
From Verif Require Import Base.
Import ListNotations.
Open Scope Z_scope.

(** * Values *)

Definition f_neg (b : Z) : bool := 2 ^ 31 <=? b.
Definition f_mag (b : Z) : Z := b mod 2 ^ 31.
Definition f_finite (b : Z) : bool := f_mag b <? 255 * 2 ^ 23.
Definition f_isnan (b : Z) : bool := 255 * 2 ^ 23 <? f_mag b.
(** Magnitude [f_m * 2 ^ f_e]. *)
Definition f_m (b : Z) : Z :=
  let x := f_mag b in if x / 2 ^ 23 =? 0 then x mod 2 ^ 23 else 2 ^ 23 + x mod 2 ^ 23.
Definition f_e (b : Z) : Z :=
  let x := f_mag b in if x / 2 ^ 23 =? 0 then -149 else x / 2 ^ 23 - 150.

Definition p2 (e : Z) : Q := Qpower 2 e.
Definition p10 (e : Z) : Q := Qpower 10 e.
Definition f_abs (b : Z) : Q := (inject_Z (f_m b) * p2 (f_e b))%Q.

(** The comparison [x != y] of C++ for floats. *)
Definition fne (a b : Z) : bool :=
  f_isnan a || f_isnan b || (negb (a =? b) && negb ((f_mag a =? 0) && (f_mag b =? 0))).

(** Nearest integer, ties to even. *)
Definition rne (x : Q) : Z :=
  let d := Qfloor x in
  match Qcompare (x - inject_Z d) (1 # 2) with
  | Lt => d
  | Gt => d + 1
  | Eq => if Z.even d then d else d + 1
  end.

(** The largest exponent [k <= top] not below [top - n] with [b ^ k <= x]. *)
Fixpoint lg (b : Q) (n : nat) (top : Z) (x : Q) : Z :=
  match n with
  | O => top
  | S n' => if Qle_bool (Qpower b top) x then top else lg b n' (top - 1) x
  end.

(** Six significant digits [D * 10 ^ (k - 5)], 100000 <= D < 1000000, of [x > 0]. *)
Definition dec6 (x : Q) : Z * Z :=
  let k := lg 10 90 40 x in
  let d := rne (x * p10 (5 - k))%Q in
  if d =? 1000000 then (100000, k + 1) else (d, k).

(** The magnitude of the float nearest to [x > 0] (as bits without sign). *)
Definition nearest (x : Q) : Z :=
  let e := lg 2 300 127 x - 23 in
  let e := if e <? -149 then -149 else e in
  (e + 149) * 2 ^ 23 + rne (x * p2 (- e))%Q.

(** * Printing *)

Definition digit (n : Z) : Z := 48 + n mod 10.
(** [n] digits of [v]. *)
Fixpoint digits (n : nat) (v : Z) : list Z :=
  match n with O => [] | S n' => digits n' (v / 10) ++ [digit v] end.

(** Without the zeros at the end. *)
Fixpoint strip (l : list Z) : list Z :=
  match l with
  | [] => []
  | c :: r => match strip r with [] => if c =? 48 then [] else [c] | s => c :: s end
  end.
Definition with_point (l : list Z) : list Z := match l with [] => [] | _ => 46 :: l end.

(** "%g" for the digits [D] and the decimal exponent [k]. *)
Definition show_dec (dk : Z * Z) : list Z :=
  let '(d, k) := dk in
  let t := digits 6 d in
  if (-4 <=? k) && (k <? 6) then
    if 0 <=? k then firstn (Z.to_nat k + 1) t ++ with_point (strip (skipn (Z.to_nat k + 1) t))
    else [48; 46] ++ repeat 48 (Z.to_nat (- k - 1)) ++ strip t
  else
    firstn 1 t ++ with_point (strip (skipn 1 t)) ++ [101; if k <? 0 then 45 else 43] ++ digits 2 (Z.abs k).

Definition show_float (b : Z) : list Z :=
  (if f_neg b then [45] else []) ++
  (if f_finite b then if f_mag b =? 0 then [48] else show_dec (dec6 (f_abs b))
   else if f_isnan b then [110; 97; 110] else [105; 110; 102]).

(** Decimal text of an integer. *)
Fixpoint udec (fuel : nat) (v : Z) : list Z :=
  match fuel with
  | O => []
  | S f => if v <? 10 then [digit v] else udec f (v / 10) ++ [digit v]
  end.
Definition show_int (v : Z) : list Z := if v <? 0 then 45 :: udec 20 (- v) else udec 20 v.

(** * Reading *)

Definition isdigit (c : Z) : bool := (48 <=? c) && (c <=? 57).
Definition isspace (c : Z) : bool := (c =? 32) || ((9 <=? c) && (c <=? 13)).

(** Characters taken by num_get for a [float]: state is whether a digit, the point
    and the exponent have been seen.  Result: taken, rest. *)
Fixpoint take_float (mant dec sci : bool) (l : list Z) : list Z * list Z :=
  match l with
  | [] => ([], [])
  | c :: r =>
      if isdigit c then let '(t, s) := take_float true dec sci r in (c :: t, s)
      else if (c =? 46) && negb dec && negb sci then
        let '(t, s) := take_float mant true sci r in (c :: t, s)
      else if ((c =? 101) || (c =? 69)) && negb sci && mant then
        match r with
        | c2 :: r2 =>
            if (c2 =? 43) || (c2 =? 45)
            then let '(t, s) := take_float mant dec true r2 in (101 :: c2 :: t, s)
            else let '(t, s) := take_float mant dec true r in (101 :: t, s)
        | [] => ([101], [])
        end
      else ([], l)
  end.
Definition take_signed (l : list Z) : bool * list Z * list Z :=
  match l with
  | c :: r =>
      if c =? 45 then (true, fst (take_float false false false r), snd (take_float false false false r))
      else if c =? 43 then (false, fst (take_float false false false r), snd (take_float false false false r))
      else (false, fst (take_float false false false l), snd (take_float false false false l))
  | [] => (false, [], [])
  end.

(** The digits at the beginning: how many, their value, the rest. *)
Fixpoint eat (l : list Z) (n v : Z) : Z * Z * list Z :=
  match l with
  | c :: r => if isdigit c then eat r (n + 1) (v * 10 + (c - 48)) else (n, v, l)
  | [] => (n, v, [])
  end.

(** strtof on the whole text taken: [digits][.digits][e[sign]digits]; the decimal
    value [v * 10 ^ x], [None] if some of the text is left or there are no digits. *)
Definition conv_dec (l : list Z) : option (Z * Z) :=
  let '(n1, v1, r1) := eat l 0 0 in
  let '(n2, v2, r2) := match r1 with 46 :: r => eat r 0 v1 | _ => (0, v1, r1) end in
  if n1 + n2 =? 0 then None
  else match r2 with
       | [] => Some (v2, - n2)
       | 101 :: r3 =>
           let '(sg, r4) := match r3 with 45 :: r => (true, r) | 43 :: r => (false, r) | _ => (false, r3) end in
           let '(n5, v5, r5) := eat r4 0 0 in
           if n5 =? 0 then None
           else match r5 with [] => Some (v2, (if sg then - v5 else v5) - n2) | _ => None end
       | _ => None
       end.

(** Value and whether the conversion succeeded; too large values give the
    largest float and fail. *)
Definition conv_float (neg : bool) (l : list Z) : Z * bool :=
  match conv_dec l with
  | None => (0, false)
  | Some (v, x) =>
      let m := if v =? 0 then 0 else nearest (inject_Z v * p10 x)%Q in
      let big := 255 * 2 ^ 23 <=? m in
      ((if big then 255 * 2 ^ 23 - 1 else m) + (if neg then 2 ^ 31 else 0), negb big)
  end.

Definition conv_int (l : list Z) : Z * bool :=
  let '(sg, r) := match l with 45 :: r => (true, r) | 43 :: r => (false, r) | _ => (false, l) end in
  let '(n, v, _) := eat r 0 0 in
  let x := if sg then - v else v in
  if n =? 0 then (0, false)
  else if x <? - 2 ^ 31 then (- 2 ^ 31, false)
  else if 2 ^ 31 <=? x then (2 ^ 31 - 1, false)
  else (x, true).
(** What is left after it. *)
Definition rest_int (l : list Z) : list Z :=
  snd (eat (match l with 45 :: r => r | 43 :: r => r | _ => l end) 0 0).

(** * Input streams *)

Record stream := { left : list Z; fail : bool; eof : bool }.
Definition good (s : stream) : bool := negb (fail s) && negb (eof s).
Definition failed (s : stream) : stream := {| left := left s; fail := true; eof := eof s |}.
Definition open_in (l : list Z) : stream := {| left := l; fail := false; eof := false |}.

Fixpoint skip_ws (l : list Z) : list Z :=
  match l with c :: r => if isspace c then skip_ws r else l | [] => [] end.

(** [s >> x]: [None] for the value: [x] keeps the value it had. *)
Definition get_num (conv : list Z -> Z * bool) (rest : list Z -> list Z) (s : stream) : option Z * stream :=
  if good s then
    match skip_ws (left s) with
    | [] => (None, {| left := []; fail := true; eof := true |})
    | l => let '(v, ok) := conv l in
           let r := rest l in
           (Some v, {| left := r; fail := negb ok; eof := match r with [] => true | _ => false end |})
    end
  else (None, failed s).
Definition get_int : stream -> option Z * stream := get_num conv_int rest_int.
Definition get_float : stream -> option Z * stream :=
  get_num (fun l => let '(sg, t, _) := take_signed l in conv_float sg t) (fun l => snd (take_signed l)).

(** [s.ignore()]: one character. *)
Definition ignore (s : stream) : stream :=
  if good s then
    match left s with
    | [] => {| left := []; fail := false; eof := true |}
    | _ :: r => {| left := r; fail := false; eof := false |}
    end
  else failed s.

Fixpoint line (l : list Z) : list Z * list Z * bool :=
  match l with
  | [] => ([], [], false)
  | c :: r => if c =? 10 then ([], r, true) else let '(a, b, e) := line r in (c :: a, b, e)
  end.
(** [std::getline]: the line; at the end of the text without a single character
    it fails. *)
Definition getline (s : stream) : list Z * stream :=
  if good s then
    match left s with
    | [] => ([], {| left := []; fail := true; eof := true |})
    | l => let '(a, b, e) := line l in (a, {| left := b; fail := false; eof := negb e |})
    end
  else ([], failed s).
