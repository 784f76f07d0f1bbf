(** Text conversion between UTF-8 and Windows-1251.
    Source: /repo/common/util/utf2cp1251.cpp.
    A C string is the list of its bytes (0..255) before the terminating zero. *)
From Coq Require Import ZArith List Bool Lia.
From Verif Require Import Base.
Import ListNotations.
Open Scope Z_scope.

(** utf2cp1251.cpp:10-71 [g_letters]: (win1251, unicode). *)
Definition g_letters : list (Z * Z) :=
  [(0x82,0x201A); (0x83,0x0453); (0x84,0x201E); (0x85,0x2026); (0x86,0x2020); (0x87,0x2021);
   (0x88,0x20AC); (0x89,0x2030); (0x8A,0x0409); (0x8B,0x2039); (0x8C,0x040A); (0x8D,0x040C);
   (0x8E,0x040B); (0x8F,0x040F); (0x90,0x0452); (0x91,0x2018); (0x92,0x2019); (0x93,0x201C);
   (0x94,0x201D); (0x95,0x2022); (0x96,0x2013); (0x97,0x2014); (0x99,0x2122); (0x9A,0x0459);
   (0x9B,0x203A); (0x9C,0x045A); (0x9D,0x045C); (0x9E,0x045B); (0x9F,0x045F); (0xA0,0x00A0);
   (0xA1,0x040E); (0xA2,0x045E); (0xA3,0x0408); (0xA4,0x00A4); (0xA5,0x0490); (0xA6,0x00A6);
   (0xA7,0x00A7); (0xA8,0x0401); (0xA9,0x00A9); (0xAA,0x0404); (0xAB,0x00AB); (0xAC,0x00AC);
   (0xAD,0x00AD); (0xAE,0x00AE); (0xAF,0x0407); (0xB0,0x00B0); (0xB1,0x00B1); (0xB2,0x0406);
   (0xB3,0x0456); (0xB4,0x0491); (0xB5,0x00B5); (0xB6,0x00B6); (0xB7,0x00B7); (0xB8,0x0451);
   (0xBA,0x0454); (0xBB,0x00BB); (0xBC,0x0458); (0xBD,0x0405); (0xBE,0x0455); (0xBF,0x0457)].

(** The search loop of utf2cp1251.cpp:106-112. *)
Fixpoint find_letter (u : Z) (l : list (Z * Z)) : option Z :=
  match l with
  | [] => None
  | (w, x) :: r => if u =? x then Some w else find_letter u r
  end.

(** utf2cp1251.cpp:95-115: one two-byte character; [None]: "return 0". *)
Definition two_byte (prefix suffix : Z) : option Z :=
  let u := Z.shiftl (Z.land prefix 0x1F) 6 + Z.land suffix 0x3F in
  if (0x410 <=? u) && (u <=? 0x44F) then Some (u - 0x350)
  else if (0x80 <=? u) && (u <=? 0xFF) then Some u
  else if (0x402 <=? u) && (u <=? 0x403) then Some (u - 0x382)
  else find_letter u g_letters.

Inductive conv :=
| Done (out : list Z)   (* returns 1; [out] before the terminating zero *)
| Refused (out : list Z) (* returns 0; [out] written, no terminating zero *)
| Overread.             (* reads the input beyond its terminating zero *)

Definition ccons (c : Z) (r : conv) : conv :=
  match r with Done o => Done (c :: o) | Refused o => Refused (c :: o) | Overread => Overread end.

(** utf2cp1251.cpp:73-128 [convert_utf8_to_windows1251]: [l] is the rest of the
    input from index [i], [n] the rest [n - i] of the length argument.  A
    two-byte lead at the very end makes the loop jump over the terminator: the
    next loop test reads outside the string unless [n] is used up. *)
Fixpoint utf8_to_1251 (l : list Z) (n : Z) : conv :=
  if n <=? 0 then Done []
  else match l with
  | [] => Done []
  | p :: r =>
      let two (r' : option conv) :=
        match two_byte p (hd 0 r) with
        | None => Refused []
        | Some w => ccons w (match r' with Some c => c | None => if n - 2 <=? 0 then Done [] else Overread end)
        end in
      let other (r' : option conv) :=
        if p <? 0x80 then ccons p (utf8_to_1251 r (n - 1))
        else if Z.land p 0x20 =? 0 then two r'
        else Refused [] in
      match r with
      | [] => other None
      | s :: r' =>
          match r' with
          | t :: r'' =>
              if (p =? 0xE2) && (s =? 0x84) && (t =? 0x96)
              then ccons 0xB9 (utf8_to_1251 r'' (n - 3))
              else other (Some (utf8_to_1251 r' (n - 2)))
          | [] => other (Some (utf8_to_1251 r' (n - 2)))
          end
      end
  end.

(** utf2cp1251.cpp:131-148 [table]. *)
Definition table : list Z :=
  [0x82D0; 0x83D0; 0x9A80E2; 0x93D1; 0x9E80E2; 0xA680E2; 0xA080E2; 0xA180E2;
   0xAC82E2; 0xB080E2; 0x89D0; 0xB980E2; 0x8AD0; 0x8CD0; 0x8BD0; 0x8FD0;
   0x92D1; 0x9880E2; 0x9980E2; 0x9C80E2; 0x9D80E2; 0xA280E2; 0x9380E2; 0x9480E2;
   0x0; 0xA284E2; 0x99D1; 0xBA80E2; 0x9AD1; 0x9CD1; 0x9BD1; 0x9FD1;
   0xA0C2; 0x8ED0; 0x9ED1; 0x88D0; 0xA4C2; 0x90D2; 0xA6C2; 0xA7C2;
   0x81D0; 0xA9C2; 0x84D0; 0xABC2; 0xACC2; 0xADC2; 0xAEC2; 0x87D0;
   0xB0C2; 0xB1C2; 0x86D0; 0x96D1; 0x91D2; 0xB5C2; 0xB6C2; 0xB7C2;
   0x91D1; 0x9684E2; 0x94D1; 0xBBC2; 0x98D1; 0x85D0; 0x95D1; 0x97D1;
   0x90D0; 0x91D0; 0x92D0; 0x93D0; 0x94D0; 0x95D0; 0x96D0; 0x97D0;
   0x98D0; 0x99D0; 0x9AD0; 0x9BD0; 0x9CD0; 0x9DD0; 0x9ED0; 0x9FD0;
   0xA0D0; 0xA1D0; 0xA2D0; 0xA3D0; 0xA4D0; 0xA5D0; 0xA6D0; 0xA7D0;
   0xA8D0; 0xA9D0; 0xAAD0; 0xABD0; 0xACD0; 0xADD0; 0xAED0; 0xAFD0;
   0xB0D0; 0xB1D0; 0xB2D0; 0xB3D0; 0xB4D0; 0xB5D0; 0xB6D0; 0xB7D0;
   0xB8D0; 0xB9D0; 0xBAD0; 0xBBD0; 0xBCD0; 0xBDD0; 0xBED0; 0xBFD0;
   0x80D1; 0x81D1; 0x82D1; 0x83D1; 0x84D1; 0x85D1; 0x86D1; 0x87D1;
   0x88D1; 0x89D1; 0x8AD1; 0x8BD1; 0x8CD1; 0x8DD1; 0x8ED1; 0x8FD1].

(** utf2cp1251.cpp:150-158: the bytes appended for one input character. *)
Definition char_utf8 (c : Z) : list Z :=
  if Z.land c 0x80 =? 0 then [c]
  else
    let v := nth (Z.to_nat (Z.land 0x7F c)) table 0 in
    if v =? 0 then []
    else [v mod 256; (v / 256) mod 256] ++
         (if v / 65536 =? 0 then [] else [(v / 65536) mod 256]).

(** utf2cp1251.cpp:130-162 [convert_windows1251_to_utf8]. *)
Fixpoint win1251_to_utf8 (l : list Z) : list Z :=
  match l with [] => [] | c :: r => char_utf8 c ++ win1251_to_utf8 r end.

(** utf2cp1251.cpp:164-177 [utf8_strlen].  [k] characters are still to be
    skipped (i += k); [None]: invalid lead byte, "return 0". *)
Fixpoint utf8_count (l : list Z) (k : nat) : option Z :=
  match l with
  | [] => Some 0
  | c :: r =>
      match k with
      | S k' => utf8_count r k'
      | O =>
          let go k := match utf8_count r k with Some q => Some (q + 1) | None => None end in
          if c <=? 127 then go O
          else if Z.land c 0xE0 =? 0xC0 then go 1%nat
          else if Z.land c 0xF0 =? 0xE0 then go 2%nat
          else if Z.land c 0xF8 =? 0xF0 then go 3%nat
          else None
      end
  end.
Definition utf8_strlen (l : list Z) : Z := match utf8_count l 0 with Some q => q | None => 0 end.
