(** Independent specification of the two character sets. *)
From Coq Require Import ZArith List Bool.
Import ListNotations.
Open Scope Z_scope.

(** The Windows-1251 code page: code points of 0x80..0xFF (0: undefined). *)
Definition cp1251_high : list Z :=
  [0x0402; 0x0403; 0x201A; 0x0453; 0x201E; 0x2026; 0x2020; 0x2021;
   0x20AC; 0x2030; 0x0409; 0x2039; 0x040A; 0x040C; 0x040B; 0x040F;
   0x0452; 0x2018; 0x2019; 0x201C; 0x201D; 0x2022; 0x2013; 0x2014;
   0x0000; 0x2122; 0x0459; 0x203A; 0x045A; 0x045C; 0x045B; 0x045F;
   0x00A0; 0x040E; 0x045E; 0x0408; 0x00A4; 0x0490; 0x00A6; 0x00A7;
   0x0401; 0x00A9; 0x0404; 0x00AB; 0x00AC; 0x00AD; 0x00AE; 0x0407;
   0x00B0; 0x00B1; 0x0406; 0x0456; 0x0491; 0x00B5; 0x00B6; 0x00B7;
   0x0451; 0x2116; 0x0454; 0x00BB; 0x0458; 0x0405; 0x0455; 0x0457;
   0x0410; 0x0411; 0x0412; 0x0413; 0x0414; 0x0415; 0x0416; 0x0417;
   0x0418; 0x0419; 0x041A; 0x041B; 0x041C; 0x041D; 0x041E; 0x041F;
   0x0420; 0x0421; 0x0422; 0x0423; 0x0424; 0x0425; 0x0426; 0x0427;
   0x0428; 0x0429; 0x042A; 0x042B; 0x042C; 0x042D; 0x042E; 0x042F;
   0x0430; 0x0431; 0x0432; 0x0433; 0x0434; 0x0435; 0x0436; 0x0437;
   0x0438; 0x0439; 0x043A; 0x043B; 0x043C; 0x043D; 0x043E; 0x043F;
   0x0440; 0x0441; 0x0442; 0x0443; 0x0444; 0x0445; 0x0446; 0x0447;
   0x0448; 0x0449; 0x044A; 0x044B; 0x044C; 0x044D; 0x044E; 0x044F].

(** Code point of a Windows-1251 character. *)
Definition cp1251 (c : Z) : Z := if c <? 128 then c else nth (Z.to_nat (c - 128)) cp1251_high 0.

(** UTF-8 encoding of a code point (RFC 3629). *)
Definition utf8_enc (u : Z) : list Z :=
  if u <? 0x80 then [u]
  else if u <? 0x800 then [0xC0 + u / 64; 0x80 + u mod 64]
  else if u <? 0x10000 then [0xE0 + u / 4096; 0x80 + (u / 64) mod 64; 0x80 + u mod 64]
  else [0xF0 + u / 262144; 0x80 + (u / 4096) mod 64; 0x80 + (u / 64) mod 64; 0x80 + u mod 64].

Definition utf8 (us : list Z) : list Z := flat_map utf8_enc us.

Definition scalar (u : Z) : Prop := 0 < u < 0x110000.

(** A byte of a C string. *)
Definition chr (c : Z) : Prop := 0 < c < 256.
Definition defined (c : Z) : bool := negb (c =? 152).

(** Characters that survive the way back: one- and two-byte code points and the
    numero sign. *)
Definition short_char (c : Z) : bool := (cp1251 c <? 0x800) || (cp1251 c =? 0x2116).
