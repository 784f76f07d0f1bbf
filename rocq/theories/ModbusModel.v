(** Byte codecs of the Modbus server.
    Source: /repo/PAC/common/modbus_serv.{h,cpp}. *)
From Coq Require Import ZArith List Bool Lia.
From Verif Require Import Base.
Import ListNotations.
Open Scope Z_scope.

(** A single byte store. *)
Definition put (m : mem) (a v : Z) : mem := fun x => if x =? a then v else m x.

(** Byte [k] of the little-endian object representation of [v] (all targets of
    the project are little-endian). *)
Definition byte (v k : Z) : Z := (v / 2 ^ (8 * k)) mod 256.

(** * Scalars *)

(** modbus_serv.cpp:1126-1131 [PackWord]: the two low bytes of [wvalue]. *)
Definition pack_word (v : Z) (m : mem) (a : Z) : mem :=
  put (put m a (byte v 1)) (a + 1) (byte v 0).

(** modbus_serv.cpp:1152-1158 [UnpackWord]. *)
Definition unpack_word (m : mem) (a : Z) : Z := m (a + 1) + 256 * m a.

(** modbus_serv.cpp:1170-1175 [PackInt16]: the object representation of a
    signed 16-bit value is the one of its value modulo 2^16. *)
Definition pack_int16 (v : Z) (m : mem) (a : Z) : mem :=
  put (put m a (byte (u16 v) 1)) (a + 1) (byte (u16 v) 0).

(** modbus_serv.cpp:1177-1183 [UnpackInt16]. *)
Definition unpack_int16 (m : mem) (a : Z) : Z := s16 (m (a + 1) + 256 * m a).

(** modbus_serv.cpp:1133-1140 [PackLong] and 1117-1124 [PackFloat] (same byte
    order; for a float [v] is its 32-bit pattern).  Only the four low bytes of
    the [unsigned long] are stored. *)
Definition pack_long (v : Z) (m : mem) (a : Z) : mem :=
  put (put (put (put m a (byte v 1)) (a + 1) (byte v 0)) (a + 2) (byte v 3)) (a + 3) (byte v 2).

(** modbus_serv.cpp:1160-1168 [UnpackLong], 1142-1150 [UnpackFloat]. *)
Definition unpack_long (m : mem) (a : Z) : Z :=
  m (a + 1) + 2 ^ 8 * m a + 2 ^ 16 * m (a + 3) + 2 ^ 24 * m (a + 2).

(** modbus_serv.h:135-138 [UnpackInt32]. *)
Definition unpack_int32 (m : mem) (a : Z) : Z := s32 (unpack_long m a).

(** * Bits *)

(** modbus_serv.cpp:1056-1070 [ForceBit]; [bit >= 0]. *)
Definition force_bit (bit : Z) (m : mem) (a : Z) (toset : bool) : mem :=
  let bitpos := bit mod 8 in
  let bytepos := bit / 8 in
  put m (a + bytepos)
    (if toset then Z.lor (m (a + bytepos)) (Z.shiftl 1 bitpos)
     else Z.land (m (a + bytepos)) (Z.lxor 255 (Z.shiftl 1 bitpos))).

(** modbus_serv.cpp:151-159, 283-302: read-coils reply whose values come from a
    list (the Lua table): the length byte and the packed bits at [a = 3].
    Returns the announced byte count (8 bit!) and the buffer. *)
Fixpoint force_bits (i : Z) (bits : list bool) (m : mem) (a : Z) : mem :=
  match bits with
  | [] => m
  | b :: r => force_bits (i + 1) r (force_bit i m a b) a
  end.
Definition number_of_bytes (n : Z) : Z :=
  let b := u8 (n / 8) in if n mod 8 =? 0 then b else u8 (b + 1).
Definition read_coils (n : Z) (bits : list bool) (out : mem) : Z * mem :=
  (3 + number_of_bytes n, force_bits 0 bits (put out 2 (number_of_bytes n)) 3).

(** * Strings *)

(** modbus_serv.cpp:1072-1093 [PackString]: [s] is the text before the
    terminating zero.  Returns the number of bytes. *)
Fixpoint pack_chars (i : Z) (s : list Z) (m : mem) (a : Z) : mem * Z :=
  match s with
  | [] => (m, i)
  | c :: r =>
      pack_chars (i + 1) r
        (if i mod 2 =? 0 then put m (a + i + 1) c else put m (a + i - 1) c) a
  end.
Definition pack_string (s : list Z) (m : mem) (a : Z) : mem * Z :=
  let '(m1, i) := pack_chars 0 s m a in
  if i mod 2 =? 0 then (m1, i) else (put m1 (a + i - 1) 32, i + 1).

(** ASCII digit as printed by "%.1hd" for 0..9. *)
Definition digit (d : Z) : Z := 48 + d.

(** A byte string stored at [a]. *)
Fixpoint store (l : list Z) (m : mem) (a : Z) : mem :=
  match l with [] => m | x :: r => store r (put m a x) (a + 1) end.

(** modbus_serv.cpp:1095-1115 [PackTime].  [units] = true: seconds.  The
    arguments of sprintf are all in 0..9, so "%.1hd" prints one digit; sprintf
    appends a zero byte.  Note the digit order of hours and seconds. *)
Definition pack_time (timevar : Z) (units : bool) (m : mem) (a : Z) : mem :=
  let t := if units then timevar else timevar / 1000 in
  let seconds := t mod 60 in
  let minutes := (t / 60) mod 60 in
  let hours := (t / 3600) mod 100 in
  store [digit (hours mod 10); digit (hours / 10);
         digit (minutes / 10); 58; 58; digit (minutes mod 10);
         digit (seconds mod 10); digit (seconds / 10); 0] m a.

(** * Code pages *)

(** modbus_serv.cpp:14-144 [UTable]. *)
Definition UTable : list (Z * Z) :=
  [(4,2); (4,3); (32,26); (4,83); (32,30); (32,38); (32,32); (32,33);
   (32,172); (32,48); (4,9); (32,57); (4,10); (4,12); (4,11); (4,15);
   (4,82); (32,24); (32,25); (32,28); (32,29); (32,34); (32,19); (32,20);
   (0,0); (33,34); (4,89); (32,58); (4,90); (4,92); (4,91); (4,95);
   (0,160); (4,14); (4,94); (4,8); (0,164); (4,144); (0,166); (0,167);
   (4,1); (0,169); (4,4); (0,171); (0,172); (0,173); (0,174); (4,7);
   (0,176); (0,177); (4,6); (4,86); (4,145); (0,181); (0,182); (0,183);
   (4,81); (33,22); (4,84); (0,187); (4,88); (4,5); (4,85); (4,87);
   (4,16); (4,17); (4,18); (4,19); (4,20); (4,21); (4,22); (4,23);
   (4,24); (4,25); (4,26); (4,27); (4,28); (4,29); (4,30); (4,31);
   (4,32); (4,33); (4,34); (4,35); (4,36); (4,37); (4,38); (4,39);
   (4,40); (4,41); (4,42); (4,43); (4,44); (4,45); (4,46); (4,47);
   (4,48); (4,49); (4,50); (4,51); (4,52); (4,53); (4,54); (4,55);
   (4,56); (4,57); (4,58); (4,59); (4,60); (4,61); (4,62); (4,63);
   (4,64); (4,65); (4,66); (4,67); (4,68); (4,69); (4,70); (4,71);
   (4,72); (4,73); (4,74); (4,75); (4,76); (4,77); (4,78); (4,79)].

Definition utab (j : Z) : Z * Z := nth (Z.to_nat j) UTable (0, 0).

(** modbus_serv.cpp:1185-1222 [CP1251toUnicode]; [s]: the text before the
    terminating zero. *)
Definition uni_char (c : Z) : Z * Z := if c <? 128 then (0, c) else utab (c - 128).
Fixpoint cp1251_to_unicode (s : list Z) (m : mem) (a : Z) : mem :=
  match s with
  | [] => put (put m a 0) (a + 1) 0
  | c :: r =>
      cp1251_to_unicode r (put (put m a (fst (uni_char c))) (a + 1) (snd (uni_char c))) (a + 2)
  end.

(** The search loop of modbus_serv.cpp:1286-1295: first matching table row. *)
Fixpoint table_find (up lo : Z) (j : Z) (t : list (Z * Z)) : option Z :=
  match t with
  | [] => None
  | (u, l) :: r => if (u =? up) && (l =? lo) then Some j else table_find up lo (j + 1) r
  end.

(** modbus_serv.cpp:1261-1301 [UnicodetoCP1251]: [fuel] counts the remaining
    iterations [inputlen - i]; the break leaves the loop.  A code without a
    table row leaves the output byte as it was. *)
Fixpoint unicode_to_cp1251_loop (fuel : nat) (i : Z) (buf : mem) (a : Z) (out : mem) (o : Z) : mem :=
  match fuel with
  | O => out
  | S fuel' =>
      let up := buf (a + 2 * i) in
      let lo := buf (a + 2 * i + 1) in
      if (match fuel' with O => true | _ => false end) || ((up =? 0) && (lo =? 0)) then
        put out (o + i) 0
      else
        unicode_to_cp1251_loop fuel' (i + 1) buf a
          (if (up =? 0) && (lo <? 128) then put out (o + i) lo
           else match table_find up lo 0 UTable with
                | Some j => put out (o + i) (128 + j)
                | None => out
                end) o
  end.
Definition unicode_to_cp1251 (buf : mem) (a : Z) (inputlen : Z) (out : mem) (o : Z) : mem :=
  unicode_to_cp1251_loop (Z.to_nat inputlen) 0 buf a out o.

(** * List-update flags of panels *)

(** modbus_serv.cpp:7-10: flags and confirmation counters of lines 0..10 (the
    program list has its own pair with identical code). *)
Record upd := { u_flag : Z -> bool; u_ctr : Z -> Z }.
Definition upd_init : upd := {| u_flag := fun _ => true; u_ctr := fun _ => 0 |}.

Definition fput {A} (f : Z -> A) (k : Z) (v : A) : Z -> A :=
  fun x => if x =? k then v else f x.

(** modbus_serv.h:9. *)
Definition MAX_UPDATE_CONFIRMS : Z := 10.

Inductive upd_op :=
| UWrite (line k : Z)   (* the panel of [line] writes [k] to the update register *)
| UAll                  (* UpdateRecipes / UpdatePrograms *)
| ULine (line : Z).     (* UpdateLineRecipes / UpdateLinePrograms *)

(** modbus_serv.cpp:907-923 (RC_LIST_UPDATE) and 931-947 (RC_PRG_UPDATE);
    1224-1258 for the other two.  [line] of a write is 1..MdlsCNT. *)
Definition upd_step (u : upd) (o : upd_op) : upd :=
  match o with
  | UWrite line k =>
      if negb (k =? 0) then
        {| u_flag := fput (u_flag u) line true; u_ctr := fput (u_ctr u) line 0 |}
      else
        let c := u_ctr u line + 1 in
        if MAX_UPDATE_CONFIRMS <=? c
        then {| u_flag := fput (u_flag u) line false; u_ctr := fput (u_ctr u) line 0 |}
        else {| u_flag := u_flag u; u_ctr := fput (u_ctr u) line c |}
  | UAll =>
      {| u_flag := fun i => if (0 <=? i) && (i <? 11) then true else u_flag u i;
         u_ctr := fun i => if (0 <=? i) && (i <? 11) then 0 else u_ctr u i |}
  | ULine line =>
      if (0 <? line) && (line <? 11)
      then {| u_flag := fput (u_flag u) line true; u_ctr := fput (u_ctr u) line 0 |}
      else u
  end.
Definition upd_run (ops : list upd_op) : upd := fold_left upd_step ops upd_init.
