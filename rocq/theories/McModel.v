(** The Modbus client used by the control scripts.
    Source: /repo/PAC/common/modbus_client.{h,cpp}; the exchange buffer has 256
    bytes (modbus_client.cpp:11) and [mem] gives its bytes (0..255). *)
From Coq Require Import ZArith List Bool Lia.
From Verif Require Import Base ModbusModel.
Import ListNotations.
Open Scope Z_scope.

(** modbus_client.cpp:11, modbus_client.h:14-15. *)
Definition buff_size : Z := 256.
Definition write_buff_start : Z := 13.
Definition read_buff_start : Z := 9.

(** * Access to the data area *)

(** modbus_client.cpp:217-224 [set_byte]; [address] is an [int]. *)
Definition set_byte (address v : Z) (m : mem) : mem :=
  if (buff_size - write_buff_start - 1 <? address) || (address + write_buff_start <? 0) then m
  else put m (13 + address) (u8 v).

(** modbus_client.cpp:226-233 [get_byte]. *)
Definition get_byte (address : Z) (m : mem) : Z :=
  if (buff_size - read_buff_start - 1 <? address) || (address + read_buff_start <? 0) then 0
  else m (9 + address).

(** modbus_client.cpp:235-243 [set_int2]: [address] is an [unsigned int], the
    product wraps modulo 2^32 both in the test and in the index. *)
Definition set_int2 (address v : Z) (m : mem) : mem :=
  let a2 := u32 (address * 2) in
  if buff_size - write_buff_start - 2 <? a2 then m
  else pack_int16 v m (write_buff_start + a2).

(** modbus_client.cpp:245-255 [get_int2]. *)
Definition get_int2 (address : Z) (m : mem) : Z :=
  let a2 := u32 (address * 2) in
  if buff_size - read_buff_start - 2 <? a2 then 0
  else unpack_int16 m (read_buff_start + a2).

(** modbus_client.cpp:257-267 [set_int4], 283-293 [set_float] (for a float [v]
    is its bit pattern); same order of bytes as the server's [PackLong]. *)
Definition set_int4 (address v : Z) (m : mem) : mem :=
  let a2 := u32 (address * 2) in
  if buff_size - write_buff_start - 4 <? a2 then m
  else pack_long (v mod 2 ^ 32) m (write_buff_start + a2).

(** modbus_client.cpp:269-281 [get_int4]; 295-307 [get_float] reads the same
    bytes: [get_float] is the pattern. *)
Definition get_float (address : Z) (m : mem) : Z :=
  let a2 := u32 (address * 2) in
  if buff_size - read_buff_start - 4 <? a2 then 0
  else unpack_long m (read_buff_start + a2).
Definition get_int4 (address : Z) (m : mem) : Z := s32 (get_float address m).

(** The store of one bit shared by modbus_client.cpp:313 and 333:
    [buf ^= (-(value ? 1 : 0) ^ buf) & (1 << numbit)], truncated to 8 bits. *)
Definition bit_store (b : Z) (numbit : Z) (v : bool) : Z :=
  u8 (Z.lxor b (Z.land (Z.lxor (- (if v then 1 else 0)) b) (Z.shiftl 1 numbit))).

(** modbus_client.cpp:309-314 [set_bit]; no range check. *)
Definition set_bit (address : Z) (v : bool) (m : mem) : mem :=
  let a := write_buff_start + address / 8 in put m a (bit_store (m a) (address mod 8) v).

(** modbus_client.cpp:336-346 [get_bit]. *)
Definition get_bit (address : Z) (m : mem) : bool :=
  negb (Z.land (m (read_buff_start + address / 8)) (Z.shiftl 1 (address mod 8)) =? 0).

(** modbus_client.cpp:329-334 [reg_set_bit]. *)
Definition reg_set_bit (reg offset : Z) (v : bool) (m : mem) : mem :=
  let a := write_buff_start + (reg * 2 + (if offset <? 8 then 1 else 0)) in
  put m a (bit_store (m a) (offset mod 8) v).

(** modbus_client.cpp:316-327 [reg_get_bit]. *)
Definition reg_get_bit (reg offset : Z) (m : mem) : bool :=
  negb (Z.land (m (read_buff_start + (reg * 2 + (if offset <? 8 then 1 else 0))))
          (Z.shiftl 1 (offset mod 8)) =? 0).

(** modbus_client.cpp:212-215 [zero_output_buff] with its default argument. *)
Definition zero_output_buff (m : mem) : mem :=
  mwrite m write_buff_start (fun _ => 0) (buff_size - write_buff_start).

(** * Masks and bit shuffling *)

Record masks := { andmask : Z; ormask : Z }.
(** modbus_client.cpp:348-352 [mask_reset]. *)
Definition mask_reset : masks := {| andmask := 0xFFFF; ormask := 0 |}.
(** modbus_client.cpp:354-366 [mask_set_bit]. *)
Definition mask_set_bit (k : masks) (pos : Z) (v : bool) : masks :=
  if (pos <? 0) || (15 <? pos) then k
  else {| andmask := Z.land (andmask k) (Z.lnot (Z.shiftl 1 pos));
          ormask := if v then Z.lor (ormask k) (Z.shiftl 1 pos)
                    else Z.land (ormask k) (Z.lnot (Z.shiftl 1 pos)) |}.

(** modbus_client.cpp:368-380 [reverse]. *)
Definition reverse (b0 : Z) : Z :=
  let b1 := Z.lor (Z.shiftr (Z.land b0 0xF0) 4) (Z.shiftl (Z.land b0 0x0F) 4) in
  let b2 := Z.lor (Z.shiftr (Z.land b1 0xCC) 2) (Z.shiftl (Z.land b1 0x33) 2) in
  Z.lor (Z.shiftr (Z.land b2 0xAA) 1) (Z.shiftl (Z.land b2 0x55) 1).

(** modbus_client.cpp:382-396 [swapBits]; [x] as its 32-bit pattern, [n < 32]. *)
Definition swapBits (x p1 p2 n : Z) : Z :=
  let set1 := Z.land (Z.shiftr x p1) (Z.shiftl 1 n - 1) in
  let set2 := Z.land (Z.shiftr x p2) (Z.shiftl 1 n - 1) in
  let xo := Z.lxor set1 set2 in
  let xo := Z.lor (u32 (Z.shiftl xo p1)) (u32 (Z.shiftl xo p2)) in
  Z.lxor x xo.

(** * Requests *)

Inductive req :=
| RDiscrete (a q : Z) | RCoils (a q : Z) | RHolding (a q : Z) | RInput (a q : Z)
| WCoil (a v : Z) | WCoils (a q : Z) | WRegs (a q : Z)
| RWRegs (ra rq wa wq : Z) | WMask (a am om : Z).

(** [((int_2)x) >> 8] stored in a char, [((int_2)x) & 0xFF]. *)
Definition hi (x : Z) : Z := u8 (Z.shiftr (s16 x) 8).
Definition lo (x : Z) : Z := Z.land (s16 x) 0xFF.

(** The header bytes written by modbus_client.cpp:25-36, 50-61, 75-86, 100-111,
    126-137 (and their asynchronous twins 421-432, 465-476, 498-509, 532-543,
    568-579), 153-166/602-615, 180-192/637-649, 685-701, 736-749. *)
Definition header (st : Z) (r : req) : list Z :=
  match r with
  | RDiscrete a q => [0;0;0;0;0;6; st; 2; hi a; lo a; hi q; lo q]
  | RCoils a q => [0;0;0;0;0;6; st; 1; hi a; lo a; hi q; lo q]
  | RHolding a q => [0;0;0;0;0;6; st; 3; hi a; lo a; hi q; lo q]
  | RInput a q => [0;0;0;0;0;6; st; 4; hi a; lo a; hi q; lo q]
  | WCoil a v => [0;0;0;0;0;6; st; 5; hi a; lo a; (if v =? 0 then 0 else 255); 0]
  | WCoils a q =>
      let bc := u8 (u8 q / 8 + (if u8 q mod 8 =? 0 then 0 else 1)) in
      [0;0;0;0;0; u8 (7 + bc); st; 15; hi a; lo a; hi q; lo q; bc]
  | WRegs a q =>
      let bc := u8 (q * 2) in
      [0;0;0;0; hi (7 + bc); lo (7 + bc); st; 16; hi a; lo a; hi q; lo q; bc]
  | RWRegs ra rq wa wq =>
      let bc := u8 (wq * 2) in
      [0;0;0;0; hi (11 + bc); lo (11 + bc); st; 23; hi ra; lo ra; hi rq; lo rq;
       hi wa; lo wa; hi wq; lo wq; bc]
  | WMask a am om => [0;0;0;0;0;8; st; 22; hi a; lo a; hi am; lo am; hi om; lo om]
  end.

(** The number of bytes handed to the transport (same lines). *)
Definition send_length (r : req) : Z :=
  match r with
  | RDiscrete _ _ | RCoils _ _ | RHolding _ _ | RInput _ _ | WCoil _ _ => 12
  | WCoils a q => 13 + u8 (u8 q / 8 + (if u8 q mod 8 =? 0 then 0 else 1))
  | WRegs a q => 13 + u8 (q * 2)
  | RWRegs _ _ _ wq => 17 + u8 (wq * 2)
  | WMask _ _ _ => 14
  end.

(** The bytes sent: [send_length] bytes of the buffer after the header was
    written over its start. *)
Definition sent_bytes (st : Z) (r : req) (m : mem) : list Z :=
  let m' := store (header st r) m 0 in
  map (fun k => m' (Z.of_nat k)) (seq 0 (Z.to_nat (send_length r))).

(** The reply length taken for success (433 etc.): an [int] from an unsigned
    expression. *)
Definition expected_length (r : req) : Z :=
  match r with
  | RDiscrete _ q | RCoils _ q => s32 (u32 (9 + q / 8 + (if q mod 8 =? 0 then 0 else 1)))
  | RHolding _ q | RInput _ q => s32 (u32 (9 + u32 (q * 2)))
  | WCoil _ _ | WCoils _ _ | WRegs _ _ => 12
  | RWRegs _ rq _ _ => s32 (u32 (9 + u32 (rq * 2)))
  | WMask _ _ _ => 14
  end.

(** * Asynchronous exchange *)

(** tcp_client.h:13-19. *)
Definition AR_SOCKETERROR : Z := -3.
Definition AR_TIMEOUT : Z := -2.
Definition AR_BUSY : Z := -1.
Definition AR_FREE : Z := 0.

(** [ar]: tcp_client::async_result; [mexp]: modbus_expected_length; [last]
    (ghost): the last request given to the transport. *)
Record mc := { ar : Z; mexp : Z; last : option req }.
(** modbus_client.cpp:12-14, tcp_client.cpp:32. *)
Definition mc_init : mc := {| ar := 0; mexp := 0; last := None |}.

Inductive mc_ev :=
| Call (r : req) (ok : bool)  (* the script calls the function for [r]; [ok]: the
                                 transport accepts a request, if one is sent *)
| Reply (len : Z)             (* [len] > 0 bytes arrive *)
| Timeout | SockError.

(** All asynchronous functions, modbus_client.cpp:403-752: result and new
    state.  The transport (l_tcp_client.cpp:271-295): busy, or an error. *)
Definition mc_call (s : mc) (r : req) (ok : bool) : Z * mc :=
  if ar s =? AR_BUSY then (0, s)
  else
    let good := (0 <? ar s) && (ar s =? mexp s) in
    let bad9 := match r with RWRegs _ _ _ _ => (0 <? ar s) && (ar s =? 9) | _ => false end in
    if good then (1, {| ar := AR_FREE; mexp := mexp s; last := last s |})
    else if bad9 then (-1, {| ar := AR_FREE; mexp := mexp s; last := last s |})
    else (0, {| ar := if ok then AR_BUSY else AR_SOCKETERROR;
                mexp := expected_length r; last := Some r |}).

(** l_tcp_cmctr.cpp:441-480: only a busy client is in the list of clients. *)
Definition mc_step (s : mc) (e : mc_ev) : mc :=
  match e with
  | Call r ok => snd (mc_call s r ok)
  | Reply len => if ar s =? AR_BUSY then {| ar := len; mexp := mexp s; last := last s |} else s
  | Timeout => if ar s =? AR_BUSY then {| ar := AR_TIMEOUT; mexp := mexp s; last := last s |} else s
  | SockError => if ar s =? AR_BUSY then {| ar := AR_SOCKETERROR; mexp := mexp s; last := last s |} else s
  end.
Definition mc_run (es : list mc_ev) : mc := fold_left mc_step es mc_init.
