(** Exchange with the Ethernet I/O couplers.
    Source: /repo/PAC/common/uni_bus_coupler_io.{h,cpp}, [io_node] from
    /repo/PAC/common/bus_coupler_io.h:316-385. *)
From Coq Require Import ZArith List Bool Lia.
From Verif Require Import Base TimeModel ModbusModel.
Import ListNotations.
Open Scope Z_scope.

(** uni_bus_coupler_io.h:45-48. *)
Definition max_regs : Z := 123.
Definition io_buff_size : Z := 262.
Definition input_start : Z := 8000.
Definition holding_start : Z := 9000.

(** bus_coupler_io.h:350-373: the process data of a node.  Arrays are maps from
    indices; [dO]/[aO] are the confirmed outputs, [dO_]/[aO_] the commanded
    ones.  [aO_], [aO], [aI] hold [int_2] values, the others bytes. *)
Record node := {
  dO : Z -> Z; dO_ : Z -> Z; dO_cnt : Z;
  aO : Z -> Z; aO_ : Z -> Z; aO_cnt : Z; aO_size : Z; aO_types : Z -> Z;
  dI : Z -> Z; dI_cnt : Z;
  aI : Z -> Z; aI_cnt : Z; aI_size : Z; aI_types : Z -> Z }.

Definition with_dO (nd : node) (f : Z -> Z) : node :=
  {| dO := f; dO_ := dO_ nd; dO_cnt := dO_cnt nd; aO := aO nd; aO_ := aO_ nd;
     aO_cnt := aO_cnt nd; aO_size := aO_size nd; aO_types := aO_types nd;
     dI := dI nd; dI_cnt := dI_cnt nd; aI := aI nd; aI_cnt := aI_cnt nd;
     aI_size := aI_size nd; aI_types := aI_types nd |}.
Definition with_aO (nd : node) (f : Z -> Z) : node :=
  {| dO := dO nd; dO_ := dO_ nd; dO_cnt := dO_cnt nd; aO := f; aO_ := aO_ nd;
     aO_cnt := aO_cnt nd; aO_size := aO_size nd; aO_types := aO_types nd;
     dI := dI nd; dI_cnt := dI_cnt nd; aI := aI nd; aI_cnt := aI_cnt nd;
     aI_size := aI_size nd; aI_types := aI_types nd |}.
Definition with_dI (nd : node) (f : Z -> Z) : node :=
  {| dO := dO nd; dO_ := dO_ nd; dO_cnt := dO_cnt nd; aO := aO nd; aO_ := aO_ nd;
     aO_cnt := aO_cnt nd; aO_size := aO_size nd; aO_types := aO_types nd;
     dI := f; dI_cnt := dI_cnt nd; aI := aI nd; aI_cnt := aI_cnt nd;
     aI_size := aI_size nd; aI_types := aI_types nd |}.
Definition with_aI (nd : node) (f : Z -> Z) : node :=
  {| dO := dO nd; dO_ := dO_ nd; dO_cnt := dO_cnt nd; aO := aO nd; aO_ := aO_ nd;
     aO_cnt := aO_cnt nd; aO_size := aO_size nd; aO_types := aO_types nd;
     dI := dI nd; dI_cnt := dI_cnt nd; aI := f; aI_cnt := aI_cnt nd;
     aI_size := aI_size nd; aI_types := aI_types nd |}.

(** [memcpy] of the elements [from .. from+n) of [src] to the same places. *)
Definition copy_range (dst src : Z -> Z) (from n : Z) : Z -> Z :=
  fun i => if (from <=? i) && (i <? from + n) then src i else dst i.

(** The exchange of e_communicate as seen by its callers: [None] when it
    returns a non-zero code (the buffer then keeps its contents), [Some r] when
    the single [recv] (l_tcp_cmctr.cpp:723) delivered the bytes [r]; at most
    [asked] bytes are taken, possibly fewer. *)
Definition receive (asked : Z) (reply : option (list Z)) (m : mem) : option mem :=
  match reply with
  | None => None
  | Some r => Some (store (firstn (Z.to_nat asked) r) m 0)
  end.

(** A request handed to the transport: buffer and number of bytes. *)
Definition request : Type := mem * Z.

(** * WAGO couplers: discrete outputs, uni_bus_coupler_io.cpp:255-303 *)

(** Line 257 (and 688 for inputs). *)
Definition bytes_for (cnt : Z) : Z := cnt / 8 + (if 0 <? cnt mod 8 then 1 else 0).

(** Lines 276-283, the loop over [k]: returns the byte and the next [idx]. *)
Fixpoint pack8 (src : Z -> Z) (cnt : Z) (n : nat) (k idx b : Z) : Z * Z :=
  match n with
  | O => (b, idx)
  | S n' =>
      if idx <? cnt
      then pack8 src cnt n' (k + 1) (idx + 1)
             (Z.lor b (u8 (Z.shiftl (Z.land (src idx) 1) k)))
      else pack8 src cnt n' (k + 1) idx b
  end.

(** Lines 273-285, the loop over [j]. *)
Fixpoint pack_block (src : Z -> Z) (cnt : Z) (n : nat) (j idx : Z) (m : mem) : mem :=
  match n with
  | O => m
  | S n' =>
      let '(b, idx') := pack8 src cnt 8 0 idx 0 in
      pack_block src cnt n' (j + 1) idx' (put m (j + 13) b)
  end.

(** Lines 259-271; [(unsigned char)DO_cnt >> 7 >> 1] is computed as [int]. *)
Definition wago_do_header (cnt : Z) : list Z :=
  [115; 115; 0; 0; 0; u8 (7 + bytes_for cnt); 0; 0x0F; 0; 0;
   Z.shiftr (Z.shiftr (u8 cnt) 7) 1; Z.land (u8 cnt) 0xFF; u8 (bytes_for cnt)].

Definition wago_do_request (nd : node) (m : mem) : request :=
  let n := bytes_for (dO_cnt nd) in
  (pack_block (dO_ nd) (dO_cnt nd) (Z.to_nat n) 0 0 (store (wago_do_header (dO_cnt nd)) m 0),
   n + 13).

(** Lines 255-303: the node after the exchange and the buffer. *)
Definition wago_write_do (nd : node) (m : mem) (reply : option (list Z)) : node * mem :=
  let '(m1, _) := wago_do_request nd m in
  match receive 12 reply m1 with
  | None => (nd, m1)
  | Some m2 =>
      if m2 7 =? 0x0F
      then (with_dO nd (copy_range (dO nd) (dO_ nd) 0 (dO_cnt nd)), m2)
      else (nd, m2)
  end.

(** * WAGO couplers: analog outputs, lines 305-360 *)

(** Lines 325-342; [n] counts the remaining channels. *)
Fixpoint wago_ao_block (nd : node) (n : nat) (idx l : Z) (m : mem) : mem :=
  match n with
  | O => m
  | S n' =>
      if aO_types nd idx =? 638
      then wago_ao_block nd n' (idx + 1) (l + 4)
             (put (put (put (put m (13 + l) 0) (13 + l + 1) 0) (13 + l + 2) 0) (13 + l + 3) 0)
      else wago_ao_block nd n' (idx + 1) (l + 2)
             (put (put m (13 + l) (Z.land (Z.shiftr (aO_ nd idx) 8) 0xFF))
                (13 + l + 1) (Z.land (aO_ nd idx) 0xFF))
  end.

(** Lines 307-323. *)
Definition wago_ao_header (size : Z) : list Z :=
  [115; 115; 0; 0; 0; u8 (7 + size); 0; 0x10; 0; 0;
   u8 (Z.shiftr (size / 2) 8); Z.land (size / 2) 0xFF; u8 size].

Definition wago_ao_request (nd : node) (m : mem) : request :=
  (wago_ao_block nd (Z.to_nat (aO_cnt nd)) 0 0 (store (wago_ao_header (aO_size nd)) m 0),
   aO_size nd + 13).

(** Lines 305-360; line 348 copies the whole array (2016 elements). *)
Definition wago_write_ao (nd : node) (m : mem) (reply : option (list Z)) : node * mem :=
  let '(m1, _) := wago_ao_request nd m in
  match receive 12 reply m1 with
  | None => (nd, m1)
  | Some m2 =>
      if m2 7 =? 0x10
      then (with_aO nd (copy_range (aO nd) (aO_ nd) 0 2016), m2)
      else (nd, m2)
  end.

(** * WAGO couplers: discrete inputs, lines 670-722 *)

(** Lines 672-683. *)
Definition wago_di_header (cnt : Z) : list Z :=
  [115; 115; 0; 0; 0; 6; 0; 0x02; 0; 0;
   Z.shiftr (Z.shiftr (u8 cnt) 7) 1; Z.land (u8 cnt) 0xFF].

Definition wago_di_request (nd : node) (m : mem) : request :=
  (store (wago_di_header (dI_cnt nd)) m 0, 12).

(** Lines 694-701: the loop over [k]; returns the inputs and the next [idx]. *)
Fixpoint unpack8 (cnt b : Z) (n : nat) (k idx : Z) (d : Z -> Z) : (Z -> Z) * Z :=
  match n with
  | O => (d, idx)
  | S n' =>
      if idx <? cnt
      then unpack8 cnt b n' (k + 1) (idx + 1) (put d idx (Z.land (Z.shiftr b k) 1))
      else unpack8 cnt b n' (k + 1) idx d
  end.

(** Lines 692-706: the loop over [j]. *)
Fixpoint unpack_block (cnt : Z) (m : mem) (n : nat) (j idx : Z) (d : Z -> Z) : Z -> Z :=
  match n with
  | O => d
  | S n' =>
      let '(d', idx') := unpack8 cnt (m (j + 9)) 8 0 idx d in
      unpack_block cnt m n' (j + 1) idx' d'
  end.

(** Lines 685-722. *)
Definition wago_read_di (nd : node) (m : mem) (reply : option (list Z)) : node * mem :=
  let '(m1, _) := wago_di_request nd m in
  let n := bytes_for (dI_cnt nd) in
  match receive (n + 9) reply m1 with
  | None => (nd, m1)
  | Some m2 =>
      if (m2 7 =? 0x02) && (m2 8 =? n)
      then (with_dI nd (unpack_block (dI_cnt nd) m2 (Z.to_nat n) 0 0 (dI nd)), m2)
      else (nd, m2)
  end.

(** * WAGO couplers: analog inputs, lines 724-773 *)

(** Lines 726-740; [(unsigned char)bytes_cnt / 2] converts first. *)
Definition wago_ai_header (size : Z) : list Z :=
  [115; 115; 0; 0; 0; 6; 0; 0x04; 0; 0;
   Z.shiftr (u8 size / 2) 8; Z.land (u8 size / 2) 0xFF].

Definition wago_ai_request (nd : node) (m : mem) : request :=
  (store (wago_ai_header (aI_size nd)) m 0, 12).

(** Lines 746-763; the stores convert to [int_2]. *)
Fixpoint wago_ai_block (types : Z -> Z) (m : mem) (n : nat) (idx l : Z) (a : Z -> Z) : Z -> Z :=
  match n with
  | O => a
  | S n' =>
      if types l =? 638
      then wago_ai_block types m n' (idx + 4) (l + 1)
             (put a l (s16 (256 * m (9 + idx + 2) + m (9 + idx + 3))))
      else wago_ai_block types m n' (idx + 2) (l + 1)
             (put a l (s16 (256 * m (9 + idx) + m (9 + idx + 1))))
  end.

Definition wago_read_ai (nd : node) (m : mem) (reply : option (list Z)) : node * mem :=
  let '(m1, _) := wago_ai_request nd m in
  match receive (aI_size nd + 9) reply m1 with
  | None => (nd, m1)
  | Some m2 =>
      if (m2 7 =? 0x04) && (m2 8 =? aI_size nd)
      then (with_aI nd (wago_ai_block (aI_types nd) m2 (Z.to_nat (aI_cnt nd)) 0 0 (aI nd)), m2)
      else (nd, m2)
  end.

(** * Phoenix couplers: outputs, lines 366-504 *)

(** Lines 400-405: eight bits, [bit_src] runs on. *)
Fixpoint ph_pack8 (src : Z -> Z) (n : nat) (k bit_src b : Z) : Z * Z :=
  match n with
  | O => (b, bit_src)
  | S n' => ph_pack8 src n' (k + 1) (bit_src + 1)
              (Z.lor b (u8 (Z.shiftl (Z.land (src bit_src) 1) k)))
  end.

(** Lines 397-407; [writebuff] is [buff + 13] (line 913). *)
Fixpoint ph_bits (src : Z -> Z) (n : nat) (j bit_src : Z) (m : mem) : mem * Z :=
  match n with
  | O => (m, bit_src)
  | S n' =>
      let '(b, bit_src') := ph_pack8 src 8 0 bit_src 0 in
      ph_bits src n' (j + 1) bit_src' (put m (13 + j) b)
  end.

(** Lines 409-460; [(mt, mo)] are [ao_module_type] and [ao_module_offset]. *)
Definition ph_module (types : Z -> Z) (idx : Z) (mt mo : Z) : Z * Z :=
  let '(mt1, mo1) := if negb (types idx =? mt) then (types idx, 0) else (mt, u32 (mo + 1)) in
  if (mt1 =? 1027843) || (mt1 =? 1088132) then (mt1, mo1 mod 32)
  else if mt1 =? 2688093 then (mt1, mo1 mod 14)
  else (mt1, mo1).

Definition ph_word (v mt mo l : Z) (m : mem) : mem :=
  if (mt =? 1027843) || (mt =? 1088132) then
    if 2 <? mo then put (put m (13 + l) (byte v 0)) (13 + l + 1) (byte v 1) else m
  else if mt =? 2688093 then
    if mo =? 0 then put (put m (13 + l) 5) (13 + l + 1) 5
    else put (put m (13 + l) 0) (13 + l + 1) 0
  else if (mt =? 2688527) || (mt =? 2702072) || (mt =? 1088123) || (mt =? 2688666) then
    put (put m (13 + l) (Z.land (Z.shiftr v 8) 0xFF)) (13 + l + 1) (Z.land v 0xFF)
  else m.

Fixpoint ph_words (nd : node) (n : nat) (idx l mt mo : Z) (m : mem) : mem * (Z * Z) :=
  match n with
  | O => (m, (mt, mo))
  | S n' =>
      let '(mt', mo') := ph_module (aO_types nd) idx mt mo in
      ph_words nd n' (idx + 1) (l + 2) mt' mo' (ph_word (aO_ nd idx) mt' mo' l m)
  end.

(** Lines 625-638 [write_holding_registers] with [station] 0. *)
Definition write_regs_header (address q : Z) : list Z :=
  [115; 115; 0; 0; 0; u8 (7 + q * 2); 0; 0x10; u8 (Z.shiftr (u16 address) 8);
   Z.land (u16 address) 0xFF; u8 (Z.shiftr (u16 q) 8); Z.land (u16 q) 0xFF; u8 (q * 2)].

(** Lines 490-495, 382-389, 871-876. *)
Definition next_count (total start : Z) : Z :=
  let c := u32 (total - start) in if max_regs <? c then max_regs else c.

(** Lines 395-498: the do-while loop.  [replies start] is the outcome of the
    exchange for the block starting at register [start].  Lines 466-471: the
    block is confirmed when the exchange succeeded and the answer's function
    code is 0x10 (write_holding_registers returned >= 0). *)
Fixpoint ph_write_loop (fuel : nat) (start q bit_src mt mo : Z)
    (replies : Z -> option (list Z)) (nd : node) (m : mem) : list request * node * mem :=
  match fuel with
  | O => ([], nd, m)
  | S fuel' =>
      let '(m1, bit_src') := ph_bits (dO_ nd) (Z.to_nat (q * 2)) 0 bit_src m in
      let '(m2, (mt', mo')) := ph_words nd (Z.to_nat q) start 0 mt mo m1 in
      let m3 := store (write_regs_header (holding_start + start) q) m2 0 in
      let '(nd', m4) :=
        match receive 12 (replies start) m3 with
        | None => (nd, m3)
        | Some mr =>
            if mr 7 =? 0x10
            then (with_dO (with_aO nd (copy_range (aO nd) (aO_ nd) start q))
                    (copy_range (dO nd) (dO_ nd) (start * 16) (q * 16)), mr)
            else (nd, mr)
        end in
      let start' := start + q in
      if start' <? aO_cnt nd then
        let '(rs, nd'', m5) :=
          ph_write_loop fuel' start' (next_count (aO_cnt nd) start') bit_src' mt' mo'
            replies nd' m4 in
        ((m3, q * 2 + 13) :: rs, nd'', m5)
      else ([(m3, q * 2 + 13)], nd', m4)
  end.

(** Lines 376-500 for one node; [aO_cnt] iterations always suffice. *)
Definition ph_write (replies : Z -> option (list Z)) (nd : node) (m : mem)
    : list request * node * mem :=
  if 0 <? aO_cnt nd
  then ph_write_loop (Z.to_nat (aO_cnt nd)) 0 (next_count (aO_cnt nd) 0) 0 0 0 replies nd m
  else ([], nd, m).

(** * Phoenix couplers: inputs, lines 777-885 *)

(** Lines 595-606 [read_input_registers]. *)
Definition read_regs_header (address q : Z) : list Z :=
  [115; 115; 0; 0; 0; 6; 0; 0x04; u8 (Z.shiftr (u16 address) 8);
   Z.land (u16 address) 0xFF; u8 (Z.shiftr (u16 q) 8); Z.land (u16 q) 0xFF].

(** Lines 826-845; [resultbuff] is [buff + 9]; returns the array and
    [analog_dest]. *)
Fixpoint ph_ai (types : Z -> Z) (m : mem) (n : nat) (src dest : Z) (a : Z -> Z) : (Z -> Z) * Z :=
  match n with
  | O => (a, dest)
  | S n' =>
      let v := if (types dest =? 1027843) || (types dest =? 1088132)
               then s16 (m (9 + src) + 256 * m (9 + src + 1))
               else s16 (256 * m (9 + src) + m (9 + src + 1)) in
      ph_ai types m n' (src + 2) (dest + 1) (put a dest v)
  end.

(** Lines 850-858: eight bits; then the loop over bytes. *)
Fixpoint ph_unpack8 (b : Z) (n : nat) (k dest : Z) (d : Z -> Z) : (Z -> Z) * Z :=
  match n with
  | O => (d, dest)
  | S n' => ph_unpack8 b n' (k + 1) (dest + 1) (put d dest (Z.land (Z.shiftr b k) 1))
  end.

(** Lines 848-859: [limit] is [(start_register + registers_count) * 2 * 8]. *)
Fixpoint ph_di (m : mem) (limit : Z) (n : nat) (src dest : Z) (d : Z -> Z) : (Z -> Z) * Z :=
  match n with
  | O => (d, dest)
  | S n' =>
      if dest <? limit then
        let '(d', dest') := ph_unpack8 (m (9 + src)) 8 0 dest d in
        ph_di m limit n' (src + 1) dest' d'
      else (d, dest)
  end.

(** Lines 802-878: the do-while loop with its two [break]s. *)
Fixpoint ph_read_loop (fuel : nat) (start q adest bdest : Z)
    (replies : Z -> option (list Z)) (nd : node) (m : mem) : list request * node * mem :=
  match fuel with
  | O => ([], nd, m)
  | S fuel' =>
      let m1 := store (read_regs_header (input_start + start) q) m 0 in
      match receive (q * 2 + 9) (replies start) m1 with
      | None => ([(m1, 12)], nd, m1)
      | Some m2 =>
          if (m2 7 =? 0x04) && (m2 8 =? q * 2) then
            let '(a, adest') :=
              ph_ai (aI_types nd) m2 (Z.to_nat (start + q - adest)) 0 adest (aI nd) in
            let limit := (start + q) * 2 * 8 in
            let '(d, bdest') := ph_di m2 limit (Z.to_nat limit) 0 bdest (dI nd) in
            let nd' := with_dI (with_aI nd a) d in
            let start' := start + q in
            if start' <? aI_cnt nd then
              let '(rs, nd'', m3) :=
                ph_read_loop fuel' start' (next_count (aI_cnt nd) start') adest' bdest'
                  replies nd' m2 in
              ((m1, 12) :: rs, nd'', m3)
            else ([(m1, 12)], nd', m2)
          else ([(m1, 12)], nd, m2)
      end
  end.

Definition ph_read (replies : Z -> option (list Z)) (nd : node) (m : mem)
    : list request * node * mem :=
  if 0 <? aI_cnt nd
  then ph_read_loop (Z.to_nat (aI_cnt nd)) 0 (next_count (aI_cnt nd) 0) 0 0 replies nd m
  else ([], nd, m).

(** * The connection, lines 509-591 *)

(** bus_coupler_io.h:327-336. *)
Definition C_MAX_WAIT_TIME : Z := 6000.
Definition C_MAX_DELAY : Z := 60000.
Definition C_INITIAL_RECONNECT_DELAY : Z := 500.

(** Link part of [io_node]; times are readings of a [w]-bit clock. *)
Record link := {
  st_ok : bool; is_set_err : bool;
  last_poll_time : Z; last_init_time : Z; delay_time : Z }.

(** bus_coupler_io.cpp:1215-1247: a new node at clock reading [now]. *)
Definition new_link (now : Z) : link :=
  {| st_ok := false; is_set_err := false; last_poll_time := now;
     last_init_time := now; delay_time := C_INITIAL_RECONNECT_DELAY |}.

(** One call of e_communicate: the clock readings at lines 513/540 ([now]),
    548 ([now_init]) and 588 ([now_end]), whether net_init connected, and
    whether sending and receiving succeeded (on Linux). *)
Record io_call := {
  now : Z; now_init : Z; now_end : Z;
  connected : bool; sent_ok : bool; got_reply : bool }.

Inductive report := Raise | Withdraw.

(** Lines 513-534. *)
Definition check_silence (w : Z) (e : io_call) (l : link) : link * list report :=
  if C_MAX_WAIT_TIME <? get_delta_millisec w (now e) (last_poll_time l) then
    if is_set_err l then (l, [])
    else ({| st_ok := st_ok l; is_set_err := true; last_poll_time := last_poll_time l;
             last_init_time := last_init_time l; delay_time := delay_time l |}, [Raise])
  else if is_set_err l then
    ({| st_ok := st_ok l; is_set_err := false; last_poll_time := last_poll_time l;
        last_init_time := last_init_time l; delay_time := delay_time l |}, [Withdraw])
  else (l, []).

(** Lines 538-556: [None] - the link is up, go on; [Some code] - return. *)
Definition ensure_connected (w : Z) (e : io_call) (l : link) : link * option Z * bool :=
  if st_ok l then (l, None, false)
  else if get_delta_millisec w (now e) (last_init_time l) <? delay_time l then (l, Some 1, false)
  else if connected e then
    ({| st_ok := true; is_set_err := is_set_err l; last_poll_time := last_poll_time l;
        last_init_time := last_init_time l; delay_time := delay_time l |}, None, true)
  else
    ({| st_ok := false; is_set_err := is_set_err l; last_poll_time := last_poll_time l;
        last_init_time := now_init e;
        delay_time := if delay_time l <? C_MAX_DELAY then delay_time l + delay_time l
                      else delay_time l |}, Some (-100), true).

(** Lines 559-590. *)
Definition transfer (e : io_call) (l : link) : link * Z :=
  let l1 := {| st_ok := st_ok l; is_set_err := is_set_err l;
               last_poll_time := last_poll_time l; last_init_time := last_init_time l;
               delay_time := C_INITIAL_RECONNECT_DELAY |} in
  let down := {| st_ok := false; is_set_err := is_set_err l1;
               last_poll_time := last_poll_time l1; last_init_time := last_init_time l1;
               delay_time := delay_time l1 |} in
  if negb (sent_ok e) then (down, -101)
  else if negb (got_reply e) then (down, -102)
  else ({| st_ok := st_ok l1; is_set_err := is_set_err l1; last_poll_time := now_end e;
           last_init_time := last_init_time l1; delay_time := delay_time l1 |}, 0).

(** Result code, new link, error reports, whether a connection was tried. *)
Record io_result := { code : Z; link' : link; reports : list report; tried : bool }.

Definition e_communicate (w : Z) (l : link) (e : io_call) : io_result :=
  let '(l1, rs) := check_silence w e l in
  match ensure_connected w e l1 with
  | (l2, Some c, t) => {| code := c; link' := l2; reports := rs; tried := t |}
  | (l2, None, t) =>
      let '(l3, c) := transfer e l2 in
      {| code := c; link' := l3; reports := rs; tried := t |}
  end.
