(** Sensors with IO-Link (pressure, level, level switches, temperature, concentration, flow) and
    the scales of Axioline: decoding of the bytes received.

    Source: /repo/PAC/common/device/device.cpp 1462-1479, 1496-1499, 1537-1541, 1732-1748, 1975-2058,
    2586-2620, 2660-2672, 2804-2831, 2839-2846, 2956-3077, 3367-3407, device.h 120-123, 242-255, 453-463, 618-638,
    1001-1012, 1329-1338, bus_coupler_io.cpp 588-606, uni_bus_coupler_io.cpp 778-845.  Below cpp and h:
    device.cpp and device.h.

    Simplifications:
    - the program runs on a controller, not in the emulator; the channel of the device exists;
    - bytes are numbers from 0 to 255; a cycle either gets all bytes of the node anew or, if the
      node was not read or its answer was wrong, keeps those in the memory of the program;
    - bit-fields are laid out from the lowest bit on, numbers with the lowest byte first, as GCC
      does for these targets; [char] is signed or not, depending on the target;
    - parameters are inputs. *)
From Coq Require Import ZArith List Bool Lia QArith.
From Verif Require Import Base FTextModel FloatModel.
Import ListNotations.
Open Scope Z_scope.

(** The bytes of the device and the status bytes of its module in the memory of the program. *)
Definition bytes := Z -> Z.
Record frame := { data : bytes; module_ : bytes }.
(** Signed numbers of [n] bits and of 8 bits, if [char] is signed. *)
Definition sgn (n x : Z) : Z := (x + 2 ^ (n - 1)) mod 2 ^ n - 2 ^ (n - 1).
(** [std::swap( data[ i ], data[ j ] )]. *)
Definition swap (b : bytes) (i j : Z) : bytes := fun n => if n =? i then b j else if n =? j then b i else b n.

(** * The state of the port *)

(** [get_AI_IOLINK_state], bus_coupler_io.cpp:588-606: 0 [OK], 1 [NOTCONNECTED], 2 [DEVICEERROR]. *)
Definition link (phoenix : bool) (port : Z) (m : bytes) : Z :=
  let states := m 0 + 256 * m 1 + 65536 * m 2 + 16777216 * m 3 in
  if phoenix && ((0 <? port) && (port <=? 8)) then
    if negb (Z.testbit states (port - 1)) then 1 else if negb (Z.testbit states (port + 7)) then 2 else 0
  else 0.

(** * Sensors of pressure *)

(** [ARTICLE], h:217-233. *)
Inductive art := PI2715 | PI2794 | PI2797 | PM1704 | PM1705 | PM1706 | PM1707 | PM1708 | PM1709 | PM1715 | FES | Unknown.
(** cpp:3001-3035. *)
Definition alfa (a : art) : Z :=
  match a with
  | PM1708 => f_lit (1 # 100000)
  | PM1706 | PM1707 | PM1709 => f_lit (1 # 10000)
  | PI2715 | PI2797 | PM1704 | PM1705 | PM1715 => f_lit (1 # 1000)
  | PI2794 => f_lit (1 # 100)
  | FES => f_lit (610388818 # 1000000000000)
  | Unknown => f_of_Z 1
  end.
Record dev := { mem_ : frame; v : Z; st : Z }.
Definition no_bytes : frame := {| data := fun _ => 0; module_ := fun _ => 0 |}.
Definition new_dev : dev := {| mem_ := no_bytes; v := 0; st := 0 |}.
(** [evaluate_io], cpp:2956-3036: new memory, [v], [st].  [PT_data] (h:242-247) is copied backwards,
    for [ex_PT_data] (h:249-255) the bytes are exchanged in the memory itself. *)
Definition pt_decode (a : art) (b : bytes) : bytes * Z * Z :=
  let '(b, raw, s) :=
    match a with
    | PI2715 | PI2794 | PI2797 | FES => (b, sgn 14 ((b 1 + 256 * b 0) / 4 mod 2 ^ 14), 0)
    | Unknown => (b, 0, 0)
    | _ => let b := swap (swap b 0 1) 2 3 in (b, sgn 16 (b 0 + 256 * b 1), (b 2 + 256 * b 3) / 16 mod 16)
    end in
  (b, f_mul (alfa a) (f_of_Z raw), s).
(** One cycle: [Some]: the node was read (uni_bus_coupler_io.cpp:778-845), then [evaluate_io], cpp:3038-3041. *)
Definition refresh (c : option frame) (f : frame) : frame := match c with Some f => f | None => f end.
Definition pt_cycle (a : art) (s : dev) (c : option frame) : dev :=
  let f := refresh c (mem_ s) in
  let '(b, x, n) := pt_decode a (data f) in {| mem_ := {| data := b; module_ := module_ f |}; v := x; st := n |}.
Definition pt_run (a : art) (l : list (option frame)) : dev := fold_left (pt_cycle a) l new_dev.
(** [get_value], cpp:3050-3062 and [get_state], cpp:3064-3077; [err]: [P_ERR]. *)
Definition pt_value (phoenix : bool) (port err : Z) (s : dev) : Z := if link phoenix port (module_ (mem_ s)) =? 0 then v s else err.
Definition pt_state (phoenix : bool) (port : Z) (s : dev) : Z :=
  let k := link phoenix port (module_ (mem_ s)) in if k =? 0 then st s else - k.
(** [level_e_iolink::get_value], cpp:2804-2816; [maxp]: [P_MAX_P]. *)
Definition lt_value (phoenix : bool) (port err maxp : Z) (s : dev) : Z :=
  if link phoenix port (module_ (mem_ s)) =? 0 then f_mul (f_div (v s) maxp) (f_of_Z 100) else err.

(** * Other sensors, which copy the bytes *)

(** [level_s_iolink::evaluate_io], cpp:2586-2620, h:1001-1012: [v] and [st]; the articles IFM.LMT, E&H.FTL33, unknown. *)
Inductive lart := LMT | FTL33 | LUnknown.
Definition ls_decode (a : lart) (err : Z) (b : bytes) : Z * Z :=
  let x := b 1 + 256 * b 0 in
  match a with
  | LMT => (f_of_Z (sgn 14 (x / 4 mod 2 ^ 14)), x mod 2)
  | FTL33 => (f_mul (f_lit (1 # 10)) (f_of_Z (sgn 14 (x mod 2 ^ 14))), x / 2 ^ 14 mod 2)
  | LUnknown => (err, 0)
  end.
(** [concentration_e_iolink], cpp:3401-3407, 3367-3370, 3372-3398, h:452-463: value, temperature, state. *)
Definition qt_decode (b : bytes) : Z * Z * Z :=
  let i n := b (11 - n) in
  (f_mul (f_lit (1 # 1000)) (f_of_Z (i 8 + 256 * i 9 + 65536 * i 10 + 16777216 * i 11)),
   f_mul (f_lit (1 # 10)) (f_of_Z (i 2 + 256 * i 3 + 65536 * i 4 + 16777216 * i 5)), i 0 / 16).
(** [counter_iolink], cpp:1462-1479, 1496-1499, 1537-1541, h:1329-1338: the total (a bit pattern), the flow with the
    correction [P_CZ], the temperature. *)
Definition fq_decode (cz : Z) (b : bytes) : Z * Z * Z :=
  (b 3 + 256 * b 2 + 65536 * b 1 + 16777216 * b 0,
   f_add cz (f_mul (f_of_Z (sgn 16 (b 5 + 256 * b 4))) (f_lit (1 # 100))),
   f_mul (f_lit (1 # 10)) (f_of_Z (sgn 14 ((b 7 + 256 * b 6) / 4)))).
(** [temperature_e_iolink::get_value], cpp:1732-1748; [sc]: [char] is signed; [zero]: [P_ZERO_ADJUST_COEFF]. *)
Definition char_ (sc : bool) (x : Z) : Z := if sc then sgn 8 x else x.
Definition te_value (sc : bool) (zero : Z) (b : bytes) : Z :=
  f_add zero (f_mul (f_lit (1 # 10)) (f_of_Z (sgn 16 (char_ sc (b 1) + 256 * char_ sc (b 0))))).

(** * Scales of Axioline *)

(** [ERR_VALUES], [ERR_STATES], h:618-638, cpp:1989-2023. *)
Definition wt_error (x : Z) : Z :=
  let u := x mod 2 ^ 32 in
  if u =? 2147483649 then -1 else if u =? 2147483650 then -2 else if u =? 2147483651 then -3 else if u =? 2147483652 then -4
  else if u =? 2147483680 then -5 else if u =? 2147483712 then -6 else if u =? 2147483776 then -7 else 0.
(** Memory, [w], [st], [P_K], [P_CZ]. *)
Record scale := { w_mem : bytes; w : Z; w_st : Z; par_k : Z; par_cz : Z }.
Definition new_scale : scale := {| w_mem := fun _ => 0; w := 0; w_st := 0; par_k := 0; par_cz := 0 |}.
(** Cycles (cpp:1975-2024), tare and its reset (cpp:2026-2034), also by [set_state] (cpp:2046-2058); parameters. *)
Inductive wev := WCycle (c : option bytes) | Tare | Untare | State (n : Z) | ParK (k : Z) | ParCZ (k : Z).
Definition set_cz (s : scale) (x : Z) : scale := {| w_mem := w_mem s; w := w s; w_st := w_st s; par_k := par_k s; par_cz := x |}.
Definition wt_step (s : scale) (e : wev) : scale :=
  match e with
  | WCycle c =>
      let b := match c with Some b => b | None => w_mem s end in
      let b := swap (swap b 0 2) 1 3 in
      let x := sgn 32 (b 0 + 256 * b 1 + 65536 * b 2 + 16777216 * b 3) in
      {| w_mem := b; w := f_mul (f_mul (f_lit (1 # 1000)) (f_of_Z x)) (par_k s); w_st := wt_error x; par_k := par_k s; par_cz := par_cz s |}
  | Tare => set_cz s (f_opp (w s))
  | Untare => set_cz s 0
  | State n => if n =? 1 then set_cz s (f_opp (w s)) else if n =? 2 then set_cz s 0 else s
  | ParK k => {| w_mem := w_mem s; w := w s; w_st := w_st s; par_k := k; par_cz := par_cz s |}
  | ParCZ k => set_cz s k
  end.
Definition wt_run (l : list wev) : scale := fold_left wt_step l new_scale.
(** [get_value], cpp:2036-2039. *)
Definition wt_value (s : scale) : Z := f_add (w s) (par_cz s).
