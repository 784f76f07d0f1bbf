(** Valves whose solenoids are bits of bytes shared with other valves: valves on an
    AS-interface gateway and valves on a pneumatic terminal.

    Source: /repo/PAC/common/device/valve.cpp 2208-2512 ([valve_iol_terminal] and its
    classes), 2656-2752, 2771-3172 ([valve_AS] and its classes), 107-287
    ([valve::get_state]), valve.h 446-527, 939-1074, device.cpp 319-341, base.cpp 321-353,
    bus_coupler_io.cpp 608-676, 1049-1098, uni_bus_coupler_io.cpp 344-350, 463-470.
    Below cpp and h: valve.cpp and valve.h.

    Simplifications:
    - the program runs on a controller, not in the emulator;
    - the output bytes of all nodes are one memory; a number that leads out of the memory
      of a node is not told from one that leads to another byte; bytes are 0..255 (the
      [char] of the code is signed, only its bits are used);
    - one reading of the clock per call; [P_ON_TIME] is a whole number of milliseconds
      from 0 to 2^24, [P_FB] is an input;
    - the delayed closing by [valve::off] is left out (ValveModel has it); a valve closed
      by it gets [direct_off], here the order [Instant];
    - texts and logging are left out. *)
From Coq Require Import ZArith List Bool Lia.
From Verif Require Import Base TimeModel.
Import ListNotations.
Open Scope Z_scope.

(** [valve_AS_mix_proof], [valve_AS_DO1_DI2], [valve_iol_terminal_DO1],
    [.._DO1_DI1_on], [.._DO1_DI1_off], [.._DO1_DI2], [.._mixproof_DO3],
    [.._mixproof_DO3_DI2]. *)
Inductive cls := AsMix | AsCut | T1 | T1on | T1off | T1two | T3 | T3two.
Definition is_as (c : cls) : bool := match c with AsMix | AsCut => true | _ => false end.

(** A configured valve.  [ch i]: the address of the first byte of the analog output
    channel [i], [None] if the valve has no such channel ([get_AO_write_data],
    bus_coupler_io.cpp:629-651); [num i]: the AS number ([i] = 0) or the terminal numbers
    ([set_rt_par], cpp:2222-2233, 2782-2794); [ai]: the analog input channel; [rev]:
    [reverse_seat_connection], h:465. *)
Record conf := { kind : cls; ch : Z -> option Z; num : Z -> Z; ai : option Z; rev : bool }.

(** [state] (h:992), [start_switch_time] (h:180), [start_err_time] (h:526), manual mode. *)
Record bst := { st : Z; t_sw : Z; t_err : Z; man : bool }.
Definition wst (n : Z) (s : bst) : bst := {| st := n; t_sw := t_sw s; t_err := t_err s; man := man s |}.
Definition wt (n : Z) (s : bst) : bst := {| st := st s; t_sw := n; t_err := t_err s; man := man s |}.
Definition werr (n : Z) (s : bst) : bst := {| st := st s; t_sw := t_sw s; t_err := n; man := man s |}.
Definition wman (b : bool) (s : bst) : bst := {| st := st s; t_sw := t_sw s; t_err := t_err s; man := b |}.
(** A new valve, h:992, 180, cpp:3099-3103. *)
Definition new_bst (now : Z) : bst := {| st := 0; t_sw := now; t_err := now; man := false |}.

Definition put (m : mem) (a v : Z) : mem := fun x => if x =? a then v else m x.

(** * AS-interface *)

(** The byte and the half of a valve, cpp:2804-2825, 2838-2851, 2969-2977. *)
Definition as_byte (n : Z) : Z :=
  if n <? 32 then 8 + n / 2 else 8 + 32 / 2 + (n - 32) / 2 + (n - 32) mod 2.
Definition as_shift (n : Z) : Z :=
  if ((n <? 32) && (n mod 2 =? 0)) || ((32 <=? n) && (n mod 2 =? 1)) then 4 else 0.
(** [get_state_data], cpp:2797-2828: 0 without data. *)
Definition state_data (m : mem) (b : option Z) (n : Z) : Z :=
  match b with
  | None => 0
  | Some a =>
      let x := m (a + as_byte n) in
      if n <? 32 then (if n mod 2 =? 0 then Z.shiftr x 4 else x)
      else (if n mod 2 =? 1 then Z.shiftr x 4 else x)
  end.
(** h:486-491; [get_lower_seat_offset], [get_upper_seat_offset], cpp:2906-2928. *)
Definition C_S1 := 2. Definition C_S2 := 4. Definition C_S3 := 8.
Definition lower_mask (c : conf) : Z := if rev c then C_S3 else C_S2.
Definition upper_mask (c : conf) : Z := if rev c then C_S2 else C_S3.
Definition has (x mask : Z) : bool := 0 <? Z.land x mask.

(** [valve_AS::direct_off], cpp:2954-2981; [None]: a write through a null pointer. *)
Definition as_off (c : conf) (now : Z) (m : mem) (s : bst) : option (mem * bst) :=
  match ch c 0 with
  | None => None
  | Some b =>
      let n := num c 0 in
      let a := b + as_byte n in
      let s := if has (state_data m (ch c 0) n) C_S1 then wt now s else s in
      Some (put m a (Z.land (m a) (Z.shiftr 240 (as_shift n))), s)
  end.
(** [valve_AS::direct_on], cpp:2983-3009. *)
Definition as_on (c : conf) (now : Z) (m : mem) (s : bst) : option (mem * bst) :=
  match ch c 0 with
  | None => None
  | Some b =>
      let n := num c 0 in
      let a := b + as_byte n in
      let s := if has (state_data m (ch c 0) n) C_S1 then s else wt now s in
      let x := Z.lor (m a) (Z.shiftl C_S1 (as_shift n)) in
      let x := Z.land x (Z.lnot (Z.shiftl (upper_mask c) (as_shift n))) in
      let x := Z.land x (Z.lnot (Z.shiftl (lower_mask c) (as_shift n))) in
      Some (put m a x, s)
  end.
(** The cases of seats of [valve_AS::direct_set_state], cpp:3038-3072. *)
Definition as_seat (c : conf) (mask now : Z) (m : mem) (s : bst) : option (mem * bst) :=
  match as_off c now m s with
  | None => None
  | Some (m, s) =>
      match ch c 0 with
      | None => None
      | Some b =>
          let n := num c 0 in
          let a := b + as_byte n in
          let s := if has (state_data m (ch c 0) n) mask then s else wt now s in
          Some (put m a (Z.lor (m a) (Z.shiftl mask (as_shift n))), s)
      end
  end.

(** * Terminals *)

(** The number of outputs, cpp:2208-2220, 2441, 2446. *)
Definition outs (c : conf) : list Z := match kind c with T3 | T3two => [0; 1; 2] | _ => [0] end.
(** [check_config], cpp:2235-2250. *)
Definition check (c : conf) : bool :=
  forallb (fun i => match ch c i with None => false | Some _ => 0 <? num c i end) (outs c).
(** [set_state_bit], [reset_state_bit], cpp:2253-2265, for output [i]; the data pointer is
    not null after [check_config]. *)
Definition set_bit (c : conf) (m : mem) (i : Z) : mem :=
  match ch c i with
  | None => m
  | Some b => let a := b + (num c i - 1) / 8 in put m a (Z.lor (m a) (Z.shiftl 1 ((num c i - 1) mod 8)))
  end.
Definition reset_bit (c : conf) (m : mem) (i : Z) : mem :=
  match ch c i with
  | None => m
  | Some b => let a := b + (num c i - 1) / 8 in put m a (Z.land (m a) (Z.lnot (Z.shiftl 1 ((num c i - 1) mod 8))))
  end.
(** [valve_iol_terminal::direct_on], cpp:2303-2324. *)
Definition t_on (c : conf) (now : Z) (m : mem) (s : bst) : mem * bst :=
  if check c then
    let s := if st s =? 1 then s else wt now s in
    (fold_left (reset_bit c) (tl (outs c)) (set_bit c m 0), wst 1 s)
  else (m, s).
(** [valve_iol_terminal::direct_off], cpp:2326-2344. *)
Definition t_off (c : conf) (now : Z) (m : mem) (s : bst) : mem * bst :=
  if check c then
    let s := if st s =? 0 then s else wt now s in
    (fold_left (reset_bit c) (outs c) m, wst 0 s)
  else (m, s).
(** [open_upper_seat], [open_lower_seat], cpp:2450-2482. *)
Definition t_upper (c : conf) (m : mem) (s : bst) : mem * bst :=
  if check c then (reset_bit c (set_bit c (reset_bit c m 0) 1) 2, wst 2 s) else (m, s).
Definition t_lower (c : conf) (m : mem) (s : bst) : mem * bst :=
  if check c then (set_bit c (reset_bit c (reset_bit c m 0) 1) 2, wst 3 s) else (m, s).

(** * One valve *)

Definition direct_on (c : conf) (now : Z) (m : mem) (s : bst) : option (mem * bst) :=
  if is_as (kind c) then as_on c now m s else Some (t_on c now m s).
Definition direct_off (c : conf) (now : Z) (m : mem) (s : bst) : option (mem * bst) :=
  if is_as (kind c) then as_off c now m s else Some (t_off c now m s).
(** [direct_set_state], cpp:2289-2296, 2484-2512, 3011-3078, 3105-3123. *)
Definition direct_set_state (c : conf) (now n : Z) (m : mem) (s : bst) : option (mem * bst) :=
  match kind c with
  | AsMix =>
      if n =? 0 then direct_off c now m s
      else if n =? 1 then direct_on c now m s
      else if n =? 2 then as_seat c (upper_mask c) now m s
      else if n =? 3 then as_seat c (lower_mask c) now m s
      else direct_on c now m s
  | AsCut =>
      if (n =? 2) || (n =? 3) then Some (m, s)
      else if n =? 0 then direct_off c now m s else direct_on c now m s
  | T3 | T3two =>
      if n =? 0 then direct_off c now m s
      else if n =? 1 then direct_on c now m s
      else if n =? 2 then Some (t_upper c m s)
      else if n =? 3 then Some (t_lower c m s)
      else direct_on c now m s
  | _ => if n =? 0 then direct_off c now m s else direct_on c now m s
  end.
(** [open_upper_seat], [open_lower_seat] of the classes with seats, cpp:2450-2482,
    3088-3096; the other classes have no such functions. *)
Definition open_seat (c : conf) (upper : bool) (now : Z) (m : mem) (s : bst) : option (mem * bst) :=
  match kind c with
  | AsMix | T3 | T3two => direct_set_state c now (if upper then 2 else 3) m s
  | _ => Some (m, s)
  end.

(** The discrete inputs 0 and 1, the memory of the analog inputs, the parameters and
    the state of the IO-Link port of a valve ([get_AO_IOLINK_state],
    bus_coupler_io.cpp:608-626, h:40-45: 0, 1 or 2). *)
Record din := { di0 : bool; di1 : bool; ain : mem; p_time : Z; p_fb : bool; link : Z }.

(** [get_valve_state], cpp:2298-2301, 2854-2869, 3125-3135; [r]: the bytes last sent. *)
Definition valve_state (c : conf) (r : mem) (s : bst) : Z :=
  let x := state_data r (ch c 0) (num c 0) in
  match kind c with
  | AsMix =>
      if negb (has x C_S1) && has x (upper_mask c) then 2
      else if negb (has x C_S1) && has x (lower_mask c) then 3
      else if has x C_S1 then 1 else 0
  | AsCut => if has x C_S1 then 1 else 0
  | _ => st s
  end.
(** [get_fb_state], cpp:322-325, 2363-2383, 2403-2424, 2661-2686, 2710-2738, 2871-2904,
    3137-3172. *)
Definition fb_state (w : Z) (c : conf) (now : Z) (i : din) (r : mem) (s : bst) : bool * bst :=
  let early := get_delta_millisec w now (t_sw s) <? p_time i in
  let x := state_data r (ch c 0) (num c 0) in
  let o := has x C_S1 in
  let y := state_data (ain i) (ai c) (num c 0) in
  let i0 := has y 1 in
  let i1 := has y 2 in
  match kind c with
  | T1 | T3 => (true, s)
  | T1on =>
      if negb (check c) then (false, s)
      else if st s =? (if di0 i then 1 else 0) then (true, wt now s) else (early, s)
  | T1off =>
      if negb (check c) then (false, s)
      else if negb (st s =? (if di0 i then 1 else 0)) then (true, wt now s) else (early, s)
  | T1two =>
      if (st s =? 1) && di0 i && negb (di1 i) then (true, wt now s)
      else if (st s =? 0) && negb (di0 i) && di1 i then (true, wt now s)
      else (early, s)
  | T3two =>
      if (st s =? 1) && di0 i && negb (di1 i) then (true, wt now s)
      else if (st s =? 0) && negb (di0 i) && di1 i then (true, wt now s)
      else if (st s =? 3) || (st s =? 2) then (true, s)
      else (early, s)
  | AsMix =>
      if (negb o && i0 && negb i1) || (o && i1 && negb i0) then (true, s)
      else if negb o && has x (lower_mask c) then (true, s)
      else if negb o && has x (upper_mask c) then (true, s)
      else (early, s)
  | AsCut =>
      if (negb o && i0 && negb i1) || (o && i1 && negb i0) then (true, werr now s)
      else if early then (true, s)
      else (get_delta_millisec w now (t_err s) <? p_time i, s)
  end.
(** [is_on_fb || is_off_fb], cpp:2352-2359, 2398-2399, 2439-2448, 2656-2657, 2703-2705, 2771-2772. *)
Definition has_fb (c : conf) : bool := match kind c with T1 | T3 => false | _ => true end.

(** [valve::get_state], cpp:107-286; [valve_iol_terminal::get_state], cpp:2273-2287. *)
Definition get_state (w : Z) (c : conf) (now : Z) (i : din) (r : mem) (s : bst) : Z * bst :=
  let moving (ok err mov : Z) :=
    if has_fb c then
      if p_fb i then
        let f := fb_state w c now i r s in
        if fst f then (ok, snd f)
        else if p_time i <? get_delta_millisec w now (t_sw (snd f)) then (err, snd f)
        else (mov, snd f)
      else (ok + 10, s)
    else (ok, s) in
  let v := valve_state c r s in
  if negb (is_as (kind c)) && negb (link i =? 0) then (- link i, s)
  else if v =? 3 then
    (if man s then 23 else if has_fb c && negb (p_fb i) then 33 else 3, s)
  else if v =? 2 then
    (if man s then 22 else if has_fb c && negb (p_fb i) then 32 else 2, s)
  else if v =? 1 then if man s then moving 21 (-12) 42 else moving 1 (-2) 40
  else if v =? 0 then if man s then moving 20 (-13) 43 else moving 0 (-3) 41
  else (100, s).

(** [get_on_fb_value] and [get_off_fb_value], cpp:2385-2395, 2426-2436, 2688-2700,
    2740-2752, 2930-2952, 383-392 with h:133-134. *)
Definition on_fb (c : conf) (i : din) : bool :=
  match kind c with
  | AsMix | AsCut => has (state_data (ain i) (ai c) (num c 0)) 2
  | T1 | T3 | T1off => false
  | _ => di0 i
  end.
Definition off_fb (c : conf) (i : din) : bool :=
  match kind c with
  | AsMix | AsCut => has (state_data (ain i) (ai c) (num c 0)) 1
  | T1 | T3 | T1on => false
  | T1off => di0 i
  | _ => di1 i
  end.

(** * Many valves *)

(** [W]: the bytes to be sent ([AO_]), [R]: the bytes last sent ([AO]),
    bus_coupler_io.h:374-375. *)
Record plant := { W : mem; R : mem; vs : Z -> bst }.
Definition upd (p : plant) (d : Z) (x : mem * bst) : plant :=
  {| W := fst x; R := R p; vs := fun y => if y =? d then snd x else vs p y |}.
Definition upd_o (p : plant) (d : Z) (x : option (mem * bst)) : option plant :=
  match x with None => None | Some x => Some (upd p d x) end.

(** Orders of the program ([On], [Instant], [Set_], ignored in manual mode: device.cpp:
    319-341; [Seat]), commands of an operator ([Cmd]: property S..., [Man]: property M...,
    base.cpp:321-353), readings of the state, and a write to the node that succeeds
    (uni_bus_coupler_io.cpp:344-350, 463-470). *)
Inductive order :=
| On (d : Z) | Instant (d : Z) | Set_ (d n : Z) | Seat (d : Z) (upper : bool)
| Cmd (d n : Z) | Man (d n : Z) | Poll (d : Z) | Sent.
Record env := { now : Z; ins : Z -> din }.

Definition step (w : Z) (K : Z -> conf) (p : plant) (x : order * env) : option plant :=
  let E := snd x in
  let auto d r := if man (vs p d) then Some p else upd_o p d r in
  match fst x with
  | On d => auto d (direct_on (K d) (now E) (W p) (vs p d))
  | Instant d => auto d (direct_off (K d) (now E) (W p) (vs p d))
  | Set_ d n => auto d (direct_set_state (K d) (now E) n (W p) (vs p d))
  | Seat d u => upd_o p d (open_seat (K d) u (now E) (W p) (vs p d))
  | Cmd d n => upd_o p d (direct_set_state (K d) (now E) n (W p) (vs p d))
  | Man d n =>
      if n =? 0 then Some (upd p d (W p, wman false (vs p d)))
      else if n =? 1 then Some (upd p d (W p, wman true (vs p d))) else Some p
  | Poll d => Some (upd p d (W p, snd (get_state w (K d) (now E) (ins E d) (R p) (vs p d))))
  | Sent => Some {| W := W p; R := W p; vs := vs p |}
  end.
Fixpoint run (w : Z) (K : Z -> conf) (p : plant) (l : list (order * env)) : option plant :=
  match l with
  | [] => Some p
  | x :: r => match step w K p x with None => None | Some p => run w K p r end
  end.
(** A started controller: the bytes are 0 (bus_coupler_io.h:374-375). *)
Definition start (t0 : Z) : plant := {| W := fun _ => 0; R := fun _ => 0; vs := fun _ => new_bst t0 |}.
