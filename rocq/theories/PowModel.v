(** Power units and circuit breakers with IO-Link.

    Source: /repo/PAC/common/device/device.cpp 618-750, 796-1003 (power_unit), 3111-3292
    (circuit_breaker), 319-353, 3462-3491, device.h 278-354, 1565-1702, base.cpp 212-238,
    321-353, bus_coupler_io.cpp 588-606.  Below cpp: device.cpp.

    Simplifications:
    - the program runs on a controller, not in the emulator; the device has both channels;
    - the values of commands are whole numbers (the conversion of others to a byte is
      undefined and [None] here; 0.5 would switch a channel on and the whole device off);
    - bit-fields are laid out from the lowest bit on, as GCC does for these targets; bits
      of the outputs no field names are 0;
    - before the first cycle orders go to a record all devices of the class share; one device. *)
From Coq Require Import ZArith List Bool Lia QArith.
From Verif Require Import Base TimeModel FTextModel FloatModel.
Import ListNotations.
Open Scope Z_scope.

(** The bits of a byte, device.h:1612-1656. *)
Definition fld (b : Z -> Z) (n pos len : Z) : Z := (b n / 2 ^ pos) mod 2 ^ len.
Definition upd {A} (f : Z -> A) (c : Z) (v : A) : Z -> A := fun n => if n =? c then v else f n.
(** A record of outputs: [valid_flag], switches and nominal currents of the channels. *)
Record out := { flag : bool; sw : Z -> bool; nm : Z -> Z }.
Definition zero_out : out := {| flag := false; sw := fun _ => false; nm := fun _ => 0 |}.

(** * Power units *)

(** [status_ch1] to [status_ch8] as a condition, [nominal_current_ch1] to [nominal_current_ch8], device.h:1626-1646. *)
Definition stat (b : Z -> Z) (c : Z) : bool := negb (fld b (4 + (c - 1) / 4) (2 * (3 - (c - 1) mod 4)) 2 =? 0).
Definition nom (b : Z -> Z) (c : Z) : Z := fld b (6 + (c - 1) / 2) (if c mod 2 =? 1 then 3 else 0) 3.
(** The bytes of the outputs, device.h:1660-1691. *)
Definition out_byte (o : out) (n : Z) : Z :=
  if n =? 0 then (if flag o then 128 else 0)
  else if (1 <=? n) && (n <=? 4) then nm o (2 * n) + 8 * nm o (2 * n - 1)
  else if n =? 6 then
    Z.b2z (sw o 8) + 2 * (Z.b2z (sw o 7) + 2 * (Z.b2z (sw o 6) + 2 * (Z.b2z (sw o 5) + 2 * (Z.b2z (sw o 4) + 2 * (Z.b2z (sw o 3) + 2 * (Z.b2z (sw o 2) + 2 * Z.b2z (sw o 1)))))))
  else 0.

(** [p_data_out] points to the outputs ([att]) or to the shared record; [p_data_in];
    [is_processing_cmd], [cmd_time]; manual mode. *)
Record pus := { att : bool; stub : out; area : out; pin : Z -> Z; busy : bool; tc : Z; man : bool }.
(** cpp:617-627, 23, device.h:1608-1609, 1698-1702. *)
Definition new_pu : pus := {| att := false; stub := zero_out; area := zero_out; pin := fun _ => 0; busy := false; tc := 0; man := false |}.
(** What a cycle finds: the clock, the bytes received, whether the port works. *)
Record inp := { now : Z; bytes : Z -> Z; ok : bool }.
(** [sync_pdout], cpp:731-751. *)
Definition sync (b : Z -> Z) : out := {| flag := false; sw := stat b; nm := nom b |}.
(** [evaluate_io], cpp:646-729. *)
Definition evaluate (w : Z) (i : inp) (s : pus) : pus :=
  let b := bytes i in
  let '(a, bz) :=
    if ok i then
      if busy s then
        let d := get_delta_millisec w (now i) (tc s) in
        let a := if 300 <? d then {| flag := true; sw := sw (area s); nm := nm (area s) |} else area s in
        if 1000 <? d then (sync b, false) else (a, true)
      else (sync b, false)
    else (area s, busy s) in
  {| att := true; stub := stub s; area := a; pin := b; busy := bz; tc := tc s; man := man s |}.
(** An order given at [t] changes the record pointed to, cpp:796-850, 909-911, 996-997. *)
Definition order (t : Z) (f : out -> out) (s : pus) : pus :=
  {| att := att s; stub := if att s then stub s else f (stub s); area := if att s then f (area s) else area s; pin := pin s; busy := true; tc := t; man := man s |}.
Definition all_sw (b : bool) (o : out) : out := {| flag := flag o; sw := fun _ => b; nm := nm o |}.
(** [static_cast<int8_t>( val )]. *)
Definition to_byte (v : Z) : option Z := if (-128 <=? v) && (v <=? 127) then Some v else None.
Definition ch_ok (m c : Z) : bool := (1 <=? c) && (c <=? m).

(** Cycles; [on], [off], [set_state] of the program (cpp:319-353, base.cpp:232-238); commands of an operator:
    [ST], [ST_CH], [NOMINAL_CURRENT_CH] (cpp:852-1003) and manual mode. *)
Inductive ev := Cycle (i : inp) | On (t : Z) | Off (t : Z) | Set_ (t n : Z) | CmdSt (t n : Z) | CmdCh (t c v : Z) | CmdNom (t c v : Z) | Man (n : Z).
Definition step (w : Z) (s : pus) (e : ev) : option pus :=
  let auto r := Some (if man s then s else r) in
  match e with
  | Cycle i => Some (evaluate w i s)
  | On t => auto (order t (all_sw true) s)
  | Off t => auto (order t (all_sw false) s)
  | Set_ _ _ => Some s
  | CmdSt t n => auto (order t (all_sw (negb (n =? 0))) s)
  | CmdCh t c v =>
      match to_byte v with
      | None => None
      | Some _ => Some (order t (fun o => if ch_ok 8 c then {| flag := flag o; sw := upd (sw o) c (negb (v =? 0)); nm := nm o |} else o) s)
      end
  | CmdNom t c v =>
      match to_byte v with
      | None => None
      | Some _ => Some (order t (fun o => if ch_ok 8 c then {| flag := flag o; sw := sw o; nm := upd (nm o) c (v mod 8) |} else o) s)
      end
  | Man n => Some {| att := att s; stub := stub s; area := area s; pin := pin s; busy := busy s; tc := tc s;
                     man := if n =? 0 then false else if n =? 1 then true else man s |}
  end.
Fixpoint run (w : Z) (s : pus) (l : list ev) : option pus :=
  match l with [] => Some s | e :: r => match step w s e with None => None | Some s => run w s r end end.
(** The bytes sent. *)
Definition sent (s : pus) : Z -> Z := out_byte (area s).
(** [get_state], cpp:635-638, 658-661; [get_value], cpp:630-633, 654-656 ([.1f]). *)
Definition get_state (s : pus) : Z := if existsb (stat (pin s)) [1; 2; 3; 4; 5; 6; 7; 8] then 1 else 0.
Definition get_value (s : pus) : Z := f_mul (f_lit (1 # 10)) (f_of_Z (fld (pin s) 2 0 2 * 256 + fld (pin s) 3 0 8)).

(** * Circuit breakers *)

(** [st_ch1] to [st_ch4], [nominal_current_ch1] to [nominal_current_ch4], device.h:299-313. *)
Definition b_stat (b : Z -> Z) (c : Z) : bool := fld b 0 (8 - c) 1 =? 1.
Definition b_nom (b : Z -> Z) (c : Z) : Z := fld b (1 + (c - 1) / 2) (if c mod 2 =? 1 then 4 else 0) 4.
(** The bytes of the outputs, device.h:322-334. *)
Definition b_out_byte (o : out) (n : Z) : Z :=
  if n =? 0 then Z.b2z (sw o 1) + 2 * (Z.b2z (sw o 2) + 2 * (Z.b2z (sw o 3) + 2 * Z.b2z (sw o 4))) + 128 * Z.b2z (flag o)
  else if (1 <=? n) && (n <=? 2) then nm o (2 * n) + 16 * nm o (2 * n - 1)
  else 0.
(** [out_info] and the record all breakers share, [in_info], [is_read_OK], the state of the port; manual mode. *)
Record cbs := { c_att : bool; c_stub : out; c_area : out; c_in : Z -> Z; read_ok : bool; c_man : bool }.
Definition new_cb : cbs := {| c_att := false; c_stub := zero_out; c_area := zero_out; c_in := fun _ => 0; read_ok := false; c_man := false |}.
(** [evaluate_io], cpp:3231-3284: the outputs are set from the record of the cycle before. *)
Definition c_evaluate (i : inp) (s : cbs) : cbs :=
  {| c_att := true; c_stub := c_stub s;
     c_area := if ok i && negb (read_ok s) then {| flag := flag (c_area s); sw := b_stat (c_in s); nm := b_nom (c_in s) |} else c_area s;
     c_in := bytes i; read_ok := ok i; c_man := c_man s |}.
Definition c_order (f : out -> out) (s : cbs) : cbs :=
  {| c_att := c_att s; c_stub := if c_att s then c_stub s else f (c_stub s); c_area := if c_att s then f (c_area s) else c_area s;
     c_in := c_in s; read_ok := read_ok s; c_man := c_man s |}.
(** [direct_on], [direct_off], cpp:3175-3207. *)
Definition c_all (b : bool) (o : out) : out := {| flag := true; sw := fun _ => b; nm := nm o |}.
(** The same calls; [CVal]: [set_value] of the program, [CCmdV]: a command [V] (both end in
    [direct_set_value], cpp:3163-3173).  A channel that does not exist: cpp:3160, 3462-3491, base.cpp:326-330, 222-225. *)
Inductive cev := CCycle (i : inp) | COn | COff | CSet (n : Z) | CVal (v : Z) | CCmdSt (n : Z) | CCmdCh (c v : Z) | CCmdV (v : Z) | CMan (n : Z).
Definition c_step (s : cbs) (e : cev) : cbs :=
  let auto r := if c_man s then s else r in
  match e with
  | CCycle i => c_evaluate i s
  | COn => auto (c_order (c_all true) s)
  | COff => auto (c_order (c_all false) s)
  | CSet _ => s
  | CVal v | CCmdV v => auto (c_order (c_all (negb (v =? 0))) s)
  | CCmdSt n => auto (c_order (c_all (negb (n =? 0))) s)
  | CCmdCh c v => if ch_ok 4 c then c_order (fun o => {| flag := flag o; sw := upd (sw o) c (negb (v =? 0)); nm := nm o |}) s else s
  | CMan n => {| c_att := c_att s; c_stub := c_stub s; c_area := c_area s; c_in := c_in s; read_ok := read_ok s;
                 c_man := if n =? 0 then false else if n =? 1 then true else c_man s |}
  end.
Definition c_run (s : cbs) (l : list cev) : cbs := fold_left c_step l s.
Definition c_sent (s : cbs) : Z -> Z := b_out_byte (c_area s).
(** [get_state], cpp:3216-3227, 3280-3281; [link]: the state of the port (0: it works). *)
Definition c_get_state (link : Z) (s : cbs) : Z :=
  if negb (link =? 0) then - link else if existsb (b_stat (c_in s)) [1; 2; 3; 4] then 1 else 0.
