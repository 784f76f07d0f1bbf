(** Motors with an Altivar frequency converter on the network.

    Source: /repo/PAC/IoT/iot_altivar.cpp 101-388, iot_altivar.h 15-89,
    PAC/common/device/device.cpp 3757-3837, 319-353, base.cpp 232-238, 321-353, 477-480,
    PAC/common/modbus_client.cpp 212-255, 627-710.  Below cpp: iot_altivar.cpp.

    Simplifications:
    - the program runs on a controller, not in the emulator, with input modules; the
      converter's address is set;
    - one converter; the transport is an input: the result of the call for an exchange
      (0: no answer yet, 1: answered, -1: an answer of 9 bytes, that is an exception), the
      registers of the answer, and whether the connection is up (McModel has the calls);
    - the registers prepared for an exchange stay in the buffer until the exchange is
      answered (the buffer is shared with received bytes: an answer with more than 16 bytes
      and a wrong length would change them);
    - one reading of the clock per call; rpm, current and the frequency read are left out. *)
From Coq Require Import ZArith List Bool Lia QArith.
From Verif Require Import Base TimeModel FTextModel FloatModel.
Import ListNotations.
Open Scope Z_scope.

(** [querystep] with [configurestep], iot_altivar.h:34-63. *)
Inductive qstep := Check | Config (n : Z) | Init | Query | EndInit | End_.
(** A call for an exchange: write of registers for the configuration; exchange of command
    and frequency (the other four registers are 0). *)
Inductive tele := Write (addr : Z) (vals : list Z) | Xchg (start c f : Z).
(** Configuration steps, cpp:151-274: address and registers. *)
Definition cfg_table : list (Z * list Z) :=
  [(15421, [8501; 8502; 0; 0; 0; 0]); (15401, [3201; 8604; 3202; 3104; 3204; 0]); (64239, [1]); (8401, [3]);
   (8413, [169]); (8423, [30]); (7122, [1; 0; 210]); (8001, [1])].

(** [configure], [enabled], [cmd], [reverse], [state], [frq_setpoint] and [frq_max] ([float]), [querytimer],
    [modbustimeout], [ismodbuserror]; the prepared registers; manual mode of the motor. *)
Record avs := { qs : qstep; conf : bool; en : bool; cmd : Z; revd : bool; st : Z; sp : Z; fmax : Z; tq : Z; tm : Z; merr : bool;
                bc : Z; bf : Z; man : bool }.
(** A new converter, cpp:101-124 (120: [FRQ_MAX_SETTING]). *)
Definition new_atv (now : Z) : avs :=
  {| qs := Check; conf := true; en := true; cmd := 4; revd := false; st := 0; sp := 0; fmax := f_of_Z 120; tq := now; tm := now; merr := false;
     bc := 0; bf := 0; man := false |}.

(** Assignments to single fields, iot_altivar.h:17-31, 76-87. *)
Definition wq (q : qstep) (s : avs) : avs :=
  {| qs := q; conf := conf s; en := en s; cmd := cmd s; revd := revd s; st := st s; sp := sp s; fmax := fmax s; tq := tq s; tm := tm s; merr := merr s; bc := bc s; bf := bf s; man := man s |}.
Definition wconf (b : bool) (s : avs) : avs :=
  {| qs := qs s; conf := b; en := en s; cmd := cmd s; revd := revd s; st := st s; sp := sp s; fmax := fmax s; tq := tq s; tm := tm s; merr := merr s; bc := bc s; bf := bf s; man := man s |}.
Definition wen (b : bool) (s : avs) : avs :=
  {| qs := qs s; conf := conf s; en := b; cmd := cmd s; revd := revd s; st := st s; sp := sp s; fmax := fmax s; tq := tq s; tm := tm s; merr := merr s; bc := bc s; bf := bf s; man := man s |}.
Definition wcmd (c : Z) (r : bool) (s : avs) : avs :=
  {| qs := qs s; conf := conf s; en := en s; cmd := c; revd := r; st := st s; sp := sp s; fmax := fmax s; tq := tq s; tm := tm s; merr := merr s; bc := bc s; bf := bf s; man := man s |}.
Definition wst (n : Z) (s : avs) : avs :=
  {| qs := qs s; conf := conf s; en := en s; cmd := cmd s; revd := revd s; st := n; sp := sp s; fmax := fmax s; tq := tq s; tm := tm s; merr := merr s; bc := bc s; bf := bf s; man := man s |}.
Definition wsp (v : Z) (s : avs) : avs :=
  {| qs := qs s; conf := conf s; en := en s; cmd := cmd s; revd := revd s; st := st s; sp := v; fmax := fmax s; tq := tq s; tm := tm s; merr := merr s; bc := bc s; bf := bf s; man := man s |}.
Definition wfmax (v : Z) (s : avs) : avs :=
  {| qs := qs s; conf := conf s; en := en s; cmd := cmd s; revd := revd s; st := st s; sp := sp s; fmax := v; tq := tq s; tm := tm s; merr := merr s; bc := bc s; bf := bf s; man := man s |}.
Definition wtq (n : Z) (s : avs) : avs :=
  {| qs := qs s; conf := conf s; en := en s; cmd := cmd s; revd := revd s; st := st s; sp := sp s; fmax := fmax s; tq := n; tm := tm s; merr := merr s; bc := bc s; bf := bf s; man := man s |}.
Definition wtm (n : Z) (s : avs) : avs :=
  {| qs := qs s; conf := conf s; en := en s; cmd := cmd s; revd := revd s; st := st s; sp := sp s; fmax := fmax s; tq := tq s; tm := n; merr := merr s; bc := bc s; bf := bf s; man := man s |}.
Definition wmerr (b : bool) (s : avs) : avs :=
  {| qs := qs s; conf := conf s; en := en s; cmd := cmd s; revd := revd s; st := st s; sp := sp s; fmax := fmax s; tq := tq s; tm := tm s; merr := b; bc := bc s; bf := bf s; man := man s |}.
Definition wbuf (c f : Z) (s : avs) : avs :=
  {| qs := qs s; conf := conf s; en := en s; cmd := cmd s; revd := revd s; st := st s; sp := sp s; fmax := fmax s; tq := tq s; tm := tm s; merr := merr s; bc := c; bf := f; man := man s |}.
Definition wman (b : bool) (s : avs) : avs :=
  {| qs := qs s; conf := conf s; en := en s; cmd := cmd s; revd := revd s; st := st s; sp := sp s; fmax := fmax s; tq := tq s; tm := tm s; merr := merr s; bc := bc s; bf := bf s; man := b |}.

(** Conversion of a [float] to [int], towards zero; [None]: undefined. *)
Definition f_to_s32 (b : Z) : option Z :=
  if f_finite b then
    let t := Z.quot (Qnum (f_val b)) (Zpos (Qden (f_val b))) in
    if (- 2 ^ 31 <=? t) && (t <? 2 ^ 31) then Some t else None
  else None.
(** The register of the frequency, cpp:283 with [set_int2]. *)
Definition freq_reg (v : Z) : option Z := option_map s16 (f_to_s32 (f_mul v (f_of_Z 10))).
(** [frq_max] from the register, cpp:299-301. *)
Definition limit (h : Z) : Z :=
  let m := f_div (f_of_Z h) (f_of_Z 10) in
  let m := if f_lt m (f_of_Z 10) then f_of_Z 10 else m in
  if f_lt (f_of_Z 120) m then f_of_Z 120 else m.
(** The state from the status word, cpp:303-324. *)
Definition decode (word : Z) (r : bool) : Z :=
  let n := Z.land word 111 in
  if n =? 64 then 0 else if n =? 33 then 0 else if n =? 35 then 0
  else if n =? 39 then (if r then 2 else 1)
  else if n =? 7 then -1 else -1.

(** What a cycle finds: the clock, the result of the call, the registers of the answer, the
    connection. *)
Record inp := { now : Z; res : Z; regs : Z -> Z; conn : bool }.
(** The steps, cpp:138-346; [a320]: the type.  The result: the state and the call made. *)
Definition one (a320 : bool) (w : Z) (i : inp) (s : avs) : option (avs * option tele) :=
  match qs s with
  | Check => Some (wq (if conf s && a320 then Config 0 else Init) s, None)
  | Config n =>
      if n =? 16 then Some (wq Init (wconf false s), None)
      else if n mod 2 =? 0 then Some (wq (Config (n + 1)) s, None)
      else let (addr, vals) := nth (Z.to_nat (n / 2)) cfg_table (0, []) in
           Some (if negb (res i =? 0) then wq (Config (n + 1)) s else s, Some (Write addr vals))
  | Init =>
      match freq_reg (sp s) with
      | None => None
      | Some f => Some (wq Query (wbuf (s16 (cmd s)) f s), None)
      end
  | Query =>
      let call := Some (Xchg (if a320 then 1 else 0) (bc s) (bf s)) in
      if res i =? 1 then Some (wq EndInit (wst (decode (regs i 0) (revd s)) (wfmax (limit (regs i 3)) s)), call)
      else if res i =? -1 then Some (wq Check (wconf true s), call)
      else Some (s, call)
  | EndInit => Some (wq End_ (wtq (now i) s), None)
  | End_ => Some (if 200 <? get_delta_millisec w (now i) (tq s) then wq Check s else s, None)
  end.
(** The watch on the connection, cpp:349-361. *)
Definition watch (w : Z) (i : inp) (s : avs) : avs :=
  if conn i then wtm (now i) (wmerr false s)
  else if (5000 <? get_delta_millisec w (now i) (tm s)) && negb (merr s) then wmerr true (wst (-100) s) else s.
(** [Evaluate], cpp:131-367. *)
Definition evaluate (a320 : bool) (w : Z) (i : inp) (s : avs) : option (avs * option tele) :=
  if en s then match one a320 w i s with None => None | Some (s, c) => Some (watch w i s, c) end
  else Some (s, None).

(** The motor: [direct_on], [direct_off], [direct_set_state], [direct_set_value], [get_value], [get_state],
    device.cpp:3757-3837, cpp:369-388. *)
Definition direct_on (s : avs) : avs := wcmd 1 false s.
Definition direct_off (s : avs) : avs := wcmd (if st s <? 0 then 4 else 0) false s.
Definition direct_set_state (n : Z) (s : avs) : avs :=
  if n =? 2 then wcmd 2 true s
  else if n =? 100 then wen false s
  else if n =? 101 then wmerr false (wen true s)
  else if negb (n =? 0) then direct_on s else direct_off s.
Definition direct_set_value (v : Z) (s : avs) : avs := wsp (f_mul (f_div v (f_of_Z 100)) (fmax s)) s.
Definition get_value (s : avs) : Z := f_mul (f_div (sp s) (fmax s)) (f_of_Z 100).
Definition get_state (s : avs) : Z := st s.

(** Cycles; orders of the program (ignored in manual mode, device.cpp:319-353,
    base.cpp:232-238, 477-480) and commands of an operator (base.cpp:321-353). *)
Inductive ev := Tick (i : inp) | On | Off | Set_ (n : Z) | Back | Value (v : Z) | Cmd (n : Z) | CmdV (v : Z) | Man (n : Z).
Definition step (a320 : bool) (w : Z) (s : avs) (e : ev) : option (avs * option tele) :=
  let auto r := Some (if man s then s else r, None) in
  match e with
  | Tick i => evaluate a320 w i s
  | On => auto (direct_on s)
  | Off => auto (direct_off s)
  | Set_ n => auto (direct_set_state n s)
  | Back => auto (direct_set_state 2 s)
  | Value v => auto (direct_set_value v s)
  | Cmd n => Some (direct_set_state n s, None)
  | CmdV v => Some (direct_set_value v s, None)
  | Man n => Some (if n =? 0 then wman false s else if n =? 1 then wman true s else s, None)
  end.
(** The state after the events, and each event with the call made in it. *)
Fixpoint run (a320 : bool) (w : Z) (s : avs) (l : list ev) : option (avs * list (ev * option tele)) :=
  match l with
  | [] => Some (s, [])
  | e :: r =>
      match step a320 w s e with
      | None => None
      | Some (s, c) => match run a320 w s r with None => None | Some (s, t) => Some (s, (e, c) :: t) end
      end
  end.
