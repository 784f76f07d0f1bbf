(** Signal columns: lamps, siren, events shown for several technological objects.

    Source: /repo/PAC/common/device/base.cpp 799-1258 ([signal_column]), base.h 991-1157,
    device.cpp 54-157 ([signal_column_discrete], [signal_column_iolink]), device.h
    1344-1384, bus_coupler_io.cpp 70-78.  Below cpp and h: base.cpp and base.h.

    Simplifications:
    - the program runs on a controller, not in the emulator;
    - one reading of the clock per call;
    - the memory of the outputs exists from the start (an IO-Link column writes into a
      dummy record before its first [evaluate_io], device.cpp:145-157, device.h:1382-1383);
    - texts are left out; the number of the red lamp's kind of blinking is already converted
      to a whole number. *)
From Coq Require Import ZArith List Bool Lia.
From Verif Require Import Base TimeModel.
Import ListNotations.
Open Scope Z_scope.

(** The lamps, h:1149-1152. *)
Inductive lamp := Red | Yellow | Green | Blue.
Definition lamp_eqb (a b : lamp) : bool :=
  match a, b with Red, Red | Yellow, Yellow | Green, Green | Blue, Blue => true | _, _ => false end.
(** h:1134-1140 [STEP]. *)
Inductive stp := Off | On | BlinkOff | BlinkOn.
(** h:1142-1147 [state_info]: [start_blink_time], [start_wait_time]. *)
Record info := { sp : stp; t_on : Z; t_off : Z }.
(** h:1084-1096 [show_states]. *)
Inductive event := Idle | Error | Message | BatchOff | BatchOn | OpOff | OpOn.
Definition event_eqb (a b : event) : bool :=
  match a, b with
  | Idle, Idle | Error, Error | Message, Message | BatchOff, BatchOff | BatchOn, BatchOn | OpOff, OpOff | OpOn, OpOn => true
  | _, _ => false
  end.

(** The channels of the lamps and of the siren, h:1122-1126, and the number of outputs of the
    device: the wired channels of [signal_column_discrete], 5 for [signal_column_iolink]
    (device.cpp:112-143). *)
Record wiring := { ch : lamp -> Z; sch : Z; nch : Z }.
(** [wdisc]: device.h:1347-1350 with [n] wired channels. *)
Definition wdisc (n : Z) : wiring :=
  {| ch := fun l => match l with Red => 1 | Yellow => 2 | Green => 3 | Blue => 0 end; sch := 4; nch := n |}.
(** [wiol]: a new IO-Link column, device.cpp:70-73, h:994-997. *)
Definition wiol : wiring := {| ch := fun _ => 0; sch := 0; nch := 5 |}.

(** [set_string_property] for SIGNALS_SEQUENCE, device.cpp:82-109: [strchr] finds the
    first place of the letter. *)
Fixpoint find (x : Z) (t : list Z) (n : Z) : option Z :=
  match t with [] => None | y :: r => if y =? x then Some n else find x r (n + 1) end.
Definition place (x : Z) (t : list Z) (old : Z) : Z :=
  match find x t 1 with Some n => n | None => old end.
Definition letter (l : lamp) : Z := match l with Red => 82 | Yellow => 89 | Green => 71 | Blue => 66 end.
Definition sequence (t : list Z) (wr : wiring) : wiring :=
  {| ch := fun l => place (letter l) t (ch wr l); sch := place 65 t (sch wr); nch := nch wr |}.

(** The column: the lamps, [siren_step], [show_state], the outputs by channel, manual mode,
    [is_const_red] <> 0 (h:1120). *)
Record col := { li : lamp -> info; siren : bool; shown : event; out : Z -> bool; man : bool; self : bool }.
(** A new column, h:1098, 1120, 1142-1156; outputs are off. *)
Definition new_col : col :=
  {| li := fun _ => {| sp := Off; t_on := 0; t_off := 0 |}; siren := false; shown := Idle; out := fun _ => false;
     man := false; self := false |}.

(** Assignments to the lamp, the siren, [show_state] (h:1098, 1149-1156). *)
Definition set_li (l : lamp) (i : info) (c : col) : col :=
  {| li := fun x => if lamp_eqb x l then i else li c x; siren := siren c; shown := shown c; out := out c; man := man c; self := self c |}.
Definition set_siren (b : bool) (c : col) : col :=
  {| li := li c; siren := b; shown := shown c; out := out c; man := man c; self := self c |}.
Definition set_shown (e : event) (c : col) : col :=
  {| li := li c; siren := siren c; shown := e; out := out c; man := man c; self := self c |}.
(** [process_DO], device.cpp:64-67 (the index [n - 1] of channel 0 is no index) and
    112-143. *)
Definition put (wr : wiring) (n : Z) (b : bool) (c : col) : col :=
  if (1 <=? n) && (n <=? nch wr)
  then {| li := li c; siren := siren c; shown := shown c; out := fun x => if x =? n then b else out c x; man := man c; self := self c |}
  else c.

Section Column.
Context (w : Z) (wr : wiring).

(** [turn_on_...], [turn_off_...], cpp:834-896. *)
Definition turn (l : lamp) (b : bool) (c : col) : col :=
  let c := put wr (ch wr l) b c in
  set_li l {| sp := if b then On else Off; t_on := t_on (li c l); t_off := t_off (li c l) |} c.
(** [turn_on_siren], [turn_off_siren], cpp:958-970. *)
Definition turn_siren (b : bool) (c : col) : col := put wr (sch wr) b (set_siren b c).
(** [blink], cpp:1228-1258. *)
Definition blink (now : Z) (l : lamp) (d : Z) (c : col) : col :=
  let i := li c l in
  match sp i with
  | Off | On => set_li l {| sp := BlinkOn; t_on := now; t_off := t_off i |} c
  | BlinkOn =>
      let c := put wr (ch wr l) true c in
      if d <? get_delta_millisec w now (t_on i)
      then set_li l {| sp := BlinkOff; t_on := t_on i; t_off := now |} c else c
  | BlinkOff =>
      let c := put wr (ch wr l) false c in
      if d <? get_delta_millisec w now (t_off i)
      then set_li l {| sp := BlinkOn; t_on := now; t_off := t_off i |} c else c
  end.
(** h:1130-1131; [normal_blink_...], [slow_blink_...], cpp:898-956. *)
Definition NORMAL := 250. Definition SLOW := 1000.
Definition do_blink (now : Z) (l : lamp) (d : Z) (c : col) : col :=
  match l with Red => if self c then blink now Red d c else turn Red true c | _ => blink now l d c end.

(** [direct_off], [direct_on], cpp:812-832, and the lights only, cpp:1144-1149. *)
Definition lights_off (c : col) : col := turn Blue false (turn Green false (turn Yellow false (turn Red false c))).
Definition direct_off (c : col) : col := turn_siren false (lights_off c).
Definition direct_on (c : col) : col := turn Green true (turn_siren false (lights_off c)).

(** [direct_set_state], cpp:1132-1226, with the numbers of h:1022-1052. *)
Definition direct_set_state (now n : Z) (c : col) : col :=
  match n with
  | 0 => direct_off c | 1 => direct_on c | 2 => lights_off c
  | 3 => turn Green true c | 4 => turn Yellow true c | 5 => turn Red true c | 6 => turn Blue true c
  | 7 => turn Green false c | 8 => turn Yellow false c | 9 => turn Red false c | 10 => turn Blue false c
  | 11 => do_blink now Green NORMAL c | 12 => do_blink now Yellow NORMAL c
  | 13 => do_blink now Red NORMAL c | 14 => do_blink now Blue NORMAL c
  | 15 => do_blink now Green SLOW c | 16 => do_blink now Yellow SLOW c
  | 17 => do_blink now Red SLOW c | 18 => do_blink now Blue SLOW c
  | 19 => turn_siren true c | 20 => turn_siren false c
  | _ => c
  end.

(** The events that keep another one from being shown: cpp:1034, 1049-1050, 1064-1066,
    1081-1083, 1098-1101, 1116-1121. *)
Definition keeps (e s : event) : bool :=
  existsb (event_eqb s)
    (match e with
     | Error => []
     | Message => [Error]
     | BatchOff => [Error; Message]
     | BatchOn => [Error; Message; BatchOff]
     | OpOff => [Error; Message; BatchOff]
     | OpOn => [Error; Message; BatchOff; OpOff]
     | Idle => [Error; Message; BatchOff; OpOff; BatchOn; OpOn]
     end).
(** [show_...], cpp:1019-1130. *)
Definition show (now : Z) (e : event) (c : col) : col :=
  if man c then c
  else if keeps e (shown c) then c
  else
    let c := set_shown e c in
    match e with
    | Error => turn_siren true (turn Green false (turn Yellow false (do_blink now Red NORMAL c)))
    | Message => turn_siren false (turn Blue false (turn Green false (do_blink now Yellow NORMAL (turn Red false c))))
    | BatchOff => turn_siren false (turn Green false (turn Yellow true (turn Red false c)))
    | BatchOn => turn_siren false (turn Blue false (turn Green true (turn Yellow false (turn Red false c))))
    | OpOff => turn_siren false (turn Blue false (turn Green false (turn Yellow true (turn Red false c))))
    | OpOn => turn_siren false (turn Blue false (turn Green true (turn Yellow false (turn Red false c))))
    | Idle => turn_siren false (turn Blue false (turn Green false (turn Yellow false (turn Red false c))))
    end.

(** Calls: [evaluate_io] (cpp:1011-1017), [show_...], the operator's commands S and M
    (base.cpp:321-341), [set_state] of the program (device.cpp:335-341), the kind of blinking
    of the red lamp (cpp:972-984). *)
Inductive call := Cycle | Show (e : event) | Cmd (n : Z) | SetState (n : Z) | Man (n : Z) | Self (v : Z).
(** One call, at the lines given above. *)
Definition step (c : col) (x : Z * call) : col :=
  match snd x with
  | Cycle => set_shown Idle c
  | Show e => show (fst x) e c
  | Cmd n => direct_set_state (fst x) n c
  | SetState n => if man c then c else direct_set_state (fst x) n c
  | Man n =>
      if (n =? 0) || (n =? 1)
      then {| li := li c; siren := siren c; shown := shown c; out := out c; man := n =? 1; self := self c |} else c
  | Self v => {| li := li c; siren := siren c; shown := shown c; out := out c; man := man c; self := negb (v =? 0) |}
  end.
(** Calls one after another. *)
Definition run (l : list (Z * call)) (c : col) : col := fold_left step l c.
End Column.

(** [get_state], cpp:986-993, and the lamps in the report, cpp:995-1009. *)
Definition is_off (s : stp) : bool := match s with Off => true | _ => false end.
Definition get_state (c : col) : Z :=
  if negb (is_off (sp (li c Green))) || negb (is_off (sp (li c Yellow))) || negb (is_off (sp (li c Red))) ||
     negb (is_off (sp (li c Blue))) || siren c then 1 else 0.
Definition reported (c : col) (l : lamp) : bool := match sp (li c l) with On | BlinkOn => true | _ => false end.
