(** Valves with an IO-Link head: Alfa Laval mixproof and shut-off (ThinkTop), Definox Sorio,
    GEA T.VIS A-15 with one and with two seats.

    Source: /repo/PAC/common/device/valve.cpp 1226-2205, valve.h 633-936, valve.cpp 107-286,
    372-380, device.cpp 319-341, base.cpp 321-353, bus_coupler_io.cpp 554-606, 629-651.
    Below cpp and h: valve.cpp and valve.h.

    Simplifications:
    - the program runs on a controller, not in the emulator;
    - one valve; the dummy record all valves of a class write to before their first
      [evaluate_io] (h:694-695) is written by this valve only;
    - bit-fields are laid out as by GCC on x86 and ARM (from the lowest bit, a field does
      not cross the border of its type);
    - a valve has its output byte in [out]; a pointer computed from a null pointer is null;
    - one reading of the clock per call; [P_ON_TIME] is a whole number of milliseconds from
      0 to 2^24, [P_FB] is an input;
    - the delayed closing by [valve::off] is left out (ValveModel has it): [Instant];
    - texts and logging are left out. *)
From Coq Require Import ZArith List Bool Lia QArith.
From Verif Require Import Base TimeModel FTextModel FloatModel.
Import ListNotations.
Open Scope Z_scope.

(** [valve_iolink_mix_proof], [.._shut_off_thinktop], [.._shut_off_sorio],
    [.._gea_tvis_a15_ss], [.._gea_tvis_a15_ds]; whether the channels exist. *)
Inductive cls := Mix | Think | Sorio | GeaS | GeaD.
Record conf := { kind : cls; ao : bool; ai : bool }.
Definition is_gea (k : cls) : bool := match k with GeaS | GeaD => true | _ => false end.

(** [out_info]: the dummy (h:695, 765, 836), null (cpp:1726, 1903, 1946), the output byte. *)
Inductive ptr := Stub | Null | Real.
(** [out_info] and what it points to; [in_info] as bytes; [start_switch_time]; manual mode;
    [blink]. *)
Record ist := { pt : ptr; out : Z; stub : Z; ib : mem; t_sw : Z; man : bool; blink : bool }.
(** Assignments to single fields (h:693-697, 763-767, 834-838, 899-901, 180). *)
Definition wt (n : Z) (s : ist) : ist :=
  {| pt := pt s; out := out s; stub := stub s; ib := ib s; t_sw := n; man := man s; blink := blink s |}.
Definition wman (b : bool) (s : ist) : ist :=
  {| pt := pt s; out := out s; stub := stub s; ib := ib s; t_sw := t_sw s; man := b; blink := blink s |}.
Definition wblink (b : bool) (s : ist) : ist :=
  {| pt := pt s; out := out s; stub := stub s; ib := ib s; t_sw := t_sw s; man := man s; blink := b |}.
Definition wpt (p : ptr) (s : ist) : ist :=
  {| pt := p; out := out s; stub := stub s; ib := ib s; t_sw := t_sw s; man := man s; blink := blink s |}.
Definition wib (b : mem) (s : ist) : ist :=
  {| pt := pt s; out := out s; stub := stub s; ib := b; t_sw := t_sw s; man := man s; blink := blink s |}.

(** A new valve, cpp:1227-1231, 1519-1522, 1724-1728, 1900-1904, 1943-1947, 2006-2010, h:693-695, 834-836, 899;
    [b0]: the bytes [new in_data] happens to find. *)
Definition start (k : cls) (b0 : mem) (now : Z) : ist :=
  {| pt := if is_gea k then Null else Stub; out := 0; stub := 0;
     ib := match k with Mix | Think => fun n => if n =? 3 then Z.land (b0 3) (Z.lnot 31) else b0 n | _ => fun _ => 0 end;
     t_sw := now; man := false; blink := false |}.

(** Bit [n] of a record in little-endian bytes. *)
Definition fld (b : mem) (n : Z) : bool := Z.testbit (b (n / 8)) (n mod 8).
Definition byte (b : mem) (n : Z) : Z := Z.land (b n) 255.
(** The fields of [in_data], h:671-681, 741-751, 811-821, 863-885. *)
Definition de_en (b : mem) := fld b 16. Definition main (b : mem) := fld b 17.
Definition usl (b : mem) := fld b 18. Definition lsp (b : mem) := fld b 19. Definition stt (b : mem) := fld b 20.
Definition s1 (b : mem) := fld b 0. Definition s2 (b : mem) := fld b 1. Definition s4 (b : mem) := fld b 3.
Definition sup (b : mem) := fld b 4.
Definition y1 (b : mem) := fld b 8. Definition y2 (b : mem) := fld b 9. Definition y3 (b : mem) := fld b 10.
Definition err (k : cls) (b : mem) : bool :=
  match k with
  | Mix | Think => existsb (fld b) [24; 25; 26; 27; 28]
  | Sorio => existsb (fld b) [20; 21; 22; 23]
  | _ => fld b 11
  end.
(** [pos], h:673, 743, 813, 883. *)
Definition pos (k : cls) (b : mem) : Z :=
  if is_gea k then Z.land (byte b 2 + 256 * byte b 3) 1023 else s16 (byte b 0 + 256 * byte b 1).
(** [get_value], cpp:1402-1407, 1599-1602, 1776-1784, 2116-2121 ([float]). *)
Definition get_value (k : cls) (b : mem) : Z := f_mul (f_lit (1 # 10)) (f_of_Z (pos k b)).

(** The bits of [out_data_swapped], h:683-691, 753-761, 823-832, 887-897: the valve, the
    upper seat, the lower seat, the light. *)
Definition b_main (k : cls) : Z := match k with Mix | Think => 4 | _ => 0 end.
Definition b_up (k : cls) : Z := match k with Mix => 5 | _ => 2 end.
Definition b_low (k : cls) : Z := match k with Mix => 6 | _ => 1 end.
Definition b_wink (k : cls) : Z := match k with Sorio => 3 | _ => 7 end.
(** The solenoids a class uses. *)
Definition all_sol (k : cls) : list Z :=
  match k with Mix | GeaS | GeaD => [b_main k; b_up k; b_low k] | _ => [b_main k] end.

(** [*out_info]; [None]: null. *)
Definition rd_out (s : ist) : option Z :=
  match pt s with Null => None | Stub => Some (stub s) | Real => Some (out s) end.
Definition wr_out (v : Z) (s : ist) : option ist :=
  match pt s with
  | Null => None
  | Stub => Some {| pt := Stub; out := out s; stub := v; ib := ib s; t_sw := t_sw s; man := man s; blink := blink s |}
  | Real => Some {| pt := Real; out := v; stub := stub s; ib := ib s; t_sw := t_sw s; man := man s; blink := blink s |}
  end.
Definition off_bits (l : list Z) (v : Z) : Z := fold_left (fun v n => Z.clearbit v n) l v.

(** [evaluate_io], cpp:1259-1294, 1537-1587, 1742-1774, 2025-2060; [d]: the input bytes. *)
Definition load (k : cls) (d : mem) : mem :=
  if is_gea k then fun n => if n =? 2 then d 3 else if n =? 3 then d 2 else d n
  else fun n => if n =? 0 then d 1 else if n =? 1 then d 0 else if n =? 2 then d 3 else if n =? 3 then d 2 else d n.
Definition evaluate_io (c : conf) (d : mem) (s : ist) : option ist :=
  if is_gea (kind c) then
    if ao c then if ai c then Some (wib (load (kind c) d) (wpt Real s)) else None
    else Some s
  else
    let s := wpt (if ao c then Real else Null) s in
    Some (if ai c then wib (load (kind c) d) s else s).

(** [direct_off], cpp:1437-1449, 1665-1675, 1794-1807, 2149-2159. *)
Definition direct_off (k : cls) (now : Z) (s : ist) : option ist :=
  match rd_out s with
  | None => None
  | Some v => wr_out (off_bits (all_sol k) v) (if existsb (Z.testbit v) (all_sol k) then wt now s else s)
  end.
(** [direct_on], cpp:1423-1435, 1653-1663, 1809-1822, 2137-2147. *)
Definition direct_on (k : cls) (now : Z) (s : ist) : option ist :=
  let again := if is_gea k then negb (y1 (ib s)) || negb (y2 (ib s)) || negb (y3 (ib s)) else negb (main (ib s)) in
  match rd_out s with
  | None => None
  | Some v => wr_out (off_bits (tl (all_sol k)) (Z.setbit v (b_main k))) (if again then wt now s else s)
  end.
(** [direct_set_state], cpp:1477-1511, 1703-1721, 1917-1938, 1972-2003, 2187-2205. *)
Definition direct_set_state (k : cls) (now n : Z) (s : ist) : option ist :=
  let seat b := match direct_off k now s with
                | None => None
                | Some s => match rd_out s with None => None | Some v => wr_out (Z.setbit v b) s end
                end in
  let seats := match k with Mix | GeaD => true | _ => false end in
  if n =? 0 then direct_off k now s
  else if n =? 1 then direct_on k now s
  else if seats && (n =? 2) then seat (b_up k)
  else if seats && (n =? 3) then seat (b_low k)
  else direct_on k now s.
(** [open_upper_seat], [open_lower_seat], cpp:1233-1241, 1949-1957. *)
Definition open_seat (k : cls) (upper : bool) (now : Z) (s : ist) : option ist :=
  match k with Mix | GeaD => direct_set_state k now (if upper then 2 else 3) s | _ => Some s end.
(** The command B..., cpp:1451-1475, 1677-1701, 2161-2185; GEA valves have none. *)
Definition set_blink (k : cls) (on : bool) (s : ist) : option ist :=
  if is_gea k then Some s
  else match rd_out s with
       | None => None
       | Some v => wr_out (if on then Z.setbit v (b_wink k) else Z.clearbit v (b_wink k)) (wblink on s)
       end.

(** The clock, the input bytes, the state of the port ([get_AI_IOLINK_state], 0: works),
    the parameters. *)
Record env := { now : Z; data : mem; link : Z; p_time : Z; p_fb : bool }.

(** [get_valve_state], cpp:1243-1256, 1524-1535, 1906-1915, 1959-1970, 2012-2023. *)
Definition valve_state (k : cls) (b : mem) : Z :=
  match k with
  | Mix => if de_en b then 0 else if main b then 1 else if usl b then 2 else if lsp b then 3 else 0
  | Think | Sorio => if de_en b then 0 else if main b then 1 else 0
  | GeaS => if y1 b then 1 else 0
  | GeaD =>
      if y1 b && negb (y2 b) && negb (y3 b) then 1
      else if negb (y1 b) && negb (y2 b) && y3 b then 2
      else if negb (y1 b) && y2 b && negb (y3 b) then 3 else 0
  end.
Definition n_active (b : mem) : Z := (if y1 b then 1 else 0) + (if y2 b then 1 else 0) + (if y3 b then 1 else 0).
(** [get_fb_state], cpp:1329-1356, 1616-1637, 1824-1859, 2092-2114; [None]: null is read. *)
Definition fb_state (w : Z) (k : cls) (E : env) (s : ist) : option bool :=
  let b := ib s in
  if negb (link E =? 0) then Some false
  else if err k b then Some false
  else if is_gea k && sup b then Some false
  else if get_delta_millisec w (now E) (t_sw s) <? p_time E then Some true
  else if is_gea k then
    Some (if 1 <? n_active b then false
          else (negb (y1 b) && negb (y2 b) && negb (y3 b) && s1 b && s4 b) || (y1 b && s2 b) || y2 b || (y3 b && s1 b && s4 b))
  else match rd_out s with
       | None => None
       | Some v =>
           let on := Z.testbit v (b_main k) in
           let good := match k with Sorio => true | _ => stt b end in
           Some ((negb on && de_en b && good) || (on && main b && good) ||
                 match k with
                 | Mix => (Z.testbit v (b_up k) && usl b && good) || (Z.testbit v (b_low k) && lsp b && good)
                 | _ => false
                 end)
       end.
(** [get_state], cpp:107-286 and, for seats of [valve_iolink_mix_proof], cpp:1358-1400. *)
Definition get_state (w : Z) (k : cls) (E : env) (s : ist) : option Z :=
  let v := valve_state k (ib s) in
  let judge ok er mov :=
    if p_fb E then
      match fb_state w k E s with
      | None => None
      | Some true => Some ok
      | Some false => Some (if p_time E <? get_delta_millisec w (now E) (t_sw s) then er else mov)
      end
    else Some (ok + 10) in
  let seat n :=
    if man s then Some (20 + n)
    else if negb (p_fb E) then Some (30 + n)
    else match k with
         | Mix => match fb_state w k E s with None => None | Some true => Some n | Some false => Some (-3) end
         | _ => Some n
         end in
  if (v =? 2) || (v =? 3) then seat v
  else if v =? 1 then if man s then judge 21 (-12) 42 else judge 1 (-2) 40
  else if man s then judge 20 (-13) 43 else judge 0 (-3) 41.

(** [get_on_fb_value] and [get_off_fb_value], cpp:1409-1421, 1639-1651, 1861-1888, 2123-2135;
    [is_opened] and [is_closed] compare them with 0, cpp:372-380. *)
Definition on_fb (k : cls) (s : ist) : option bool :=
  let b := ib s in
  match k with
  | Mix => option_map (fun v => Z.testbit v (b_main k) && de_en b && stt b) (rd_out s)
  | Think => option_map (fun v => Z.testbit v (b_main k) && main b && stt b) (rd_out s)
  | Sorio => Some (fld b 24)
  | _ => Some (if 1 <? n_active b then false else y1 b && s2 b)
  end.
Definition off_fb (k : cls) (s : ist) : option bool :=
  let b := ib s in
  match k with
  | Mix => option_map (fun v => negb (Z.testbit v (b_main k)) && main b && stt b) (rd_out s)
  | Think => option_map (fun v => negb (Z.testbit v (b_main k)) && de_en b && stt b) (rd_out s)
  | Sorio => Some (negb (fld b 24))
  | _ => Some (negb (y1 b) && negb (y2 b) && negb (y3 b) && s1 b && s4 b)
  end.

(** The cycle ([Eval]), orders of the program ([On], [Instant], [Set_], ignored in manual mode: device.cpp:319-341; [Seat]),
    commands of an operator ([Cmd], [Man], [Blink], base.cpp:321-353), readings of the
    state. *)
Inductive order := Eval | On | Instant | Set_ (n : Z) | Seat (upper : bool) | Cmd (n : Z) | Man (n : Z) | Blink (on : bool) | Poll.
Definition step (w : Z) (c : conf) (s : ist) (x : order * env) : option ist :=
  let k := kind c in
  let t := now (snd x) in
  let auto r := if man s then Some s else r in
  match fst x with
  | Eval => evaluate_io c (data (snd x)) s
  | On => auto (direct_on k t s)
  | Instant => auto (direct_off k t s)
  | Set_ n => auto (direct_set_state k t n s)
  | Seat u => open_seat k u t s
  | Cmd n => direct_set_state k t n s
  | Man n => Some (if n =? 0 then wman false s else if n =? 1 then wman true s else s)
  | Blink b => set_blink k b s
  | Poll => match get_state w k (snd x) s with None => None | Some _ => Some s end
  end.
Fixpoint run (w : Z) (c : conf) (s : ist) (l : list (order * env)) : option ist :=
  match l with
  | [] => Some s
  | x :: r => match step w c s x with None => None | Some s => run w c s r end
  end.
