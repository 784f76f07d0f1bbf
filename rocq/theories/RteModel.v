(** The routes of a washing station: what the steps of the washing sequencer order the valves to do.

    Source: /repo/PAC/common/cip_tech_def.cpp (below cpp), cip_tech_def.h (below h).

    Simplifications:
    - a valve is in the state last ordered ([on], [off], [instant_off]); delays, manual mode and errors
      of valves are left out, as are pumps, regulators, the steam valve (V13), the washing heads and
      drains of the tanks in the cleaning of the station (VWMG, ..., VSDREN) and the signals to the
      object;
    - the step that a project supplies in Lua (300) and other functions in Lua order nothing;
    - readings of sensors, settings, the result of comparing the concentration with its limits, and
      whether a step ends before its valves are looked at are inputs of each call. *)
From Coq Require Import ZArith List Bool Lia.
From Verif Require Import TimeModel CipModel.
Import ListNotations.
Open Scope Z_scope.

(** V00: water into the buffer tank; V01: out of the buffer tank; V02, V03, V04: out of the tanks of
    acid, alkali and water; V05: to the object; V06: past the object; V07, V08, V09: return into the
    tanks of water, acid and alkali; V10: into the buffer tank; V11: into the drain; V12: into the
    neutralisation. *)
Inductive vlv := V00 | V01 | V02 | V03 | V04 | V05 | V06 | V07 | V08 | V09 | V10 | V11 | V12.
Definition code (x : vlv) : nat :=
  match x with V00 => 0 | V01 => 1 | V02 => 2 | V03 => 3 | V04 => 4 | V05 => 5 | V06 => 6 | V07 => 7
             | V08 => 8 | V09 => 9 | V10 => 10 | V11 => 11 | V12 => 12 end.
Definition veqb (x y : vlv) : bool := Nat.eqb (code x) (code y).
Definition order := (vlv * bool)%type.
Definition on (x : vlv) : order := (x, true).
Definition off (x : vlv) : order := (x, false).
Definition valves := vlv -> bool.
Definition obey (vs : valves) (c : order) : valves := fun y => if veqb y (fst c) then snd c else vs y.
Definition apply (cs : list order) (vs : valves) : valves := fold_left obey cs vs.

(** h:187-209, as far as used for valves; [No] is -1 (or a drain). *)
Inductive place := TankW | TankS | TankK | Water | Drain | Neutral | HeadW | HeadS | HeadK | No.

(** Inputs of a call: the clock; sensors of the buffer tank (LL, LM, LH) and of the tanks (upper: LWH,
    LKH, LSH; lower: LKL, LSL); [waterTankIsEmpty]; whether the concentration of the returned solution
    reaches the limits for the tank ([P_CMIN_S], [P_CMIN_K]) and for the drain ([P_CKANAL_S], [_K]);
    settings: the tank of water is used, the program has acid, final rinsing into the tank of water,
    the object is a line, no neutralisation, [scoldvalves], circulation through the tanks, feeding
    during circulation (alkali, acid, water), circulation without stopping the pump, the most feedings
    ([circ_podp_max_count]); the line is in the error [ERR_CIP_OBJECT] or [ERR_OS]; [CheckErr] reports
    an error; the step ends before its valves are looked at. *)
Record env := { now : Z; ll : bool; lm : bool; lh : bool; lwh : bool; lkh : bool; lsh : bool; lkl : bool; lsl : bool;
  wempty : bool; rich : bool; some : bool;
  tankw : bool; progk : bool; rinse : bool; isline : bool; noneutro : bool; scold : bool; circs : bool; circk : bool;
  feeds : bool; feedk : bool; feedw : bool; nostop : bool; most : Z;
  keep : bool; err : bool; quit : bool }.
(** [tankfull], [tankfulltimer], [tankempty], [tankemptytimer], [sort_delay], [forcesortrr],
    [circ_return_timer], [circ_podp_count], [circ_was_feed], [circ_max_timer], h:562-566, 693-703. *)
Record mem := { full : bool; full_t : Z; empty : bool; empty_t : Z; sdelay : Z; force : bool;
                ret_t : Z; count : Z; fed : bool; fed_t : Z }.
Definition set_full (a : bool) (t : Z) (m : mem) : mem := {| full := a; full_t := t; empty := empty m; empty_t := empty_t m; sdelay := sdelay m; force := force m; ret_t := ret_t m; count := count m; fed := fed m; fed_t := fed_t m |}.
Definition set_empty (a : bool) (t : Z) (m : mem) : mem := {| full := full m; full_t := full_t m; empty := a; empty_t := t; sdelay := sdelay m; force := force m; ret_t := ret_t m; count := count m; fed := fed m; fed_t := fed_t m |}.
Definition set_sort (t : Z) (f : bool) (m : mem) : mem := {| full := full m; full_t := full_t m; empty := empty m; empty_t := empty_t m; sdelay := t; force := f; ret_t := ret_t m; count := count m; fed := fed m; fed_t := fed_t m |}.
Definition set_ret (t : Z) (m : mem) : mem := {| full := full m; full_t := full_t m; empty := empty m; empty_t := empty_t m; sdelay := sdelay m; force := force m; ret_t := t; count := count m; fed := fed m; fed_t := fed_t m |}.
Definition set_feed (n : Z) (f : bool) (t : Z) (m : mem) : mem := {| full := full m; full_t := full_t m; empty := empty m; empty_t := empty_t m; sdelay := sdelay m; force := force m; ret_t := ret_t m; count := n; fed := f; fed_t := t |}.

Section Clock.
(** The width of [unsigned long]. *)
Context (w : Z).

(** [_StopDev], cpp:1524-1606: in the errors [ERR_CIP_OBJECT], [ERR_OS] the return valves stay. *)
Definition halt (kp : bool) : list order :=
  [off V01; off V03; off V02; off V04; off V05; off V06]
  ++ (if kp then [] else [off V07; off V08; off V09; off V10; off V11; off V12]) ++ [off V00].

(** The return valves for a place, e.g. cpp:4165-4213. *)
Definition back (x : vlv) : list order :=
  map (fun y => (y, veqb y x)) [V07; V08; V09; V10; V11; V12].
(** The source of [_InitToObject] and [_InitFromObject], cpp:4133-4164, 4346-4378. *)
Definition take (from : place) : list order :=
  match from with
  | Water => [on V00; on V01; off V02; off V03; off V04]
  | TankW => [off V00; off V01; off V02; off V03; on V04]
  | TankK => [off V00; off V01; on V02; off V03; off V04]
  | TankS => [off V00; off V01; off V02; on V03; off V04]
  | _ => []
  end.
(** The destination, cpp:4380-4416 ([_InitFromObject]), 4523-4559 ([_InitOporCIP]), 4656-4690
    ([_InitOporCirc]). *)
Definition give (to : place) : list order :=
  match to with
  | Drain => back V11 | TankW => back V07 | TankK => back V08 | TankS => back V09 | _ => []
  end.
(** [_InitToObject], cpp:4117-4213: a full tank of water is passed by (4175-4194). *)
Definition init_to (e : env) (from to : place) : list order :=
  [on V05; off V06] ++ take from ++
  match to with TankW => if lwh e then back V11 else back V07 | _ => give to end.
(** [_InitFromObject], cpp:4335-4416. *)
Definition init_from (e : env) (from to : place) : list order := [on V05; off V06] ++ take from ++ give to.
(** [_InitOporCIP], cpp:4506-4559: nothing for a line. *)
Definition init_oporcip (e : env) (to : place) : list order :=
  if isline e then [] else [on V05; off V06; off V00; off V01; off V03; off V02; off V04] ++ give to.
(** [_InitFilCirc], cpp:4583-4631; [ret]: with the returned solution, otherwise with water. *)
Definition init_filcirc (e : env) (ret : bool) (n : Z) : list order :=
  [on V01; off V11; off V12]
  ++ (if ret then [off V00; on V10; off V07; off V08; off V09; on V05; off V06] else [on V00; off V10; on V11])
  ++ (if n =? 26 then [on V03] else if n =? 46 then [on V02] else []).
(** [_InitOporCirc], cpp:4643-4690. *)
Definition init_oporcirc (e : env) (to : place) : list order :=
  [off V11; off V00; on V01; off V03; off V02; off V04; on V05; off V06] ++ give to.
(** [_InitCirc], cpp:4740-4809; [what]: [TankS] for alkali, [TankK] for acid, [Water] otherwise. *)
Definition init_circ (e : env) (what : place) (n : Z) : list order :=
  (if (circs e && (n =? 28)) || (circk e && (n =? 48)) then [off V01; off V10] else [on V01; on V10])
  ++ [off V00; off V03; off V04; off V02; on V05; off V06; off V07; off V08; off V09; off V11; off V12]
  ++ match what with
     | TankS => if circs e then [on V03; on V09] else []
     | TankK => if circk e then [on V02; on V08] else []
     | _ => [] end.
(** [_InitDoseRR], cpp:5614-5635. *)
Definition init_dose (e : env) : list order :=
  halt (keep e) ++ [on V01; on V10; off V00; off V03; off V04; off V02; on V05; off V06; off V07; off V08; off V09; off V11; off V12].
(** [InitFilRR], [InitOpolRR], cpp:3614-3652, 3863-3895. *)
Definition init_filrr (t : place) : list order :=
  [off V05; on V06; on V00; on V01; off V02; off V03; off V04] ++ give t.
(** [InitCircRR], [InitCheckConc], [InitAddRR], cpp:3698-3729, 3752-3754, 3762-3801. *)
Definition init_circrr (t : place) : list order :=
  [off V05; on V06; off V00; off V01; off V04; off V07; off V10; off V11; off V12]
  ++ match t with
     | TankK => [on V02; off V03; on V08; off V09]
     | _ => [off V02; on V03; off V08; on V09] end.
(** [SCInitPumping], cpp:6072-6242. *)
Definition init_pump (e : env) (from to : place) : list order :=
  [off V05]
  ++ match from with
     | Water => [on V01; off V02; off V03; off V04]
     | TankS => [off V01; off V02; on V03; off V04]
     | TankK => [off V01; on V02; off V03; off V04]
     | TankW => [off V01; off V02; off V03; on V04]
     | _ => [off V01; off V02; off V03; off V04] end
  ++ match to with
     | Drain => on V06 :: back V11
     | Neutral => on V06 :: [off V07; off V08; off V09; off V10; off V11] ++ (if noneutro e then [on V11] else [on V12])
     | TankW => on V06 :: back V07
     | TankK => on V06 :: back V08
     | TankS => on V06 :: back V09
     | HeadW => [on V06; (V07, negb (scold e)); off V08; off V09; off V10; off V11; off V12]
     | HeadK => [on V06; off V07; (V08, negb (scold e)); off V09; off V10; off V11; off V12]
     | HeadS => [on V06; off V07; off V08; (V09, negb (scold e)); off V10; off V11; off V12]
     | _ => [off V06; off V07; off V08; off V09; off V10; off V11; off V12]
     end.

(** Source and destination with or without the tank of water, cpp:2289-2308, 2752-2771. *)
Definition tsrc (e : env) : place := if tankw e then TankW else Water.
Definition tdst (e : env) : place := if tankw e then TankW else Drain.
Definition media (e : env) : place := if tankw e && progk e then TankW else Water.
Definition rdst (e : env) : place := if rinse e then TankW else Drain.

(** [_InitStep], cpp:2310-2477. In step 555 ([_StopDev] at 2445) the line is never in one of the errors
    that keep the return valves. *)
Definition init_orders (e : env) (n : Z) : list order :=
  match n with
  | 0 => halt (keep e) ++ (if lm e then [] else [on V00])
  | 5 | 8 | 14 => init_to e (tsrc e) Drain
  | 6 | 9 | 23 | 43 | 79 => init_oporcip e Drain
  | 7 => init_from e (tsrc e) Drain
  | 10 | 13 | 26 | 46 => init_filcirc e true n
  | 11 | 66 | 77 => init_circ e Water n
  | 12 | 15 | 16 | 78 => init_oporcirc e Drain
  | 22 => init_to e TankS Drain
  | 24 => init_from e TankS Drain
  | 28 => init_circ e TankS n
  | 29 => init_oporcirc e TankS
  | 31 | 61 | 65 | 71 | 75 | 81 => init_filcirc e false n
  | 33 => init_to e (media e) TankS
  | 34 => init_oporcip e TankS
  | 35 => init_from e (media e) TankS
  | 37 => init_to e (media e) (tdst e)
  | 39 | 59 | 67 => init_oporcirc e (tdst e)
  | 40 | 60 | 63 | 73 => init_oporcip e (tdst e)
  | 42 => init_to e TankK Drain
  | 44 => init_from e TankK Drain
  | 48 => init_circ e TankK n
  | 49 => init_oporcirc e TankK
  | 53 => init_to e Water TankK
  | 54 => init_oporcip e TankK
  | 55 => init_from e Water TankK
  | 57 | 62 | 72 => init_to e Water (tdst e)
  | 64 | 74 => init_from e Water (tdst e)
  | 76 => init_dose e
  | 83 | 86 => init_to e Water (rdst e)
  | 84 | 91 => init_oporcip e (rdst e)
  | 85 => init_from e Water (rdst e)
  | 105 | 111 => init_filrr TankS
  | 106 | 108 | 109 => init_circrr TankS
  | 115 | 121 => init_filrr TankK
  | 116 | 118 | 119 => init_circrr TankK
  | 151 | 152 => init_pump e TankW Drain
  | 153 | 187 => init_pump e Water HeadW
  | 154 | 188 => init_pump e No No
  | 155 => init_pump e TankS TankS
  | 156 | 157 | 175 | 177 => init_pump e TankS HeadW
  | 160 => init_pump e Water TankS
  | 161 | 180 => init_pump e TankW HeadW
  | 162 => init_pump e TankK TankK
  | 163 | 164 => init_pump e TankK HeadS
  | 167 | 186 => init_pump e Water HeadK
  | 168 => init_pump e TankS HeadS
  | 169 | 170 => init_pump e TankW HeadK
  | 173 => init_pump e Water TankW
  | 174 => init_pump e TankK HeadK
  | 176 | 178 => init_pump e TankS Neutral
  | 179 | 185 => init_pump e Water HeadS
  | 181 | 182 => init_pump e TankK Neutral
  | 183 | 184 => init_pump e TankW Neutral
  | 555 => halt false ++ [on V11]
  | _ => []
  end.
(** What is reset at the beginning of a step, cpp:2246-2269; the feedings of a circulation,
    cpp:4725-4735. *)
Definition init_mem (e : env) (n : Z) (again : bool) (m : mem) : mem :=
  let m1 := set_sort (now e) true (set_empty false (now e) (set_full false (now e) m)) in
  if one_of n [11; 28; 48; 66; 77] then
    let m2 := if again then m1 else set_feed 0 false (fed_t m1) m1 in
    if fed m2 then set_feed (count m2 + 1) false (fed_t m2) m2 else m2
  else m1.

(** [SortRR], cpp:3431-3561, for the tank of alkali or acid. *)
Definition sort (e : env) (t : place) (forced : bool) (m : mem) : list order * mem :=
  if (get_delta_millisec w (now e) (sdelay m) <? 3000) && negb (force m) then ([], m)
  else
    let m1 := set_sort (now e) false m in
    let level := match t with TankS => lsh e | _ => lkh e end in
    let m2 := if level && negb forced then set_full true (now e) m1 else m1 in
    let m3 := if full m2 && (20000 <? get_delta_millisec w (now e) (full_t m2)) then set_full false (full_t m2) m2 else m2 in
    let tank := match t with TankS => V09 | _ => V08 end in
    let other := match t with TankS => V08 | _ => V09 end in
    ([off V07; off other]
     ++ (if rich e && negb (full m3) then [on tank; off V10; off V11; off V12]
         else if some e then [off tank; off V10; off V11; off V12] ++ (if noneutro e then [on V11] else [on V12])
         else [off tank; off V10; on V11; off V12]), m3).

(** The buffer tank is filled with water, e.g. cpp:4862-4863. *)
Definition refill (e : env) : list order := (if lm e then [] else [on V00]) ++ (if lh e then [off V00] else []).
(** Water from its tank or, while that is empty, from the buffer tank, cpp:4872-4905, 5119-5152. *)
Definition draw (e : env) (m : mem) : list order * mem :=
  let m1 := if wempty e then set_empty true (now e) m
            else if empty m && (60000 <? get_delta_millisec w (now e) (empty_t m)) then set_empty false (empty_t m) m else m in
  (if empty m1 then [off V04; on V01] ++ refill e else [on V04; off V00; off V01], m1).
(** The return into the tank of water or, while that is full, into the drain, cpp:4930-4963,
    5179-5212; [bypass]: never into the tank. *)
Definition return_w (e : env) (bypass : bool) (m : mem) : list order * mem :=
  let m1 := if lwh e then set_full true (now e) m else m in
  let m2 := if full m1 && (60000 <? get_delta_millisec w (now e) (full_t m1)) && negb (lwh e) then set_full false (full_t m1) m1 else m1 in
  ([off V08; off V09; off V10] ++ (if full m2 || bypass then [on V11; off V12; off V07] else [off V11; off V12; on V07]), m2).

(** [_ToObject], cpp:4833-4973: without alkali or acid the step ends with an error. *)
Definition is_w (p : place) : bool := match p with TankW => true | _ => false end.
Definition do_to (e : env) (from to : place) (m : mem) : list order * mem :=
  let a := match from with Water => (refill e, m) | TankW => draw e m | _ => ([], m) end in
  if match from with TankK => negb (lkl e) | TankS => negb (lsl e) | _ => false end then a
  else let b := match to with
                | TankW => return_w e (is_w from) (snd a)
                | TankK | TankS => sort e to false (snd a)
                | _ => ([], snd a) end in
       (fst a ++ fst b, snd b).
(** [_FromObject], cpp:5007-5225. *)
Definition do_from (e : env) (from to : place) (m : mem) : list order * mem :=
  if quit e then ([], m) else
  let a := match from with
           | Water => (refill e, m)
           | TankW => draw e m
           | TankK => if lkl e then sort e TankK false m else ([], m)
           | TankS => if lsl e then sort e TankS false m else ([], m)
           | _ => ([], m) end in
  if match from with TankK => negb (lkl e) | TankS => negb (lsl e) | _ => false end then a
  else let b := match to with
                | TankW => return_w e false (snd a)
                | TankK | TankS => sort e to false (snd a)
                | _ => ([], snd a) end in
       (fst a ++ fst b, snd b).
(** [_OporCIP], cpp:5227-5267. *)
Definition do_oporcip (e : env) (to : place) (m : mem) : list order * mem :=
  if isline e then ([], m) else
  match to with
  | TankW => ([off V08; off V09; off V10] ++ (if lwh e then [on V11; off V12; off V07] else [off V11; off V12; on V07]), m)
  | TankK | TankS => sort e to false m
  | _ => ([], m)
  end.
(** [_OporCirc], cpp:5578-5600. *)
Definition do_oporcirc (e : env) (to : place) (m : mem) : list order * mem :=
  match to with
  | TankW => (if lwh e then [off V07; on V11] else [on V07; off V11], m)
  | _ => ([], m)
  end.
(** The feeding in [_Circ], e.g. cpp:5396-5417: valve [x] is opened while the buffer tank is empty, at
    most [most] times, for a minute at most. *)
Definition feeding (e : env) (x : vlv) (m : mem) : list order * mem :=
  let start := negb (lm e) && negb (ll e) && negb (lh e) && (count m <? most e) in
  let m1 := if start then set_feed (count m) true (if fed m then fed_t m else now e) m else m in
  let stop := lm e || lh e || (fed m1 && (60000 <? get_delta_millisec w (now e) (fed_t m1))) in
  let m2 := if stop then set_feed (if fed m1 then count m1 + 1 else count m1) false (fed_t m1) m1 else m1 in
  ((if start then [on x] else []) ++ (if stop then [off x] else []), m2).
(** The return during circulation without stopping the pump, cpp:5418-5446, 5472-5500. *)
Definition circ_return (e : env) (tank : vlv) (m : mem) : list order * mem :=
  if negb (nostop e) then ([], m)
  else if lh e then
    if 1000 <? get_delta_millisec w (now e) (ret_t m) then (back tank, set_ret (now e) m) else ([], m)
  else (if lm e then [] else back V10, set_ret (now e) m).
(** [_Circ], cpp:5337-5528. *)
Definition do_circ (e : env) (what : place) (m : mem) : list order * mem :=
  match what with
  | TankK => let a := if feedk e then feeding e V02 m else ([], m) in
             let b := circ_return e V08 (snd a) in (off V06 :: fst a ++ fst b, snd b)
  | TankS => let a := if feeds e then feeding e V03 m else ([], m) in
             let b := circ_return e V09 (snd a) in (off V06 :: fst a ++ fst b, snd b)
  | _ => let a := if feedw e then feeding e V00 m else ([], m) in (off V06 :: fst a, snd a)
  end.
(** [FilRR], [OpolRR], cpp:3920-3961, 4101-4114. *)
Definition do_filrr (e : env) (m : mem) : list order * mem := (if quit e then [] else refill e, m).
Definition do_opolrr (e : env) (t : place) (m : mem) : list order * mem :=
  let a := sort e t true m in (fst a ++ (if quit e then [] else refill e), snd a).
(** [SCPumping], cpp:6445-6583. *)
Definition same (a b : place) : bool := match a, b with TankW, TankW | TankS, TankS | TankK, TankK => true | _, _ => false end.
Definition do_pump (e : env) (from to : place) (m : mem) : list order * mem :=
  let a := match from with
           | Water => (if ll e then [] else [on V00]) ++ (if lm e || lh e then [off V00] else [])
           | _ => [] end in
  let into x level t head :=
    if level && negb (same from t) then [off x; off V11] ++ (if noneutro e then [on V11] else [on V12])
    else [(x, negb (head && scold e)); off V11; off V12] in
  (a ++ match to with
        | TankW => into V07 (lwh e) TankW false | HeadW => into V07 (lwh e) TankW true
        | TankK => into V08 (lkh e) TankK false | HeadK => into V08 (lkh e) TankK true
        | TankS => into V09 (lsh e) TankS false | HeadS => into V09 (lsh e) TankS true
        | _ => [] end, m).

(** [_DoStep], cpp:2773-2926. *)
Definition do_orders (e : env) (n : Z) (m : mem) : list order * mem :=
  match n with
  | 5 | 8 | 14 => do_to e (tsrc e) Drain m
  | 6 | 9 | 23 | 43 | 79 => do_oporcip e Drain m
  | 7 => do_from e (tsrc e) Drain m
  | 11 | 66 | 77 => do_circ e Water m
  | 12 | 15 | 16 | 78 => do_oporcirc e Drain m
  | 22 => do_to e TankS Drain m
  | 24 => do_from e TankS Drain m
  | 28 => do_circ e TankS m
  | 29 => do_oporcirc e TankS m
  | 33 => do_to e (media e) TankS m
  | 34 => do_oporcip e TankS m
  | 35 => do_from e (media e) TankS m
  | 37 => do_to e (media e) (tdst e) m
  | 39 | 59 | 67 => do_oporcirc e (tdst e) m
  | 40 | 60 | 63 | 73 => do_oporcip e (tdst e) m
  | 42 => do_to e TankK Drain m
  | 44 => do_from e TankK Drain m
  | 48 => do_circ e TankK m
  | 49 => do_oporcirc e TankK m
  | 53 => do_to e Water TankK m
  | 54 => do_oporcip e TankK m
  | 55 => do_from e Water TankK m
  | 57 | 62 | 72 => do_to e Water (tdst e) m
  | 64 | 74 => do_from e Water (tdst e) m
  | 83 | 86 => do_to e Water (rdst e) m
  | 84 | 91 => do_oporcip e (rdst e) m
  | 85 => do_from e Water (rdst e) m
  | 105 | 115 => do_filrr e m
  | 111 => do_opolrr e TankS m
  | 121 => do_opolrr e TankK m
  | 151 | 152 => do_pump e TankW Drain m
  | 153 | 187 => do_pump e Water HeadW m
  | 154 | 188 => do_pump e No No m
  | 155 => do_pump e TankS TankS m
  | 156 | 157 | 175 | 176 => do_pump e TankS HeadW m
  | 160 => do_pump e Water TankS m
  | 161 | 180 => do_pump e TankW HeadW m
  | 162 => do_pump e TankK TankK m
  | 163 | 164 => do_pump e TankK HeadS m
  | 167 | 186 => do_pump e Water HeadK m
  | 168 => do_pump e TankS HeadS m
  | 169 | 170 => do_pump e TankW HeadK m
  | 173 => do_pump e Water TankW m
  | 174 => do_pump e TankK HeadK m
  | 179 | 185 => do_pump e Water HeadS m
  | 181 | 182 => do_pump e TankK Neutral m
  | 183 | 184 => do_pump e TankW Neutral m
  | _ => ([], m)
  end.

(** [circ_podp_max_count] from the number [P_PODP_CIRC], cpp:5681-5693: a [char], whose sign depends on
    the compiler ([sg]); [CIRC_DEFAULT_FEED_COUNT], h:121. *)
Definition feed_limit (sg : bool) (v : Z) : Z :=
  let k := Z.land (Z.shiftr v 12) 255 in
  let c := if sg && (128 <=? k) then k - 256 else k in
  if c =? 0 then 3 else c.

(** What the valves do when the sequencer of [CipModel] acts; an error found by [CheckErr] ends the
    evaluation of a step before its valves are looked at, cpp:2744-2750. *)
Record plant := { vs : valves; memo : mem; cur : Z }.
Definition react (p : plant) (x : act * env) : plant :=
  let e := snd x in
  match fst x with
  | Halt => {| vs := apply (halt (keep e)) (vs p); memo := memo p; cur := cur p |}
  | Init n again => {| vs := apply (init_orders e n) (vs p); memo := init_mem e n again (memo p); cur := n |}
  | Do n => if err e then p
            else let r := do_orders e n (memo p) in {| vs := apply (fst r) (vs p); memo := snd r; cur := cur p |}
  | _ => p
  end.
Definition react_all (p : plant) (xs : list (act * env)) : plant := fold_left react xs p.
(** Before the first washing: all valves are closed, the memory is arbitrary. *)
Definition plant0 (m : mem) : plant := {| vs := fun _ => false; memo := m; cur := 0 |}.
End Clock.
