(** Technological objects: switching operations, operator commands, evaluation.

    Source: /repo/PAC/common/tech_def.cpp and the part of operation_mngr.cpp
    that calls back into the object (lines 242-396).

    Simplifications:
    - results of Lua functions and of device and parameter checks are inputs
      ([inp]); a Lua function is assumed not to call back into the objects;
    - the table "restrictions" is constant ([restr]);
    - an object has as many operations as announced to its constructor;
    - error messages other than those of the automatic switch-on, and
      diagnostic printing, are left out. *)
From Coq Require Import ZArith List Bool Lia.
From Verif Require Import Base TimeModel OpModel OpSpec.
Import ListNotations.
Open Scope Z_scope.

(** Messages of operation.cpp:295-343. *)
Inductive msg := AutoOn (n : Z) | AutoRefused (n : Z) | AutoGivenUp (n : Z).

(** The Lua table restrictions[ object ][ operation ]: sub-tables 1 (operations
    of the same object), 2 (of other objects) and 3 (operations blocked after
    this one is switched off), lines 462-545, 597-712. *)
Record restr := {
  rin : Z -> Z -> Z -> bool;
  rout : Z -> Z -> Z -> Z -> bool;
  rnext : Z -> Z -> Z -> bool }.

(** Inputs of a call; the arguments are object and operation numbers.
    [ienv]: inputs of the operation; [chk_pause], [chk_stop], [chk_start],
    [rstep], [chk_off]: results of the Lua functions of lines 416-456, 637-641;
    [chk_on]: result of the user function of lines 555-572; [chk_run]: result of
    [check_on_run_state]; [deverr]: result of [check_devices_on_run_state] is
    not 0; [checked]: [is_check_mode] is 1; [restricting]:
    [P_RESTRICTIONS_MODE] is 0; [autopause]: [P_AUTO_PAUSE_OPER_ON_DEV_ERR] is
    0; [badpars]: result of [check_steps_params] is not 0; [goto_ k n s]: result
    of [is_goto_next_state] in state [s]; [warn_time], [wait_time]:
    [P_AUTO_OPERATION_WARN_TIME], [P_AUTO_OPERATION_WAIT_TIME]. *)
Record inp := {
  ienv : Z -> Z -> env;
  chk_pause : Z -> Z -> Z;
  chk_stop : Z -> Z -> Z;
  chk_start : Z -> Z -> Z;
  rstep : Z -> Z -> Z;
  chk_off : Z -> Z -> Z;
  chk_on : Z -> Z -> Z;
  chk_run : Z -> Z -> Z;
  deverr : Z -> Z -> bool;
  checked : Z -> Z -> bool;
  restricting : bool;
  autopause : bool;
  badpars : Z -> Z -> bool;
  goto_ : Z -> Z -> Z -> option Z;
  warn_time : Z;
  wait_time : Z;
  exec_cmd : Z -> Z -> Z }.

(** tech_def.h:330-349 and the fields of the operations h:876-883
    ([is_first_goto_next_state], [was_fail], [start_warn], [start_wait]). *)
Record tobj := {
  t_n : Z;
  t_ops : Z -> oper;
  t_word : Z -> Z;
  t_avail : Z -> Z;
  t_cmd : Z;
  t_first : Z -> bool;
  t_fail : Z -> bool;
  t_warn : Z -> Z;
  t_wait : Z -> Z;
  t_msgs : list msg }.

(** All objects; numbers from 1. *)
Record plant := { p_n : Z; p_obj : Z -> tobj }.

Definition putb (f : Z -> bool) (k : Z) (v : bool) : Z -> bool := fun x => if x =? k then v else f x.
Definition set_op (n : Z) (o : oper) (t : tobj) : tobj :=
  {| t_n := t_n t; t_ops := fun x => if x =? n then o else t_ops t x; t_word := t_word t; t_avail := t_avail t;
     t_cmd := t_cmd t; t_first := t_first t; t_fail := t_fail t; t_warn := t_warn t; t_wait := t_wait t; t_msgs := t_msgs t |}.
Definition set_word (w : Z -> Z) (t : tobj) : tobj :=
  {| t_n := t_n t; t_ops := t_ops t; t_word := w; t_avail := t_avail t;
     t_cmd := t_cmd t; t_first := t_first t; t_fail := t_fail t; t_warn := t_warn t; t_wait := t_wait t; t_msgs := t_msgs t |}.
Definition set_avail (a : Z -> Z) (t : tobj) : tobj :=
  {| t_n := t_n t; t_ops := t_ops t; t_word := t_word t; t_avail := a;
     t_cmd := t_cmd t; t_first := t_first t; t_fail := t_fail t; t_warn := t_warn t; t_wait := t_wait t; t_msgs := t_msgs t |}.
Definition set_cmdv (c : Z) (t : tobj) : tobj :=
  {| t_n := t_n t; t_ops := t_ops t; t_word := t_word t; t_avail := t_avail t;
     t_cmd := c; t_first := t_first t; t_fail := t_fail t; t_warn := t_warn t; t_wait := t_wait t; t_msgs := t_msgs t |}.
Definition set_auto (n : Z) (fi fa : bool) (wa wt : Z) (m : list msg) (t : tobj) : tobj :=
  {| t_n := t_n t; t_ops := t_ops t; t_word := t_word t; t_avail := t_avail t; t_cmd := t_cmd t;
     t_first := putb (t_first t) n fi; t_fail := putb (t_fail t) n fa;
     t_warn := put (t_warn t) n wa; t_wait := put (t_wait t) n wt; t_msgs := m ++ t_msgs t |}.
Definition say (n : Z) (m : list msg) (t : tobj) : tobj :=
  set_auto n (t_first t n) (t_fail t n) (t_warn t n) (t_wait t n) m t.

Definition put_obj (k : Z) (t : tobj) (p : plant) : plant :=
  {| p_n := p_n p; p_obj := fun x => if x =? k then t else p_obj p x |}.

(** Lines 306-312. *)
Definition get_mode (t : tobj) (n : Z) : Z :=
  if (t_n t <? n) || (n =? 0) then 0
  else Z.land (Z.shiftr (t_word t ((n - 1) / 32)) ((n - 1) mod 32)) 1.
(** [state[ i / 32 ] | 1UL << i % 32] and [& ~( 1UL << i % 32 )]. *)
Definition bit_on (n : Z) (t : tobj) : tobj :=
  let w := (n - 1) / 32 in
  set_word (put (t_word t) w (u32 (Z.lor (t_word t w) (Z.shiftl 1 ((n - 1) mod 32))))) t.
Definition bit_off (n : Z) (t : tobj) : tobj :=
  let w := (n - 1) / 32 in
  set_word (put (t_word t) w (u32 (Z.land (t_word t w) (Z.lnot (Z.shiftl 1 ((n - 1) mod 32)))))) t.

Fixpoint first_in (f : Z -> bool) (l : list Z) : option Z :=
  match l with [] => None | i :: r => if f i then Some i else first_in f r end.
Definition upto (n : Z) : list Z := map Z.of_nat (seq 1 (Z.to_nat n)).

Section Tech.
  Context (R : restr) (i : inp).

  (** Lines 597-635: the operations blocked by operation [j]. *)
  Definition check_availability (k j m : Z) (a : Z -> Z) : Z -> Z :=
    fun x => if (1 <=? x) && (x <=? m) && negb (x =? j) && rin R k x j then u32 (a x + 1) else a x.
  (** Lines 582-594. *)
  Definition init_availability (k n : Z) (t : tobj) : tobj :=
    set_avail (check_availability k n (t_n t)
      (fold_left (fun a j => if get_mode t j =? 1 then check_availability k j (t_n t) a else a)
         (upto (t_n t)) (fun _ => 0))) t.
  (** Lines 650-709. *)
  Definition final_availability (k n : Z) (t : tobj) : tobj :=
    set_avail (fun x =>
      let a := if (1 <=? x) && (x <=? t_n t) && negb (x =? n) && rin R k x n then u32 (t_avail t x - 1) else t_avail t x in
      if (1 <=? x) && (x <=? t_n t) && rnext R k n x then u32 (a + 1) else a) t.

  (** The case "off" of [set_mode], lines 156-201, also reached from
      [off_mode] (operation_mngr.h:968). *)
  Definition mode_off (k n : Z) (t : tobj) : tobj * Z :=
    if get_mode t n =? 0 then (t, 1)
    else if chk_off i k n <=? 0 then
      (final_availability k n (set_op n (op_finalize (ienv i k n) (t_ops t n)) (bit_off n t)), chk_off i k n)
    else (t, chk_off i k n + 100).

  (** A call of an operation; a request to be switched off is carried out. *)
  Definition act_op (k n : Z) (f : env -> oper -> oper * bool) (t : tobj) : tobj :=
    let r := f (ienv i k n) (t_ops t n) in
    let t1 := set_op n (fst r) t in
    if snd r then fst (mode_off k n t1) else t1.

  (** Lines 458-575. *)
  Definition check_on_mode (k n : Z) (p : plant) : Z :=
    let t := p_obj p k in
    let inside := first_in (fun x => rin R k n x && (get_mode t x =? 1)) (upto (t_n t)) in
    let outside := first_in (fun y => match first_in (fun x => rout R k n y x && (get_mode (p_obj p y) x =? 1))
                                              (upto (t_n (p_obj p y))) with Some _ => true | None => false end) (upto (p_n p)) in
    let inner y := match first_in (fun x => rout R k n y x && (get_mode (p_obj p y) x =? 1)) (upto (t_n (p_obj p y))) with
                   | Some x => x | None => 0 end in
    match (if restricting i then inside else None) with
    | Some x => 1000 + x
    | None =>
        match (if restricting i then outside else None) with
        | Some y => 10000 + inner y
        | None => if chk_run i k n =? 0 then chk_on i k n else 1000 + chk_run i k n
        end
    end.

  (** Lines 96-304. *)
  Definition set_mode (k n newm : Z) (p : plant) : plant * Z :=
    let t := p_obj p k in
    if n =? 0 then (p, 4)
    else if t_n t <? n then (p, 3)
    else if newm =? PAUSE then
      if chk_pause i k n =? 0 then (put_obj k (act_op k n op_pause (bit_on n t)) p, 0)
      else (p, chk_pause i k n + 200)
    else if newm =? STOP then
      if chk_stop i k n =? 0 then (put_obj k (act_op k n op_stop (bit_on n t)) p, 0)
      else (p, chk_stop i k n + 300)
    else if newm =? 0 then let r := mode_off k n t in (put_obj k (fst r) p, snd r)
    else if get_mode t n =? 1 then
      if cur (t_ops t n) =? RUN then (p, 1)
      else if chk_start i k n =? 0 then (put_obj k (act_op k n (fun e => op_start e (rstep i k n)) t) p, 0)
      else (p, chk_start i k n + 400)
    else if deverr i k n && checked i k n then (p, n + 1000)
    else
      let c := check_on_mode k n p in
      if c =? 0 then
        let t1 := act_op k n (fun e o => op_start e (run_step o) o) t in
        (put_obj k (bit_on n (init_availability k n t1)) p, 0)
      else (p, c + 100).

  (** Lines 1428-1446. *)
  Definition set_extra_step (k n step : Z) (on : bool) (p : plant) : plant * Z :=
    let t := p_obj p k in
    if (t_n t <? n) || (n =? 0) then (p, 1)
    else (put_obj k (set_op n (if on then op_on_extra (ienv i k n) step (t_ops t n) else op_off_extra step (t_ops t n)) t) p, 0).

  (** Lines 969-1051: property "CMD"; [val] is the command number
      [( int ) val]. *)
  Definition set_cmd (k val : Z) (p : plant) : plant * Z :=
    let t := p_obj p k in
    let m := u32 val in
    let with_cmd c p := put_obj k (set_cmdv c (p_obj p k)) p in
    let on_off mode ns :=
      if t_n t + 1 <? mode then (with_cmd (exec_cmd i k mode) p, 0)
      else let r := set_mode k mode ns p in
           (with_cmd (if snd r =? 0 then val else snd r) (fst r), 0) in
    if val =? 0 then (with_cmd 0 p, 0)
    else if (200000 <=? m) && (m <? 300000) then set_extra_step k (m / 100 - 2000) (m mod 100) true p
    else if (300000 <=? m) && (m <? 400000) then set_extra_step k (m / 100 - 3000) (m mod 100) false p
    else if (1000 <=? m) && (m <? 2000) then on_off (m - 1000) 1
    else if (2000 <=? m) && (m <? 3000) then on_off (m - 2000) 0
    else if (100000 <=? m) && (m <? 200000) then set_mode k (m / 100 - 1000) (m mod 100) (with_cmd val p)
    else (p, 1).

  (** Lines 1397-1421. *)
  Definition check_operation_on (k n : Z) (p : plant) : Z :=
    if deverr i k n && checked i k n then n + 1000
    else let c := check_on_mode k n p in if c =? 0 then 0 else c + 100.

  (** operation_mngr.cpp:295-343. *)
  Definition auto_switch_on (k n : Z) (p : plant) : plant :=
    let t := p_obj p k in
    let tm := now (ienv i k n) in
    if t_fail t n then p
    else if t_first t n then
      let r := set_mode k n RUN p in
      let t1 := p_obj (fst r) k in
      if snd r =? 0 then put_obj k (say n [AutoOn n] t1) (fst r)
      else put_obj k (set_auto n false (t_fail t1 n) tm tm [AutoRefused n] t1) (fst r)
    else if check_operation_on k n p =? 0 then
      fst (set_mode k n RUN (put_obj k (say n [AutoOn n] t) p))
    else
      let t1 := if warn_time i <? get_delta_millisec 32 tm (t_warn t n)
                then set_auto n (t_first t n) (t_fail t n) tm (t_wait t n) [AutoRefused n] t else t in
      let t2 := if wait_time i <? get_delta_millisec 32 tm (t_wait t1 n)
                then set_auto n (t_first t1 n) true (t_warn t1 n) (t_wait t1 n) [AutoGivenUp n] t1 else t1 in
      put_obj k t2 p.

  (** operation_mngr.cpp:345-396. *)
  Definition from_run (k n nx : Z) (p : plant) : plant :=
    if (nx =? STOP) || (nx =? PAUSE) then fst (set_mode k n nx p) else p.
  Definition default_next (k n nx def : Z) (p : plant) : plant :=
    if nx =? STOP then fst (set_mode k n STOP p)
    else if nx =? def then fst (set_mode k n def p) else p.

  (** operation_mngr.cpp:242-293. *)
  Definition op_evaluate (k n : Z) (p0 : plant) : plant :=
    let p := put_obj k (act_op k n op_evaluate_state (p_obj p0 k)) p0 in
    let t := p_obj p k in
    let s := cur (t_ops t n) in
    match goto_ i k n s with
    | None => put_obj k (set_auto n true false (t_warn t n) (t_wait t n) [] t) p
    | Some nx =>
        if s =? IDLE then auto_switch_on k n p
        else if s =? RUN then from_run k n nx p
        else if (s =? STARTING) || (s =? UNPAUSING) then default_next k n nx RUN p
        else if s =? PAUSING then default_next k n nx PAUSE p
        else if s =? STOPPING then fst (set_mode k n STOP p)
        else p
    end.

  Definition is_overrun (x : overrun) : bool := match x with NoOverrun => false | _ => true end.

  (** One operation in tech_object::evaluate, lines 330-377; [pause] is called
      directly, without [set_mode]. *)
  Definition eval_one (k n : Z) (p0 : plant) : plant :=
    let p := op_evaluate k n p0 in
    let t := p_obj p k in
    let t1 := if autopause i && (cur (t_ops t n) =? RUN) && deverr i k n && checked i k n
              then act_op k n op_pause t else t in
    let t2 :=
      if cur (t_ops t1 n) =? RUN then
        let t' := if badpars i k n then act_op k n op_pause t1 else t1 in
        if is_overrun (check_max_step_time (conf (t_ops t' n) RUN) (ienv i k n) (sts (t_ops t' n) RUN))
        then act_op k n op_pause t' else t'
      else t1 in
    put_obj k t2 p.
  Definition evaluate (k : Z) (p : plant) : plant := fold_left (fun p n => eval_one k n p) (upto (t_n (p_obj p k))) p.
End Tech.

(** A fresh object with [m] operations (lines 16-58) and a plant of them. *)
Definition new_tobj (m : Z) (cf : Z -> Z -> sconf) : tobj :=
  {| t_n := m; t_ops := fun n => new_oper n (cf n); t_word := fun _ => 0; t_avail := fun _ => 0; t_cmd := 0;
     t_first := fun _ => true; t_fail := fun _ => false; t_warn := fun _ => 0; t_wait := fun _ => 0; t_msgs := [] |}.
Definition new_plant (n : Z) (ms : Z -> Z) (cf : Z -> Z -> Z -> sconf) : plant :=
  {| p_n := n; p_obj := fun k => new_tobj (ms k) (cf k) |}.
