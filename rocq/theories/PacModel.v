(** The service record of the controller: running time, restrictions mode,
    service commands for I/O couplers.
    Source: /repo/PAC/common/PAC_info.{h,cpp}. *)
From Coq Require Import ZArith QArith List Bool.
From Verif Require Import Base TimeModel ErrModel.
Import ListNotations.
Open Scope Z_scope.

(** PAC_info.cpp:19 [MSEC_IN_DAY]. *)
Definition MSEC_IN_DAY : Z := 24 * 60 * 60 * 1000.

(** * Running time *)

(** PAC_info.h: [up_days], [up_hours], [up_mins], [up_secs], [up_msec],
    [last_check_time], all [u_int_4].  The text [up_time_str] (cpp:65-67) is
    the first four printed in decimal and is not kept apart. *)
Record uptime := {
  up_days : Z; up_hours : Z; up_mins : Z; up_secs : Z; up_msec : Z; up_last : Z }.

(** PAC_info.cpp:23-36 constructor at true time [t]: the reading is an
    [unsigned long] of [w] bits stored in 32 bits. *)
Definition up_init (w t : Z) : uptime :=
  {| up_days := 0; up_hours := 0; up_mins := 0; up_secs := 0; up_msec := 0;
     up_last := u32 (clock w t) |}.

(** PAC_info.cpp:52-69, the part of [eval] about the running time.  The clock
    is read three times, at true times [a] (line 52), [b] (line 54) and [c]
    (line 60). *)
Definition up_eval (w : Z) (u : uptime) (r : Z * Z * Z) : uptime :=
  let '(a, b, c) := r in
  if get_delta_millisec w (clock w a) (up_last u) >? 1000 then
    let m := u32 (up_msec u + get_delta_millisec w (clock w b) (up_last u)) in
    let d := if m >=? MSEC_IN_DAY then u32 (up_days u + 1) else up_days u in
    let m' := if m >=? MSEC_IN_DAY then m mod MSEC_IN_DAY else m in
    {| up_days := d;
       up_hours := m' / (1000 * 60 * 60);
       up_mins := (m' / (1000 * 60)) mod 60;
       up_secs := (m' / 1000) mod 60;
       up_msec := m';
       up_last := u32 (clock w c) |}
  else u.

Definition up_run (w t0 : Z) (h : list (Z * Z * Z)) : uptime :=
  fold_left (up_eval w) h (up_init w t0).

(** * Restrictions mode *)

(** The parameters [P_RESTRICTIONS_MODE] and [P_RESTRICTIONS_MANUAL_TIME] in
    memory and in the non-volatile storage, and [restrictions_set_to_off_time].
    The storage itself is modelled in ParamModel.v; here a saved value is the
    value found at the next start. *)
Record restr := {
  rs_mode : Z; rs_time : Z; rs_saved_mode : Z; rs_saved_time : Z; rs_off : Z }.

(** The cast of a [double] to [u_int_4], PAC_info.cpp:263, 278: toward zero,
    undefined outside the range (NaN and infinities are not values here). *)
Definition to_u32 (v : Q) : option Z :=
  let n := Z.quot (Qnum v) (Zpos (Qden v)) in
  if (0 <=? n) && (n <? 2 ^ 32) then Some n else None.

(** What reaches the record: a start of the controller, the two commands at
    true time [t], a reset of the parameters, a work cycle whose reading for
    the restrictions (line 45) is taken at true time [t]. *)
Inductive rev_t :=
| RBoot
| RMode (v : Q) (t : Z)
| RTime (v : Q)
| RReset
| REval (t : Z).

(** PAC_info.cpp:72-95 [reset_params] (first start or command): defaults 0 and
    2 minutes, saved; [restrictions_set_to_off_time] is not touched. *)
Definition restr_reset (r : restr) : restr :=
  {| rs_mode := 0; rs_time := 2 * 60 * 1000; rs_saved_mode := 0;
     rs_saved_time := 2 * 60 * 1000; rs_off := rs_off r |}.

Definition restr_init : restr :=
  restr_reset {| rs_mode := 0; rs_time := 0; rs_saved_mode := 0; rs_saved_time := 0;
                 rs_off := 0 |}.

(** PAC_info.cpp:44-50, [eval]: the first statement.  The assignment at line 48
    writes the memory, not the storage. *)
Definition restr_eval (w : Z) (r : restr) (t : Z) : restr :=
  if negb (rs_off r =? 0) &&
     (get_delta_millisec w (clock w t) (rs_off r) >? rs_time r)
  then {| rs_mode := 0; rs_time := rs_time r; rs_saved_mode := rs_saved_mode r;
          rs_saved_time := rs_saved_time r; rs_off := 0 |}
  else r.

(** PAC_info.cpp:261-275, [set_cmd( "P_RESTRICTIONS_MODE", 0, val )]. *)
Definition restr_set_mode (w : Z) (r : restr) (v : Q) (t : Z) : option restr :=
  match to_u32 v with
  | None => None
  | Some n =>
      Some {| rs_mode := n; rs_time := rs_time r; rs_saved_mode := n;
              rs_saved_time := rs_saved_time r;
              rs_off := if Qeq_bool v 2 then u32 (clock w t) else 0 |}
  end.

(** PAC_info.cpp:276-280, [set_cmd( "P_RESTRICTIONS_MANUAL_TIME", 0, val )]. *)
Definition restr_set_time (r : restr) (v : Q) : option restr :=
  match to_u32 v with
  | None => None
  | Some n =>
      Some {| rs_mode := rs_mode r; rs_time := n; rs_saved_mode := rs_saved_mode r;
              rs_saved_time := n; rs_off := rs_off r |}
  end.

(** A start: PAC_info.cpp:23-36 constructor, parameters read from the storage. *)
Definition restr_boot (r : restr) : restr :=
  {| rs_mode := rs_saved_mode r; rs_time := rs_saved_time r;
     rs_saved_mode := rs_saved_mode r; rs_saved_time := rs_saved_time r; rs_off := 0 |}.

Definition restr_step (w : Z) (r : restr) (e : rev_t) : option restr :=
  match e with
  | RBoot => Some (restr_boot r)
  | RMode v t => restr_set_mode w r v t
  | RTime v => restr_set_time r v
  | RReset => Some (restr_reset r)
  | REval t => Some (restr_eval w r t)
  end.

Fixpoint restr_run (w : Z) (r : restr) (h : list rev_t) : option restr :=
  match h with
  | [] => Some r
  | e :: h' => match restr_step w r e with None => None | Some r' => restr_run w r' h' end
  end.

(** tech_def.cpp:462: the restrictions are asked only in mode 0. *)
Definition restr_checked (r : restr) : bool := rs_mode r =? 0.

(** * Couplers taken in and out of service *)

(** bus_coupler_io.h [io_node]: [number], [is_active], [is_set_err], [state]
    (0 = [ST_NO_CONNECT]). *)
Record snode := { sn_number : Z; sn_active : bool; sn_err : bool; sn_state : Z }.

(** PAC_err.h:53-71 [AC_NO_CONNECTION], [AC_SERVICE], [AS_IO_COUPLER]. *)
Definition AC_NO_CONNECTION : Z := 1.
Definition AC_SERVICE : Z := 5.
Definition AS_IO_COUPLER : Z := 1.

Fixpoint upd_node (l : list snode) (i : nat) (n : snode) : list snode :=
  match l, i with
  | [], _ => []
  | _ :: r, O => n :: r
  | x :: r, S j => x :: upd_node r j n
  end.

(** PAC_info.cpp:288-329, [set_cmd( "NODEENABLED", idx, val )]; [idx] is an
    [u_int], [get_node] (bus_coupler_io.cpp:1119-1122) does not check its
    argument: index 0 reads [nodes[ -1 ]], [None] here.  [disconnect] closes
    the socket and puts the state to [ST_NO_CONNECT]. *)
Definition node_enabled (ns : list snode) (m : crit_mgr) (idx : nat) (val : Q)
  : option (list snode * crit_mgr) :=
  if (idx <=? length ns)%nat then
    match idx with
    | O => None
    | S i =>
      match nth_error ns i with
      | None => None
      | Some n =>
          let num := sn_number n in
          if Qeq_bool val 1 then
            Some (upd_node ns i {| sn_number := num; sn_active := true; sn_err := sn_err n;
                                   sn_state := sn_state n |},
                  reset_global_error m AC_SERVICE AS_IO_COUPLER num)
          else if Qeq_bool val 0 then
            Some (upd_node ns i {| sn_number := num; sn_active := false; sn_err := false;
                                   sn_state := if sn_active n then 0 else sn_state n |},
                  reset_global_error (set_global_error m AC_SERVICE AS_IO_COUPLER num)
                    AC_NO_CONNECTION AS_IO_COUPLER num)
          else if Qeq_bool val 100 then
            Some (upd_node ns i {| sn_number := num; sn_active := sn_active n;
                                   sn_err := false; sn_state := sn_state n |},
                  reset_global_error (reset_global_error m AC_SERVICE AS_IO_COUPLER num)
                    AC_NO_CONNECTION AS_IO_COUPLER num)
          else Some (ns, m)
      end
    end
  else Some (ns, m).

(** uni_bus_coupler_io.cpp:512-533, the start of [e_communicate]: the check of
    the connection made each time an active coupler is polled; [silent] tells
    whether the coupler has not answered for [C_MAX_WAIT_TIME] (the clock side
    is in IoModel.v).  A coupler out of service is not polled (lines 250, 374,
    664, 785). *)
Definition node_poll (ns : list snode) (m : crit_mgr) (i : nat) (silent : bool)
  : list snode * crit_mgr :=
  match nth_error ns i with
  | None => (ns, m)
  | Some n =>
      let num := sn_number n in
      let put b := upd_node ns i {| sn_number := num; sn_active := sn_active n;
                                    sn_err := b; sn_state := sn_state n |} in
      if negb (sn_active n) then (ns, m)
      else if silent then
        if sn_err n then (ns, m)
        else (put true, set_global_error m AC_NO_CONNECTION AS_IO_COUPLER num)
      else if sn_err n
      then (put false, reset_global_error m AC_NO_CONNECTION AS_IO_COUPLER num)
      else (ns, m)
  end.

Inductive nev := NCmd (idx : nat) (v : Q) | NPoll (i : nat) (silent : bool).

Definition node_step (s : list snode * crit_mgr) (e : nev) : option (list snode * crit_mgr) :=
  match e with
  | NCmd idx v => node_enabled (fst s) (snd s) idx v
  | NPoll i b => Some (node_poll (fst s) (snd s) i b)
  end.

Fixpoint node_run (s : list snode * crit_mgr) (h : list nev) : option (list snode * crit_mgr) :=
  match h with
  | [] => Some s
  | e :: h' => match node_step s e with None => None | Some s' => node_run s' h' end
  end.

(** The couplers after configuration, bus_coupler_io.cpp:1205-1240: in service,
    no error, not connected. *)
Definition node_start (numbers : list Z) : list snode * crit_mgr :=
  (map (fun k => {| sn_number := k; sn_active := true; sn_err := false; sn_state := 0 |})
     numbers, crit_init).
