(** Critical errors, device alarms, object messages, siren and lamps.
    Source: /repo/PAC/common/PAC_err.{h,cpp},
    /repo/common/PAC-driver/g_errors.{h,cpp}, /repo/PAC/common/tech_def.cpp. *)
From Coq Require Import ZArith List Bool Lia.
From Verif Require Import Base TimeModel.
Import ListNotations.
Open Scope Z_scope.

(** * Critical errors *)

(** PAC_err.h:128-136 [critical_error]. *)
Record crit_error := { ce_class : Z; ce_sub : Z; ce_param : Z }.

Definition ce_eqb (a b : crit_error) : bool :=
  (ce_class a =? ce_class b) && (ce_sub a =? ce_sub b) && (ce_param a =? ce_param b).

(** PAC_err.h:138-140: [errors], [errors_id] (16 bit). *)
Record crit_mgr := { cm_errors : list crit_error; cm_id : Z }.

(** PAC_err.cpp:14-20 constructor. *)
Definition crit_init : crit_mgr := {| cm_errors := []; cm_id := 0 |}.

(** The triple stored/compared for a call (class, subclass, param): subclass
    and param are cast to [unsigned int], PAC_err.cpp:83-85, 96, 110-112. *)
Definition ce_of (cls sub : Z) (param : Z) : crit_error :=
  {| ce_class := cls; ce_sub := u32 sub; ce_param := u32 param |}.

(** PAC_err.cpp:75-100 [set_global_error]; logging omitted. *)
Definition set_global_error (m : crit_mgr) (cls sub param : Z) : crit_mgr :=
  let e := ce_of cls sub param in
  if existsb (ce_eqb e) (cm_errors m) then m
  else {| cm_errors := cm_errors m ++ [e]; cm_id := u16 (cm_id m + 1) |}.

(** Erase of the first match, PAC_err.cpp:105-119. *)
Fixpoint erase_first (e : crit_error) (l : list crit_error) : list crit_error :=
  match l with
  | [] => []
  | x :: r => if ce_eqb e x then r else x :: erase_first e r
  end.

(** PAC_err.cpp:102-126 [reset_global_error]. *)
Definition reset_global_error (m : crit_mgr) (cls sub param : Z) : crit_mgr :=
  let e := ce_of cls sub param in
  if existsb (ce_eqb e) (cm_errors m)
  then {| cm_errors := erase_first e (cm_errors m); cm_id := u16 (cm_id m + 1) |}
  else m.

(** PAC_err.h: [is_any_error]. *)
Definition crit_any (m : crit_mgr) : bool :=
  match cm_errors m with [] => false | _ => true end.

Inductive crit_op := CRaise (cls sub param : Z) | CClear (cls sub param : Z).

Definition crit_step (m : crit_mgr) (o : crit_op) : crit_mgr :=
  match o with
  | CRaise c s p => set_global_error m c s p
  | CClear c s p => reset_global_error m c s p
  end.

Definition crit_run (ops : list crit_op) : crit_mgr := fold_left crit_step ops crit_init.

(** * Device alarms *)

(** g_errors.h:37-43 [ALARM_STATE]. *)
Inductive astate := AS_NORMAL | AS_ALARM | AS_RETURN | AS_ACCEPT.

(** g_errors.h:243-276 [tech_dev_error]: [error_state], [err_par[1]] and the
    identity of the device (type, serial number). *)
Record dev_err := { de_type : Z; de_n : Z; de_state : astate; de_par : Z }.

(** g_errors.h:270-272, 335: the four static flags. *)
Record flags := { f_any : bool; f_noack : bool; f_new : bool; f_msg : bool }.

Definition P_IS_SUPPRESS : Z := 4.
Definition suppressed (d : dev_err) : bool :=
  negb (Z.land (de_par d) P_IS_SUPPRESS =? 0).

Definition set_state (d : dev_err) (s : astate) : dev_err :=
  {| de_type := de_type d; de_n := de_n d; de_state := s; de_par := de_par d |}.
Definition set_par (d : dev_err) (p : Z) : dev_err :=
  {| de_type := de_type d; de_n := de_n d; de_state := de_state d; de_par := p |}.

(** g_errors.cpp:70-125 [tech_dev_error::evaluate].  [faulty] is
    [simple_device->get_state() < 0].  [ns] is the reference argument
    [is_new_state]. *)
Definition dev_evaluate (faulty : bool) (d : dev_err) (f : flags) (ns : bool)
  : dev_err * flags * bool :=
  if faulty then
    let '(d', f', ns') :=
      match de_state d with
      | AS_ACCEPT => (d, f, ns)
      | AS_ALARM => (d, {| f_any := f_any f; f_noack := true; f_new := f_new f; f_msg := f_msg f |}, ns)
      | AS_NORMAL | AS_RETURN =>
          (set_state d AS_ALARM,
           {| f_any := f_any f; f_noack := true; f_new := true; f_msg := f_msg f |}, true)
      end in
    let f'' := {| f_any := true; f_noack := f_noack f'; f_new := f_new f'; f_msg := f_msg f' |} in
    let f3 := if suppressed d'
              then {| f_any := false; f_noack := false; f_new := false; f_msg := f_msg f'' |}
              else f'' in
    (d', f3, ns')
  else
    match de_state d with
    | AS_NORMAL | AS_RETURN => (d, f, ns)
    | AS_ACCEPT => (set_state d AS_NORMAL, f, true)
    | AS_ALARM => (set_state d AS_RETURN, f, true)
    end.

(** g_errors.h:224-230. *)
Definition C_CMD_ACCEPT : Z := 100.
Definition C_CMD_SUPPRESS : Z := 200.
Definition C_CMD_UNSET_SUPPRESS : Z := 201.

(** g_errors.cpp:146-205 [tech_dev_error::set_cmd]. *)
Definition dev_set_cmd (cmd : Z) (d : dev_err) : dev_err * Z :=
  if cmd =? C_CMD_SUPPRESS then (set_par d (Z.lor (de_par d) P_IS_SUPPRESS), 0)
  else if cmd =? C_CMD_UNSET_SUPPRESS then
    (set_par d (Z.lxor (Z.lor (de_par d) P_IS_SUPPRESS) P_IS_SUPPRESS), 0)
  else if cmd =? C_CMD_ACCEPT then
    match de_state d with
    | AS_RETURN => (set_state d AS_NORMAL, 0)
    | AS_ALARM => (set_state d AS_ACCEPT, 0)
    | _ => (d, 1)
    end
  else (d, 2).

(** * Object messages *)

(** A message of a technological object: unique number, type, text (opaque
    identifier).  tech_def.h [err_info]. *)
Record msg := { m_n : Z; m_type : Z; m_text : Z }.

(** g_errors.h:282-336 [tech_obj_error] together with the object's [errors]
    vector (tech_def.h). *)
Record obj_err := { oe_type : Z; oe_n : Z; oe_msgs : list msg;
                    oe_prev : Z; oe_cmd : bool }.

(** tech_def.h: [E_MAX_ERRORS_SIZE = 10]. *)
Definition E_MAX_ERRORS_SIZE : nat := 10.

(** tech_def.cpp:1172-1305 [set_err_msg]: [counter] is the function-static
    [error_number] (signed 32 bit; overflow after 2^31 messages is outside the
    model).  Formatting of the text is abstracted to the [text] argument. *)
Definition set_err_msg (counter : Z) (o : obj_err) (ty text : Z) : Z * obj_err :=
  let n := counter + 1 in
  (n,
   if (length (oe_msgs o) <? E_MAX_ERRORS_SIZE)%nat
   then {| oe_type := oe_type o; oe_n := oe_n o;
           oe_msgs := oe_msgs o ++ [ {| m_n := n; m_type := ty; m_text := text |} ];
           oe_prev := oe_prev o; oe_cmd := oe_cmd o |}
   else o).

(** g_errors.cpp:242-256 [tech_obj_error::evaluate]. *)
Definition obj_evaluate (o : obj_err) (f : flags) (ns : bool) : obj_err * flags * bool :=
  let sz := Z.of_nat (length (oe_msgs o)) in
  let changed := negb (sz =? oe_prev o) || oe_cmd o in
  let o' := if changed
            then {| oe_type := oe_type o; oe_n := oe_n o; oe_msgs := oe_msgs o;
                    oe_prev := sz; oe_cmd := false |}
            else o in
  let f' := match oe_msgs o with
            | [] => f
            | _ => {| f_any := f_any f; f_noack := f_noack f; f_new := f_new f; f_msg := true |}
            end in
  (o', f', if changed then true else ns).

(** Erase of the first message with number [n], g_errors.cpp:261-279. *)
Fixpoint erase_msg (n : Z) (l : list msg) : list msg :=
  match l with
  | [] => []
  | x :: r => if m_n x =? n then r else x :: erase_msg n r
  end.

(** g_errors.cpp:258-290 [tech_obj_error::set_cmd]: any command deletes. *)
Definition obj_set_cmd (n : Z) (o : obj_err) : obj_err * Z :=
  if existsb (fun x => m_n x =? n) (oe_msgs o)
  then ({| oe_type := oe_type o; oe_n := oe_n o; oe_msgs := erase_msg n (oe_msgs o);
           oe_prev := oe_prev o; oe_cmd := true |}, 0)
  else (o, 1).

(** * errors_manager *)

Inductive entry := EDev (d : dev_err) | EObj (o : obj_err).

(** g_errors.cpp:136-144; g_errors.h:306-314 (the object type is the low byte
    of 100 + type). *)
Definition entry_type (e : entry) : Z :=
  match e with EDev d => u8 (de_type d) | EObj o => u8 (100 + oe_type o) end.
Definition entry_n (e : entry) : Z :=
  match e with EDev d => de_n d | EObj o => oe_n o end.

Record emgr := { em_entries : list entry; em_id : Z; em_flags : flags;
                 em_counter : Z }.

Definition no_flags : flags :=
  {| f_any := false; f_noack := false; f_new := false; f_msg := false |}.

(** The loop of g_errors.cpp:369-372.  [faulty i] is the sign of the device
    state of entry [i] at this evaluation. *)
Fixpoint eval_entries (faulty : nat -> bool) (i : nat) (es : list entry)
         (f : flags) (ns : bool) : list entry * flags * bool :=
  match es with
  | [] => ([], f, ns)
  | EDev d :: r =>
      let '(d', f1, ns1) := dev_evaluate (faulty i) d f ns in
      let '(r', f2, ns2) := eval_entries faulty (S i) r f1 ns1 in
      (EDev d' :: r', f2, ns2)
  | EObj o :: r =>
      let '(o', f1, ns1) := obj_evaluate o f ns in
      let '(r', f2, ns2) := eval_entries faulty (S i) r f1 ns1 in
      (EObj o' :: r', f2, ns2)
  end.

(** g_errors.cpp:360-378 [errors_manager::evaluate]. *)
Definition em_evaluate (faulty : nat -> bool) (m : emgr) : emgr :=
  let '(es, f, ns) := eval_entries faulty 0 (em_entries m) no_flags false in
  {| em_entries := es; em_id := if ns then u16 (em_id m + 1) else em_id m;
     em_flags := f; em_counter := em_counter m |}.

(** g_errors.cpp:408-449 [errors_manager::set_cmd]: first entry with the
    requested type and number executes the command. *)
Fixpoint cmd_entries (cmd ty n an : Z) (es : list entry) : list entry * option Z :=
  match es with
  | [] => ([], None)
  | e :: r =>
      if (entry_type e =? ty) && (entry_n e =? n) then
        match e with
        | EDev d => let '(d', res) := dev_set_cmd cmd d in (EDev d' :: r, Some res)
        | EObj o => let '(o', res) := obj_set_cmd an o in (EObj o' :: r, Some res)
        end
      else let '(r', res) := cmd_entries cmd ty n an r in (e :: r', res)
  end.

Definition em_set_cmd (cmd ty n an : Z) (m : emgr) : emgr :=
  let '(es, res) := cmd_entries cmd ty n an (em_entries m) in
  {| em_entries := es;
     em_id := match res with Some 0 => u16 (em_id m + 1) | _ => em_id m end;
     em_flags := em_flags m; em_counter := em_counter m |}.

(** A message raised by the object that is entry [i] (tech_def.cpp:1172). *)
Definition em_message (i : nat) (ty text : Z) (m : emgr) : emgr :=
  match nth_error (em_entries m) i with
  | Some (EObj o) =>
      let '(c, o') := set_err_msg (em_counter m) o ty text in
      {| em_entries := firstn i (em_entries m) ++ EObj o' :: skipn (S i) (em_entries m);
         em_id := em_id m; em_flags := em_flags m; em_counter := c |}
  | _ => m
  end.

Inductive em_op :=
| OEval (faulty : nat -> bool)
| OCmd (cmd ty n an : Z)
| OMsg (i : nat) (ty text : Z).

Definition em_step (m : emgr) (o : em_op) : emgr :=
  match o with
  | OEval fl => em_evaluate fl m
  | OCmd c t n a => em_set_cmd c t n a m
  | OMsg i t x => em_message i t x m
  end.

Definition em_run (m : emgr) (ops : list em_op) : emgr := fold_left em_step ops m.

(** * Siren and lamps *)

(** g_errors.cpp:513-536, 567-590: the function-static variables of one blink
    machine. *)
Record blink := { b_step : Z; b_blink : Z; b_wait : Z }.

(** One pass of the blink switch; [delta t] is [get_delta_millisec(t)], [now]
    is [get_millisec()].  Returns the lamp (on?) and the new state. *)
Definition blink_step (period : Z) (now : Z) (delta : Z -> Z) (b : blink) : bool * blink :=
  if b_step b =? 0 then
    (true,
     if delta (b_blink b) >? period
     then {| b_step := 1; b_blink := b_blink b; b_wait := now |} else b)
  else if b_step b =? 1 then
    (false,
     if delta (b_wait b) >? period
     then {| b_step := 0; b_blink := now; b_wait := b_wait b |} else b)
  else (false, b).

Record siren := { s_present : bool;   (* all four devices configured *)
                  s_st_time : Z; s_manual : Z; s_builtin : Z;
                  s_crit_n : Z;       (* critical_error_n *)
                  s_red : bool; s_yellow : bool; s_green : bool; s_srn : bool;
                  s_rb : blink; s_yb : blink }.

(** What one evaluation sees. *)
Record siren_in := { i_now : Z; i_delta : Z -> Z; i_crit : crit_mgr;
                     i_flags : flags; i_important : bool }.

(** g_errors.cpp:483-606 [siren_lights_manager::eval]. *)
Definition siren_eval (s : siren) (i : siren_in) : siren :=
  if negb (s_present s) then s
  else if (i_delta i (s_st_time s) <? 5000) || negb (s_manual s =? 0) then
    {| s_present := s_present s; s_st_time := s_st_time s; s_manual := s_manual s;
       s_builtin := s_builtin s; s_crit_n := cm_id (i_crit i);
       s_red := s_red s; s_yellow := s_yellow s; s_green := s_green s; s_srn := s_srn s;
       s_rb := s_rb s; s_yb := s_yb s |}
  else
    let '(red, rb) :=
      if crit_any (i_crit i) || f_any (i_flags i) then
        if negb (s_builtin s =? 0) then (true, s_rb s)
        else blink_step 250 (i_now i) (i_delta i) (s_rb s)
      else (false, s_rb s) in
    let changed := negb (cm_id (i_crit i) =? s_crit_n s) in
    let srn1 := if changed then true else s_srn s in
    let srn2 := if f_new (i_flags i) then true else srn1 in
    let '(yellow, yb) :=
      if f_msg (i_flags i) then blink_step 1000 (i_now i) (i_delta i) (s_yb s)
      else (false, s_yb s) in
    let srn3 := if negb (crit_any (i_crit i)) && negb (f_noack (i_flags i))
                then false else srn2 in
    {| s_present := s_present s; s_st_time := s_st_time s; s_manual := s_manual s;
       s_builtin := s_builtin s; s_crit_n := cm_id (i_crit i);
       s_red := red; s_yellow := yellow; s_green := i_important i; s_srn := srn3;
       s_rb := rb; s_yb := yb |}.

Definition siren_run (s : siren) (l : list siren_in) : siren := fold_left siren_eval l s.
