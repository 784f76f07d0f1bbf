(** Small independent specifications for the alarm properties. *)
From Coq Require Import ZArith List Bool.
From Verif Require Import Base ErrModel.
Import ListNotations.
Open Scope Z_scope.

(** * C07: critical errors.  Histories are newest-first. *)

Definition op_key (o : crit_op) : Z * Z * Z :=
  match o with CRaise c s p | CClear c s p => (c, s mod 2 ^ 32, p mod 2 ^ 32) end.
Definition key_of (e : crit_error) : Z * Z * Z := (ce_class e, ce_sub e, ce_param e).
Definition is_raise (o : crit_op) : bool := match o with CRaise _ _ _ => true | _ => false end.

Definition key_eqb (a b : Z * Z * Z) : bool :=
  let '(a1, a2, a3) := a in let '(b1, b2, b3) := b in
  (a1 =? b1) && (a2 =? b2) && (a3 =? b3).

(** The last operation on key [k] was a raise. *)
Fixpoint raised (h : list crit_op) (k : Z * Z * Z) : bool :=
  match h with
  | [] => false
  | o :: h' => if key_eqb (op_key o) k then is_raise o else raised h' k
  end.

(** When [k] became raised (length of the history just after). *)
Fixpoint raised_at (h : list crit_op) (k : Z * Z * Z) : nat :=
  match h with
  | [] => 0
  | o :: h' =>
      if key_eqb (op_key o) k && negb (raised h' k) then S (length h')
      else raised_at h' k
  end.

(** How many operations changed the set of raised errors. *)
Fixpoint changes (h : list crit_op) : Z :=
  match h with
  | [] => 0
  | o :: h' =>
      changes h' + (if Bool.eqb (raised h' (op_key o)) (is_raise o) then 0 else 1)
  end.

(** * C08: what one device and its operator did, newest first. *)

Inductive dev_event := Sample (faulty : bool) | Ack.

Fixpoint faulty_now (h : list dev_event) : bool :=
  match h with
  | [] => false
  | Sample b :: _ => b
  | Ack :: h' => faulty_now h'
  end.

(** The device became faulty and nobody acknowledged since. *)
Fixpoint unacked (h : list dev_event) : bool :=
  match h with
  | [] => false
  | Ack :: _ => false
  | Sample true :: h' => if faulty_now h' then unacked h' else true
  | Sample false :: h' => unacked h'
  end.

Definition shown_state (h : list dev_event) : astate :=
  match faulty_now h, unacked h with
  | true, true => AS_ALARM
  | true, false => AS_ACCEPT
  | false, true => AS_RETURN
  | false, false => AS_NORMAL
  end.

(** The events of entry [i], a device addressed as ([ty], [n]), among the
    operations of the whole system (oldest first), newest first. *)
Definition events_of (i : nat) (ty n : Z) (o : em_op) : list dev_event :=
  match o with
  | OEval f => [Sample (f i)]
  | OCmd c t k _ => if (c =? 100) && (t =? ty) && (k =? n) then [Ack] else []
  | OMsg _ _ _ => []
  end.
Definition dev_history (i : nat) (ty n : Z) (ops : list em_op) : list dev_event :=
  rev (flat_map (events_of i ty n) ops).

(** Entry [i] is the first one answering to the address ([ty], [n]). *)
Definition first_at (es : list entry) (i : nat) (ty n : Z) : Prop :=
  (exists e, nth_error es i = Some e /\ entry_type e = ty /\ entry_n e = n) /\
  forall j e, (j < i)%nat -> nth_error es j = Some e ->
    ~ (entry_type e = ty /\ entry_n e = n).

(** * C09: one evaluation pass. *)

(** Entry [i] is a faulty device that is not suppressed and is not followed by
    a faulty suppressed one. *)
Definition indicated (faulty : nat -> bool) (es : list entry) (i : nat) (d : dev_err) : Prop :=
  nth_error es i = Some (EDev d) /\ faulty i = true /\ suppressed d = false /\
  forall j d', (i < j)%nat -> nth_error es j = Some (EDev d') -> faulty j = true ->
    suppressed d' = false.

(** * C47/C48: what the server sees. *)

(** g_errors.cpp:38-68, 208-240: a device is listed with state and suppress
    flag unless its state is normal; an object with its messages. *)
Inductive shown := ShDev (ty n : Z) (s : astate) (sup : bool) | ShMsg (ty n : Z) (m : msg).

Definition view_entry (e : entry) : list shown :=
  match e with
  | EDev d => match de_state d with
              | AS_NORMAL => []
              | s => [ShDev (de_type d) (de_n d) s (suppressed d)]
              end
  | EObj o => map (ShMsg (oe_type o) (oe_n o)) (oe_msgs o)
  end.
Definition view (m : emgr) : list shown := flat_map view_entry (em_entries m).

(** The queue of one object: at most ten messages, removed by number. *)
Inductive q_event := QPost (m : msg) | QDel (n : Z).
Definition q_step (q : list msg) (e : q_event) : list msg :=
  match e with
  | QPost m => if (length q <? 10)%nat then q ++ [m] else q
  | QDel n => filter (fun x => negb (m_n x =? n)) q
  end.

(** Events of the object at entry [i] with address ([ty], [n]); [c] counts the
    messages posted by all objects so far. *)
Fixpoint q_events (objs : nat -> bool) (i : nat) (ty n : Z) (c : Z) (ops : list em_op)
  : list q_event :=
  match ops with
  | [] => []
  | OEval _ :: r => q_events objs i ty n c r
  | OCmd _ t k a :: r =>
      (if (t =? ty) && (k =? n) then [QDel a] else []) ++ q_events objs i ty n c r
  | OMsg j t x :: r =>
      if objs j then
        (if (j =? i)%nat then [QPost {| m_n := c + 1; m_type := t; m_text := x |}] else [])
        ++ q_events objs i ty n (c + 1) r
      else q_events objs i ty n c r
  end.

Definition is_obj (es : list entry) (i : nat) : bool :=
  match nth_error es i with Some (EObj _) => true | _ => false end.

(** * C10: siren. *)

(** Evaluation inputs oldest first; [n0] is the critical-error counter seen
    before the first one. *)
Definition ready (st : Z) (i : siren_in) : bool := 5000 <=? i_delta i st.
Definition alarm_now (i : siren_in) : bool := crit_any (i_crit i) || f_noack (i_flags i).
Definition prev_id (n0 : Z) (l : list siren_in) (k : nat) : Z :=
  match k with
  | O => n0
  | S k' => match nth_error l k' with Some i => cm_id (i_crit i) | None => n0 end
  end.
(** Evaluation [k] saw a new device alarm or a change of the critical list. *)
Definition trigger (n0 : Z) (l : list siren_in) (k : nat) : Prop :=
  exists i, nth_error l k = Some i /\
    (f_new (i_flags i) = true \/ cm_id (i_crit i) <> prev_id n0 l k).
Definition alarm_since (st : Z) (l : list siren_in) (k : nat) : Prop :=
  forall j i, (k <= j)%nat -> nth_error l j = Some i -> ready st i = true -> alarm_now i = true.
