(** Properties C109 to C111: motors. *)
From Coq Require Import ZArith List Bool Lia.
From Verif Require Import Base TimeModel MotModel MotSpec MotProofs.
Import ListNotations.
Open Scope Z_scope.

Definition at_t (t : Z) (i : bool) : env := {| now := t; di := i; p_time := 3000 |}.

(** * C109: outputs follow the orders *)

(** After any history the outputs and the speed are those asked for last; the contactors for
    the two directions are never both on. *)
Theorem C109_follow : forall w k t0 l, 0 <= t0 -> timely w t0 l ->
  let s := run w k (new_motor t0) l in
  (fwd s, rev s) = wires k (asked (past_of k t0 l)) /\ (speed_set k = true -> get_value k s = speed (past_of k t0 l)) /\
  (contactors k = true -> ~ (fwd s = true /\ rev s = true)) /\ (reverses k = false -> rev s = false).
Proof.
  intros w k t0 l H T. cbv zeta. pose proof (history w k t0 l H T) as I. set (s := run w k (new_motor t0) l) in *. set (p := past_of k t0 l) in *.
  pose proof (i_out _ _ _ I) as W. split; [exact W|]. split; [|split].
  - intros S. unfold get_value. rewrite has_speed, S. apply I.
  - intros C (A & B). rewrite A, B in W. destruct (asked p); cbn in W; try discriminate. rewrite C in W. discriminate.
  - intros R. pose proof (i_one _ _ _ I R). destruct (asked p); cbn in W; congruence.
Qed.
(** The order to stop: everything off and the speed 0, whatever happened before. *)
Theorem C109_stop : forall w k t0 l E o, 0 <= t0 -> timely w t0 (l ++ [(o, E)]) ->
  ((o = Off \/ o = Set_ 0) /\ held (past_of k t0 l) = false) \/ o = Cmd 0 ->
  let s := run w k (new_motor t0) (l ++ [(o, E)]) in fwd s = false /\ rev s = false /\ get_value k s = 0.
Proof.
  intros w k t0 l E o H T C. cbv zeta. pose proof (history w k t0 _ H T) as I. set (s := run w k (new_motor t0) (l ++ [(o, E)])) in *.
  unfold past_of in I. rewrite fold_left_app in I. cbn [fold_left] in I. change (fold_left (note k) l (fresh t0)) with (past_of k t0 l) in I.
  set (p := past_of k t0 l) in *.
  assert (A : asks k (held p) o = Some Stop) by (destruct C as [([-> | ->] & ->)| ->]; reflexivity).
  pose proof (i_out _ _ _ I) as W. pose proof (i_v _ _ _ I) as V. unfold note in W, V. cbn [fst asked speed] in W, V. rewrite A in W, V. cbn in W. injection W as -> ->.
  split; [reflexivity|]. split; [reflexivity|]. unfold get_value. rewrite has_speed. destruct (speed_set k); [exact V|reflexivity].
Qed.
(** Not guaranteed, and false: that only state 1 starts a motor forward.  Every number but 0 (and
    2, if there is a reverse) does. *)
Theorem C109_numbers_refuted : forall w k t0 l E n, 0 <= t0 -> timely w t0 (l ++ [(Cmd n, E)]) -> n <> 0 -> (reverses k = true -> n <> 2) ->
  let s := run w k (new_motor t0) (l ++ [(Cmd n, E)]) in fwd s = true /\ rev s = false.
Proof.
  intros w k t0 l E n H T N0 N2. cbv zeta. pose proof (history w k t0 _ H T) as I. pose proof (i_out _ _ _ I) as W.
  unfold past_of in W. rewrite fold_left_app in W. cbn [fold_left] in W. unfold note at 1 in W. cbn [fst asked asks] in W.
  replace (meaning k n) with Ahead in W; [cbn in W; injection W as -> ->; split; reflexivity|].
  unfold meaning. replace (n =? 0) with false by lia. destruct (reverses k); [|reflexivity]. specialize (N2 eq_refl). replace (n =? 2) with false by lia. reflexivity.
Qed.
Print Assumptions C109_follow.
Print Assumptions C109_stop.
Print Assumptions C109_numbers_refuted.
Example C109_example :
  map (fun k => let s := run 64 k (new_motor 5) [(On, at_t 5 false); (Value 7, at_t 6 true); (Back, at_t 7 true); (Man 1, at_t 8 true); (Off, at_t 9 true)] in (fwd s, rev s, get_value k s))
    [M; Freq; Rev; RevFreq2; Rev2Err] = [(true, false, 0); (true, false, 7); (true, true, 0); (false, true, 7); (false, true, 0)].
Proof. vm_compute. reflexivity. Qed.

(** * C110: the state reported *)

Theorem C110_report : forall w k t0 l E, 0 <= t0 -> timely w t0 l -> t0 <= now E < 2 ^ w -> (forall x, In x l -> now (snd x) <= now E) ->
  fst (get_state w k E (run w k (new_motor t0) l)) = report k E (past_of k t0 l).
Proof.
  intros w k t0 l E H T TE L. rewrite (reported w k E _ (past_of k t0 l)); [reflexivity|apply history; assumption| |lia].
  apply (since_before k l w (fresh t0) t0); [cbn; lia|assumption|lia|exact L].
Qed.
(** An error is reported if and only if the input is wrong and the motor was neither switched
    nor seen in order within the time allowed. *)
Theorem C110_error : forall w k t0 l E, 0 <= t0 -> timely w t0 l -> t0 <= now E < 2 ^ w -> (forall x, In x l -> now (snd x) <= now E) ->
  (fst (get_state w k E (run w k (new_motor t0) l)) = -1 <->
   fine k (di E) (asked (past_of k t0 l)) = false /\ p_time E < now E - since (past_of k t0 l)).
Proof.
  intros w k t0 l E H T TE L. rewrite C110_report by assumption. unfold report. set (p := past_of k t0 l).
  destruct (fine k (di E) (asked p)).
  - split; [destruct (asked p); discriminate|intros (F & _); discriminate].
  - destruct (Z.ltb_spec (p_time E) (now E - since p)).
    + split; [intros _; split; [reflexivity|lia]|reflexivity].
    + split; [|lia]. destruct (monitored k); [destruct (asked p); discriminate|destruct (di E); discriminate].
Qed.
(** Not guaranteed, and false: the reported direction.  A motor that is being stopped counts as
    running forward while the feedback is still on, even if it ran in reverse; and one that is
    being reversed counts as reversed while it still runs forward. *)
Theorem C110_direction_refuted : forall w k t0 l E, monitored k = false -> reverses k = true -> 0 <= t0 -> timely w t0 l -> t0 <= now E < 2 ^ w ->
  (forall x, In x l -> now (snd x) <= now E) -> di E = true ->
  let p := past_of k t0 l in
  (asked p = Stop -> now E - since p <= p_time E -> fst (get_state w k E (run w k (new_motor t0) l)) = 1) /\
  (asked p = Astern -> fst (get_state w k E (run w k (new_motor t0) l)) = 2).
Proof.
  intros w k t0 l E MO R H T TE L D. cbv zeta. rewrite C110_report by assumption. unfold report, fine. rewrite MO, D. set (p := past_of k t0 l). split.
  - intros -> N. cbn. replace (p_time E <? now E - since p) with false by lia. reflexivity.
  - intros ->. reflexivity.
Qed.
Print Assumptions C110_report.
Print Assumptions C110_error.
Print Assumptions C110_direction_refuted.
Definition rep (k : kind) (l : list (order * env)) (E : env) : Z := fst (get_state 64 k E (run 64 k (new_motor 0) l)).
Example C110_example :
  let h := [(On, at_t 10 false); (Poll, at_t 20 false); (Poll, at_t 500 true)] in
  (rep M h (at_t 501 true), rep M h (at_t 3500 false), rep M h (at_t 3501 false), rep M [(On, at_t 10 false)] (at_t 3010 false), rep Rev2 (h ++ [(Back, at_t 600 true)]) (at_t 600 true),
   rep Rev2 (h ++ [(Back, at_t 600 true); (Off, at_t 700 true)]) (at_t 701 true), rep Rev2Err h (at_t 600 true), rep Rev2Err h (at_t 3020 true), rep Rev2Err h (at_t 3021 true))
  = (1, 0, -1, 0, 2, 1, 1, 1, -1).
Proof. vm_compute. reflexivity. Qed.

(** * C111: faults are found *)

(** Calls that do not switch the motor and do not see it in order: repeated orders, readings
    with the wrong input, the speed, manual mode. *)
Definition idle (k : kind) (q : want) (x : order * env) : Prop :=
  match fst x with
  | Poll => fine k (di (snd x)) q = false
  | On => q = Ahead
  | Off => q = Stop
  | Set_ n | Cmd n => q = meaning k n
  | Back => q = meaning k 2
  | _ => True
  end.
Lemma idle_keep k q l : forall p, asked p = q -> Forall (idle k q) l ->
  asked (fold_left (note k) l p) = q /\ since (fold_left (note k) l p) = since p.
Proof.
  induction l as [|x l IH]; intros p A F; cbn [fold_left]; [split; [exact A|reflexivity]|]. inversion F as [|? ? F1 F2]; subst.
  assert (N : asked (note k p x) = asked p /\ since (note k p x) = since p).
  { assert (W : forall q, want_eqb q q = true) by (intros []; reflexivity).
    destruct x as (o, E). unfold idle in F1. unfold note. cbn [fst snd] in *. cbn [asked since].
    assert (A : (match asks k (held p) o with Some q => q | None => asked p end) = asked p).
    { destruct o; cbn [asks]; try reflexivity; try (destruct (held p)); try reflexivity; congruence. }
    rewrite A, W. cbn [negb orb]. split; [reflexivity|]. destruct o; try reflexivity. rewrite F1. reflexivity. }
  destruct N as (N1 & N2). rewrite <- N2. apply (IH _ N1 F2).
Qed.
(** A motor that is switched and never shows the state asked for is reported wrong as soon
    as the time has passed, and not before; repeating the order does not put it off. *)
Theorem C111_stuck : forall w k t0 l x q l2 E, 0 <= t0 -> timely w t0 (l ++ x :: l2) -> now E < 2 ^ w -> (forall y, In y (l ++ x :: l2) -> now (snd y) <= now E) ->
  asks k (held (past_of k t0 l)) (fst x) = Some q -> q <> asked (past_of k t0 l) -> Forall (idle k q) l2 -> fine k (di E) q = false ->
  (fst (get_state w k E (run w k (new_motor t0) (l ++ x :: l2))) = -1 <-> p_time E < now E - now (snd x)).
Proof.
  intros w k t0 l x q l2 E H T TW L A N F B.
  assert (TE : t0 <= now E).
  { clear - T L. assert (IX : In x (l ++ x :: l2)) by (apply in_or_app; right; left; reflexivity). specialize (L x IX).
    enough (t0 <= now (snd x)) by lia. clear L IX. revert t0 T. induction l as [|y l IH]; intros t0 T; destruct T as (T1 & T2); [lia|]. specialize (IH _ T2). lia. }
  rewrite (C110_error w k t0 _ E H T (conj TE TW) L). unfold past_of. rewrite fold_left_app. cbn [fold_left]. change (fold_left (note k) l (fresh t0)) with (past_of k t0 l).
  set (p := past_of k t0 l) in *.
  assert (P1 : asked (note k p x) = q /\ since (note k p x) = now (snd x)).
  { unfold note. cbn [asked since]. rewrite A. split; [reflexivity|]. replace (want_eqb q (asked p)) with false; [reflexivity|]. destruct q, (asked p); try reflexivity; congruence. }
  destruct P1 as (A1 & A2). destruct (idle_keep k q l2 _ A1 F) as (B1 & B2). rewrite B1, B2, A2, B. split; [intros (_ & X); exact X|intros X; split; [reflexivity|exact X]].
Qed.
(** Not guaranteed, and false: the time allowed after a motor in order loses its feedback.  If
    nothing read the state for longer than that, the first reading reports the error. *)
Theorem C111_unread_refuted : forall w k t0 l l2 E, 0 <= t0 -> timely w t0 (l ++ l2) -> t0 <= now E < 2 ^ w -> (forall x, In x (l ++ l2) -> now (snd x) <= now E) ->
  Forall (fun x => match fst x with Value _ | CmdV _ | Man _ => True | _ => False end) l2 ->
  fine k (di E) (asked (past_of k t0 l)) = false -> (forall x, In x l -> now (snd x) < now E - p_time E) -> t0 < now E - p_time E ->
  fst (get_state w k E (run w k (new_motor t0) (l ++ l2))) = -1.
Proof.
  intros w k t0 l l2 E H T TE L F B O O0. apply (C110_error w k t0 (l ++ l2) E H T TE L). unfold past_of. rewrite fold_left_app. change (fold_left (note k) l (fresh t0)) with (past_of k t0 l).
  set (p := past_of k t0 l) in *.
  assert (F' : Forall (idle k (asked p)) l2).
  { eapply Forall_impl; [|exact F]. intros (o, e). unfold idle. cbn [fst]. destruct o; tauto. }
  destruct (idle_keep k (asked p) l2 p eq_refl F') as (B1 & B2). rewrite B1, B2. split; [exact B|].
  assert (T1 : timely w t0 l).
  { clear - T. revert t0 T. induction l as [|x l IH]; intros t0 T; [exact I|]. destruct T as (T1 & T2). split; [exact T1|apply IH; exact T2]. }
  pose proof (since_before k l w (fresh t0) t0 (now E - p_time E - 1) ltac:(cbn; lia) T1 ltac:(lia)) as S. change (fold_left (note k) l (fresh t0)) with p in S.
  assert (forall x, In x l -> now (snd x) <= now E - p_time E - 1) by (intros x X; specialize (O x X); lia). specialize (S H0). lia.
Qed.
Print Assumptions C111_stuck.
Print Assumptions C111_unread_refuted.
Example C111_example :
  let h n := (On, at_t 10 false) :: map (fun i => (On, at_t (Z.of_nat i * 100) false)) (seq 1 n) in
  (rep M (h 30%nat) (at_t 3010 false), rep M (h 30%nat) (at_t 3011 false), rep M [(On, at_t 10 false); (Poll, at_t 50 true)] (at_t 9000 false)) = (0, -1, -1).
Proof. vm_compute. reflexivity. Qed.
