(** Properties C105 to C108: valves with an IO-Link head. *)
From Coq Require Import ZArith List Bool Lia QArith.
From Verif Require Import Base TimeModel FTextModel FloatModel IolModel IolSpec IolProofs.
Import ListNotations.
Open Scope Z_scope.

(** Bytes received and calls for examples. *)
Definition bytes (a b c d : Z) : mem := fun n => if n =? 0 then a else if n =? 1 then b else if n =? 2 then c else d.
Definition at_t (t : Z) (d : mem) : env := {| now := t; data := d; link := 0; p_time := 1000; p_fb := true |}.
Definition shut_al := bytes 0 0 0 17. Definition open_al := bytes 1 44 0 18. Definition moving_al := bytes 0 0 0 0.
Definition full (k : cls) : conf := {| kind := k; ao := true; ai := true |}.

(** * C105: the byte sent follows the orders *)

(** After the first cycle, for every history: no crash, and the byte sent has exactly the
    solenoid the last order asks for and the light. *)
Theorem C105_follow : forall w c b0 t0 E0 l, ao c = true -> ai c = true -> 0 <= t0 -> timely w t0 l ->
  exists s, run w c (start (kind c) b0 t0) ((Eval, E0) :: l) = Some s /\
    out s = byte_of (kind c) (asked (past_of (kind c) (data E0) t0 l)) (lamp (past_of (kind c) (data E0) t0 l)).
Proof.
  intros w c b0 t0 E0 l HO HI H0 T. destruct (history w c b0 t0 E0 l HO HI H0 T) as (s & E & I). exists s. split; [exact E|apply I].
Qed.
(** Not guaranteed: orders given before the first cycle are lost; GEA valves crash. *)
Lemma early w k l : gea k = false -> Forall (fun x => fst x <> Eval) l -> forall c s s', kind c = k -> pt s = Stub -> run w c s l = Some s' -> pt s' = Stub /\ out s' = out s.
Proof.
  intros G F. induction F as [|x l Hx F IH]; intros c s s' K P R; cbn [run] in R; [injection R as <-; auto|].
  destruct (step w c s x) as [s1|] eqn:E; [|discriminate].
  enough (X : pt s1 = Stub /\ out s1 = out s) by (destruct X as (X1 & X2); destruct (IH c s1 s' K X1 R) as (Y1 & Y2); split; [exact Y1|congruence]).
  clear R IH F.
  assert (OFF : forall t s2, direct_off k t s = Some s2 -> pt s2 = Stub /\ out s2 = out s).
  { intros t s2. unfold direct_off, rd_out, wr_out. rewrite P. destruct (existsb _ _); cbn [wt pt]; rewrite P; intros H; injection H as <-; split; reflexivity. }
  assert (ON : forall t s2, direct_on k t s = Some s2 -> pt s2 = Stub /\ out s2 = out s).
  { intros t s2. unfold direct_on, rd_out, wr_out. cbv zeta. rewrite P. match goal with |- context [if ?b then wt t s else s] => destruct b end; cbn [wt pt]; rewrite P; intros H; injection H as <-; split; reflexivity. }
  assert (SET : forall t n s2, direct_set_state k t n s = Some s2 -> pt s2 = Stub /\ out s2 = out s).
  { assert (SEAT : forall t b s2, match direct_off k t s with None => None | Some s => match rd_out s with None => None | Some v => wr_out (Z.setbit v b) s end end = Some s2 -> pt s2 = Stub /\ out s2 = out s).
    { intros t b s2. destruct (direct_off k t s) as [s3|] eqn:D; [|discriminate]. destruct (OFF t s3 D) as (D1 & D2). unfold rd_out, wr_out. rewrite D1. intros H; injection H as <-. cbn. auto. }
    intros t n s2. unfold direct_set_state. cbv zeta. destruct (n =? 0); [apply OFF|]. destruct (n =? 1); [apply ON|].
    destruct (_ && (n =? 2)); [apply SEAT|]. destruct (_ && (n =? 3)); [apply SEAT|apply ON]. }
  destruct x as (o, E'). cbn [fst] in Hx. unfold step in E. cbn [fst snd] in E. cbv zeta in E. rewrite K in E.
  assert (SAME : forall r : option ist, (forall s2, r = Some s2 -> pt s2 = Stub /\ out s2 = out s) -> (if man s then Some s else r) = Some s1 -> pt s1 = Stub /\ out s1 = out s).
  { intros r Hr. destruct (man s); [intros H; injection H as <-; auto|apply Hr]. }
  destruct o.
  - congruence.
  - apply (SAME _ (ON (now E')) E).
  - apply (SAME _ (OFF (now E')) E).
  - apply (SAME _ (SET (now E') n) E).
  - unfold open_seat in E. destruct k; try discriminate G; try (injection E as <-; auto); apply (SET _ _ _ E).
  - apply (SET _ _ _ E).
  - destruct (n =? 0); [injection E as <-; auto|]. destruct (n =? 1); injection E as <-; auto.
  - unfold set_blink in E. rewrite is_gea_gea, G in E. unfold rd_out, wr_out in E. rewrite P in E. cbn [wblink pt] in E. rewrite P in E. injection E as <-. auto.
  - destruct (get_state w k E' s); [injection E as <-; auto|discriminate].
Qed.
Theorem C105_first_cycle_refuted : forall w c b0 t0 l E s,
  Forall (fun x => fst x <> Eval) l -> run w c (start (kind c) b0 t0) (l ++ [(Eval, E)]) = Some s -> ao c = true -> out s = 0.
Proof.
  intros w c b0 t0 l E s F R HO.
  assert (AP : forall l s0, run w c s0 (l ++ [(Eval, E)]) = match run w c s0 l with None => None | Some s1 => step w c s1 (Eval, E) end).
  { clear. induction l as [|x l IH]; intros s0; cbn [app run]; [destruct (step w c s0 (Eval, E)); reflexivity|]. destruct (step w c s0 x); [apply IH|reflexivity]. }
  rewrite AP in R. destruct (run w c (start (kind c) b0 t0) l) as [s1|] eqn:E1; [|discriminate].
  assert (O : out s1 = 0).
  { destruct (gea (kind c)) eqn:G.
    - assert (X : forall l s0 s1, pt s0 = Null -> Forall (fun x => fst x <> Eval) l -> run w c s0 l = Some s1 -> out s1 = out s0).
      { clear - G. induction l as [|x l IH]; intros s0 s1 P F R; cbn [run] in R; [injection R as <-; reflexivity|]. inversion F as [|? ? F1 F2]; subst.
        destruct (step w c s0 x) as [s2|] eqn:E; [|discriminate].
        assert (X : pt s2 = Null /\ out s2 = out s0).
        { assert (OFF : forall t, direct_off (kind c) t s0 = None) by (intros; unfold direct_off, rd_out; rewrite P; reflexivity).
          assert (ON : forall t, direct_on (kind c) t s0 = None) by (intros; unfold direct_on, rd_out; rewrite P; reflexivity).
          assert (SET : forall t n, direct_set_state (kind c) t n s0 = None).
          { intros. unfold direct_set_state. cbv zeta. rewrite OFF, ON. repeat match goal with |- context [if ?b then _ else _] => destruct b end; reflexivity. }
          destruct x as (o, E'). cbn [fst] in F1. unfold step in E. cbn [fst snd] in E. cbv zeta in E. destruct o; try congruence;
            rewrite ?OFF, ?ON, ?SET in E; try (destruct (man s0); [injection E as <-; auto|discriminate]); try discriminate.
          - unfold open_seat in E. destruct (kind c); try discriminate G; try (injection E as <-; auto). rewrite SET in E. discriminate.
          - destruct (n =? 0); [injection E as <-; auto|]. destruct (n =? 1); injection E as <-; auto.
          - unfold set_blink in E. rewrite is_gea_gea, G in E. injection E as <-. auto.
          - destruct (get_state w (kind c) E' s0); [injection E as <-; auto|discriminate]. }
        destruct X as (X1 & X2). rewrite <- X2. apply (IH s2 s1 X1 F2 R). }
      rewrite (X l (start (kind c) b0 t0) s1 ltac:(unfold start; rewrite is_gea_gea, G; reflexivity) F E1). reflexivity.
    - destruct (early w (kind c) l G F c (start (kind c) b0 t0) s1 eq_refl ltac:(unfold start; rewrite is_gea_gea, G; reflexivity) E1) as (_ & ->). reflexivity. }
  unfold step, evaluate_io in R. cbn [fst snd] in R. rewrite HO in R.
  destruct (is_gea (kind c)); destruct (ai c); try discriminate; injection R as <-; exact O.
Qed.
Theorem C105_gea_crash : forall w c b0 t0 E, gea (kind c) = true -> step w c (start (kind c) b0 t0) (On, E) = None.
Proof. intros w c b0 t0 E G. destruct (kind c) eqn:K; try discriminate G; unfold step; rewrite K; reflexivity. Qed.
(** Not guaranteed: without an output channel the first order after a cycle crashes; a
    GEA valve with an output channel only crashes in the cycle itself. *)
Theorem C105_channel_crash : forall w c b0 t0 E0 E n,
  (ao c = false -> run w c (start (kind c) b0 t0) [(Eval, E0); (On, E)] = None /\ run w c (start (kind c) b0 t0) [(Eval, E0); (Cmd n, E)] = None) /\
  (gea (kind c) = true -> ao c = true -> ai c = false -> step w c (start (kind c) b0 t0) (Eval, E0) = None).
Proof.
  intros w c b0 t0 E0 E n. split.
  - intros HO.
    assert (X : exists s, step w c (start (kind c) b0 t0) (Eval, E0) = Some s /\ pt s = Null /\ man s = false).
    { unfold step, evaluate_io. cbn [fst snd]. rewrite HO, is_gea_gea. destruct (gea (kind c)) eqn:G.
      - eexists. split; [reflexivity|]. unfold start. rewrite is_gea_gea, G. split; reflexivity.
      - destruct (ai c); (eexists; split; [reflexivity|]; split; reflexivity). }
    destruct X as (s & S & P & M). cbn [run]. rewrite S.
    assert (OFF : forall t, direct_off (kind c) t s = None) by (intros; unfold direct_off, rd_out; rewrite P; reflexivity).
    assert (ON : forall t, direct_on (kind c) t s = None) by (intros; unfold direct_on, rd_out; rewrite P; reflexivity).
    assert (SET : forall t n, direct_set_state (kind c) t n s = None).
    { intros. unfold direct_set_state. cbv zeta. rewrite OFF, ON. repeat match goal with |- context [if ?b then _ else _] => destruct b end; reflexivity. }
    unfold step. cbn [fst snd]. rewrite M, ON, SET. split; reflexivity.
  - intros G HO HI. unfold step, evaluate_io. cbn [fst snd]. rewrite is_gea_gea, G, HO, HI. reflexivity.
Qed.
Print Assumptions C105_follow.
Print Assumptions C105_first_cycle_refuted.
Print Assumptions C105_gea_crash.
Print Assumptions C105_channel_crash.
Example C105_example :
  map (fun k => option_map out (run 64 (full k) (start k (fun _ => 255) 5)
    [(Eval, at_t 5 shut_al); (On, at_t 6 shut_al); (Blink true, at_t 7 shut_al); (Seat false, at_t 8 shut_al); (Man 1, at_t 9 shut_al); (Instant, at_t 10 shut_al)]))
    [Mix; Think; Sorio; GeaS; GeaD] = [Some 192; Some 144; Some 9; Some 1; Some 2].
Proof. vm_compute. reflexivity. Qed.

(** * C106: the state reported *)

Theorem C106_report : forall w c b0 t0 E0 l s E, ao c = true -> ai c = true -> 0 <= t0 -> timely w t0 l ->
  run w c (start (kind c) b0 t0) ((Eval, E0) :: l) = Some s -> t0 <= now E -> (forall x, In x l -> now (snd x) <= now E) ->
  get_state w (kind c) E s = Some (report (kind c) E (past_of (kind c) (data E0) t0 l)).
Proof.
  intros w c b0 t0 E0 l s E HO HI H0 T R TE L. destruct (history w c b0 t0 E0 l HO HI H0 T) as (s' & R' & I).
  assert (s' = s) by congruence. subst s'. apply reported; [exact I|].
  apply (since_before w (kind c) l t0 (first (data E0) t0) (now E) T); [cbn; lia|lia|exact L].
Qed.
(** A head with an error or with a port that does not work never gives a valve in order (with the
    feedback switched on, outside manual mode and away from the seats). *)
Theorem C106_head_error : forall k E p, p_fb E = true -> held p = false -> link E <> 0 \/ errors k (got p) = true ->
  (position k (got p) = Shut -> report k E p = -3 \/ report k E p = 41) /\
  (position k (got p) = Open -> report k E p = -2 \/ report k E p = 40) /\
  (k = Mix -> position k (got p) = Upper \/ position k (got p) = Lower -> report k E p = -3).
Proof.
  intros k E p PF M X.
  assert (NR : right k E p = false).
  { unfold right. destruct X as [X|X]; [replace (link E =? 0) with false by lia; reflexivity|]. rewrite X. cbn [negb]. rewrite andb_false_r. reflexivity. }
  unfold report. cbv zeta. rewrite PF, NR, M. cbn [negb]. repeat split.
  - intros ->. destruct (p_time E <? now E - since p); auto.
  - intros ->. destruct (p_time E <? now E - since p); auto.
  - intros -> [-> | ->]; reflexivity.
Qed.
Print Assumptions C106_report.
Print Assumptions C106_head_error.
Definition rep (k : cls) (l : list (order * env)) (E : env) : option Z :=
  match run 64 (full k) (start k (fun _ => 0) 0) l with None => None | Some s => get_state 64 k E s end.
Example C106_example :
  let h := [(Eval, at_t 1 shut_al); (On, at_t 10 shut_al); (Eval, at_t 500 moving_al)] in
  (rep Mix h (at_t 500 shut_al), rep Mix h (at_t 1009 shut_al), rep Mix h (at_t 1010 shut_al), rep Mix h (at_t 1011 shut_al),
   rep Mix (h ++ [(Eval, at_t 600 open_al)]) (at_t 5000 open_al), rep Mix (h ++ [(Eval, at_t 600 (bytes 0 0 1 18))]) (at_t 601 open_al))
  = (Some 0, Some 0, Some 41, Some (-3), Some 1, Some 40).
Proof. vm_compute. reflexivity. Qed.

(** * C107: valves that do not move *)

(** One order to open, nothing but cycles and readings after it: a valve the head does
    not show open is found as soon as the time has passed. *)
Definition only_cycles (x : order * env) : Prop :=
  (fst x = Eval /\ bit (data (snd x)) 3 1 = false) \/ fst x = Poll.
Lemma cycles_keep k l : forall p, Forall only_cycles l -> bit (got p) 3 1 = false ->
  let q := fold_left (note k) l p in asked q = asked p /\ since q = since p /\ held q = held p /\ bit (got q) 3 1 = false.
Proof.
  induction l as [|x l IH]; intros p F B; cbn [fold_left]; [repeat split; exact B|]. inversion F as [|? ? F1 F2]; subst.
  destruct x as (o, E). destruct F1 as [(F1 & F3)|F1]; cbn [fst snd] in *; subst o.
  - apply (IH (note k p (Eval, E)) F2 F3).
  - apply (IH (note k p (Poll, E)) F2 B).
Qed.
Theorem C107_once : forall w c b0 t0 E0 l E1 l2 s E, gea (kind c) = false -> ao c = true -> ai c = true -> 0 <= t0 ->
  timely w t0 (l ++ (On, E1) :: l2) -> held (past_of (kind c) (data E0) t0 l) = false -> bit (got (past_of (kind c) (data E0) t0 l)) 3 1 = false ->
  Forall only_cycles l2 ->
  run w c (start (kind c) b0 t0) ((Eval, E0) :: l ++ (On, E1) :: l2) = Some s ->
  (forall x, In x (l ++ (On, E1) :: l2) -> now (snd x) <= now E) -> p_fb E = true -> 0 <= p_time E < now E - now E1 ->
  get_state w (kind c) E s = Some (-3).
Proof.
  intros w c b0 t0 E0 l E1 l2 s E G HO HI H0 T M B F R L PF PT.
  assert (TE : t0 <= now E1).
  { clear - T. revert t0 T. induction l as [|x l IH]; intros t0 T; destruct T as (T1 & T2); cbn [fst snd] in *; [lia|]. specialize (IH _ T2). lia. }
  rewrite (C106_report w c b0 t0 E0 _ s E HO HI H0 T R ltac:(clear - TE PT; lia) L). f_equal.
  unfold past_of. rewrite fold_left_app. cbn [fold_left]. change (fold_left (note (kind c)) l (first (data E0) t0)) with (past_of (kind c) (data E0) t0 l).
  set (p := past_of (kind c) (data E0) t0 l) in *. set (p1 := note (kind c) p (On, E1)).
  assert (P1 : asked p1 = Open /\ since p1 = now E1 /\ held p1 = false /\ bit (got p1) 3 1 = false).
  { unfold p1, note. cbn [fst snd asks asked since held got]. rewrite M. unfold restarts. rewrite G, B. repeat split; assumption. }
  destruct P1 as (A1 & A2 & A3 & A4). destruct (cycles_keep (kind c) l2 p1 F A4) as (B1 & B2 & B3 & B4).
  set (q := fold_left (note (kind c)) l2 p1) in *. rewrite A1 in B1. rewrite A2 in B2. rewrite A3 in B3.
  assert (NR : right (kind c) E q = false).
  { unfold right. rewrite B1, B2. replace (now E - now E1 <? p_time E) with false by (symmetry; apply Z.ltb_ge; apply Z.lt_le_incl; apply PT). cbn [orb].
    replace (confirms (kind c) (got q) Open) with false; [apply andb_false_r|]. unfold confirms. rewrite B4.
    destruct (kind c); try discriminate G; cbn [is_open]; rewrite ?andb_false_r; reflexivity. }
  unfold report. cbv zeta. rewrite PF, NR, B2, B3. cbn [negb]. rewrite G. cbn [orb].
  replace (p_time E <? now E - now E1) with true by (symmetry; apply Z.ltb_lt; apply PT).
  unfold position. rewrite B4. destruct (kind c); try discriminate G; repeat match goal with |- context [if ?b then _ else _] => destruct b end; reflexivity.
Qed.
(** Not guaranteed, and false: if the order is repeated, as programs do in every cycle, a valve
    the head does not show open is never reported: within the time after each order no error is. *)
Theorem C107_repeated_refuted : forall w c b0 t0 E0 l E1 s E, gea (kind c) = false -> ao c = true -> ai c = true -> 0 <= t0 ->
  timely w t0 (l ++ [(On, E1)]) -> held (past_of (kind c) (data E0) t0 l) = false -> bit (got (past_of (kind c) (data E0) t0 l)) 3 1 = false ->
  errors (kind c) (got (past_of (kind c) (data E0) t0 l)) = false ->
  run w c (start (kind c) b0 t0) ((Eval, E0) :: l ++ [(On, E1)]) = Some s ->
  (forall x, In x (l ++ [(On, E1)]) -> now (snd x) <= now E) -> link E = 0 -> p_fb E = true -> now E - now E1 < p_time E ->
  exists n, get_state w (kind c) E s = Some n /\ 0 <= n <= 3.
Proof.
  intros w c b0 t0 E0 l E1 s E G HO HI H0 T M B ER R L LI PF PT.
  assert (TE : t0 <= now E1).
  { clear - T. revert t0 T. induction l as [|x l IH]; intros t0 T; destruct T as (T1 & T2); cbn [fst snd] in *; [lia|]. specialize (IH _ T2). lia. }
  assert (TE2 : now E1 <= now E) by (apply (L (On, E1)); apply in_or_app; right; left; reflexivity).
  rewrite (C106_report w c b0 t0 E0 _ s E HO HI H0 T R ltac:(clear - TE TE2; lia) L). eexists. split; [reflexivity|].
  unfold past_of. rewrite fold_left_app. cbn [fold_left]. change (fold_left (note (kind c)) l (first (data E0) t0)) with (past_of (kind c) (data E0) t0 l).
  set (p := past_of (kind c) (data E0) t0 l) in *. set (p1 := note (kind c) p (On, E1)).
  assert (P1 : since p1 = now E1 /\ held p1 = false /\ got p1 = got p).
  { unfold p1, note. cbn [fst snd asks asked since held got]. rewrite M. unfold restarts. rewrite G, B. repeat split; assumption. }
  destruct P1 as (A2 & A3 & A4).
  assert (NR : right (kind c) E p1 = true).
  { unfold right. rewrite A2, A4, ER, LI. replace (now E - now E1 <? p_time E) with true by (symmetry; apply Z.ltb_lt; apply PT). reflexivity. }
  unfold report. cbv zeta. rewrite PF, NR, A3. cbn [negb]. rewrite orb_true_r. destruct (position (kind c) (got p1)); clear; lia.
Qed.
(** Closing: the order may be repeated; a valve the head does not show closed is found. *)
Definition still_closing (x : order * env) : Prop :=
  match fst x with
  | Eval => bit (data (snd x)) 3 0 = false
  | Poll | Instant => True
  | Set_ n | Cmd n => n = 0
  | _ => False
  end.
Lemma closing_keep k l : forall p, Forall still_closing l -> bit (got p) 3 0 = false -> asked p = Shut ->
  let q := fold_left (note k) l p in asked q = Shut /\ since q = since p /\ held q = held p /\ bit (got q) 3 0 = false.
Proof.
  induction l as [|x l IH]; intros p F B A; cbn [fold_left]; [repeat split; assumption|]. inversion F as [|? ? F1 F2]; subst.
  assert (N : asked (note k p x) = Shut /\ since (note k p x) = since p /\ held (note k p x) = held p /\ bit (got (note k p x)) 3 0 = false).
  { destruct x as (o, E). unfold still_closing in F1. cbn [fst snd] in F1.
    destruct o; try contradiction; unfold note; cbn [fst snd asks asked since held got]; repeat split; try assumption;
      try subst n; unfold meaning; cbn [Z.eqb]; destruct (held p); unfold restarts; rewrite ?A; reflexivity. }
  destruct N as (N1 & N2 & N3 & N4). destruct (IH _ F2 N4 N1) as (Q1 & Q2 & Q3 & Q4). cbv zeta. rewrite Q1, Q2, Q3, Q4, N2, N3. repeat split.
Qed.
Theorem C107_closing : forall w c b0 t0 E0 l E1 l2 s E, gea (kind c) = false -> ao c = true -> ai c = true -> 0 <= t0 ->
  timely w t0 (l ++ (Instant, E1) :: l2) -> held (past_of (kind c) (data E0) t0 l) = false ->
  asked (past_of (kind c) (data E0) t0 l) <> Shut -> bit (got (past_of (kind c) (data E0) t0 l)) 3 0 = false ->
  Forall still_closing l2 ->
  run w c (start (kind c) b0 t0) ((Eval, E0) :: l ++ (Instant, E1) :: l2) = Some s ->
  (forall x, In x (l ++ (Instant, E1) :: l2) -> now (snd x) <= now E) -> p_fb E = true -> 0 <= p_time E < now E - now E1 ->
  get_state w (kind c) E s = Some (-2) \/ get_state w (kind c) E s = Some (-3).
Proof.
  intros w c b0 t0 E0 l E1 l2 s E G HO HI H0 T M AS B F R L PF PT.
  assert (TE : t0 <= now E1).
  { clear - T. revert t0 T. induction l as [|x l IH]; intros t0 T; destruct T as (T1 & T2); cbn [fst snd] in *; [lia|]. specialize (IH _ T2). lia. }
  rewrite (C106_report w c b0 t0 E0 _ s E HO HI H0 T R ltac:(clear - TE PT; lia) L).
  unfold past_of. rewrite fold_left_app. cbn [fold_left]. change (fold_left (note (kind c)) l (first (data E0) t0)) with (past_of (kind c) (data E0) t0 l).
  set (p := past_of (kind c) (data E0) t0 l) in *. set (p1 := note (kind c) p (Instant, E1)).
  assert (P1 : asked p1 = Shut /\ since p1 = now E1 /\ held p1 = false /\ bit (got p1) 3 0 = false).
  { unfold p1, note. cbn [fst snd asks asked since held got]. rewrite M. unfold restarts. cbn [is_open]. repeat split; try assumption.
    destruct (asked p); try reflexivity. congruence. }
  destruct P1 as (A1 & A2 & A3 & A4). destruct (closing_keep (kind c) l2 p1 F A4 A1) as (B1 & B2 & B3 & B4).
  set (q := fold_left (note (kind c)) l2 p1) in *. rewrite A2 in B2. rewrite A3 in B3.
  assert (NR : right (kind c) E q = false).
  { unfold right. rewrite B1, B2. replace (now E - now E1 <? p_time E) with false by (symmetry; apply Z.ltb_ge; apply Z.lt_le_incl; apply PT). cbn [orb].
    replace (confirms (kind c) (got q) Shut) with false; [apply andb_false_r|]. unfold confirms. rewrite B4.
    destruct (kind c); try discriminate G; cbn [is_open]; rewrite ?andb_false_r; reflexivity. }
  unfold report. cbv zeta. rewrite PF, NR, B2, B3. cbn [negb]. rewrite G. cbn [orb].
  replace (p_time E <? now E - now E1) with true by (symmetry; apply Z.ltb_lt; apply PT).
  destruct (position (kind c) (got q)); [right|left|right|right]; reflexivity.
Qed.
(** Not guaranteed, and false: a GEA valve whose head does not react to the orders at all
    is reported closed and in order for ever. *)
Theorem C107_gea_refuted : forall w c b0 t0 E0 l s E, gea (kind c) = true -> ao c = true -> ai c = true -> 0 <= t0 -> timely w t0 l ->
  run w c (start (kind c) b0 t0) ((Eval, E0) :: l) = Some s -> t0 <= now E -> (forall x, In x l -> now (snd x) <= now E) ->
  let p := past_of (kind c) (data E0) t0 l in
  bit (got p) 1 0 = false -> bit (got p) 1 1 = false -> bit (got p) 1 2 = false -> bit (got p) 0 0 = true -> bit (got p) 0 3 = true ->
  errors (kind c) (got p) = false -> link E = 0 -> p_fb E = true -> held p = false ->
  get_state w (kind c) E s = Some 0.
Proof.
  intros w c b0 t0 E0 l s E G HO HI H0 T R TE L p Y1 Y2 Y3 S1 S4 ER LI PF M.
  rewrite (C106_report w c b0 t0 E0 l s E HO HI H0 T R TE L). f_equal. fold p.
  assert (RT : right (kind c) E p = true).
  { unfold right. rewrite LI, ER. cbn [Z.eqb negb andb]. unfold confirms. rewrite Y1, Y2, Y3, S1, S4. destruct (kind c); try discriminate G; apply orb_true_r. }
  unfold report. cbv zeta. rewrite PF, M, RT. unfold position. rewrite Y1, Y2, Y3. destruct (kind c); try discriminate G; reflexivity.
Qed.
(** Not guaranteed, and false: a seat that does not open is reported closed and in order for
    ever; a seat that is opening is reported as an error at once. *)
Theorem C107_seat_refuted : forall E p, held p = false -> p_fb E = true -> link E = 0 -> errors Mix (got p) = false ->
  asked p = Upper \/ asked p = Lower ->
  (bit (got p) 3 0 = true -> bit (got p) 3 4 = true -> report Mix E p = 0) /\
  (Z.land (got p 3) 15 = 0 -> p_time E < now E - since p -> report Mix E p = -3).
Proof.
  intros E p M PF LI ER A. split.
  - intros B C. assert (RT : right Mix E p = true).
    { unfold right. rewrite LI, ER. cbn [Z.eqb negb andb]. unfold confirms. rewrite B, C. destruct A as [-> | ->]; apply orb_true_r. }
    unfold report. cbv zeta. rewrite PF, M, RT. unfold position. rewrite B. reflexivity.
  - intros Z0 LA. assert (BB : forall n, 0 <= n < 4 -> bit (got p) 3 n = false).
    { intros n Hn. assert (X : Z.testbit (Z.land (got p 3) 15) n = false) by (rewrite Z0; apply Z.bits_0).
      rewrite Z.land_spec in X. change 15 with (Z.ones 4) in X. rewrite Z.ones_spec_low, andb_true_r in X by lia. exact X. }
    assert (RT : right Mix E p = false).
    { unfold right. replace (now E - since p <? p_time E) with false by lia. cbn [orb]. unfold confirms. rewrite (BB 0), (BB 2), (BB 3) by lia.
      destruct A as [-> | ->]; cbn [orb]; rewrite ?andb_false_r; reflexivity. }
    unfold report. cbv zeta. rewrite PF, M, RT. unfold position. rewrite !BB by lia. cbn [negb].
    replace (p_time E <? now E - since p) with true by lia. reflexivity.
Qed.
(** The time does not start anew with the order for a seat of a closed valve, so the error
    comes with the first cycle in which the seat is between its positions. *)
Theorem C107_seat_time : forall k p u E, two_seats k = true -> asked p = Shut -> since (note k p (Seat u, E)) = since p.
Proof. intros k p u E S A. unfold note. cbn [fst snd asks since]. rewrite S. unfold restarts. rewrite A. destruct u; reflexivity. Qed.
Print Assumptions C107_once.
Print Assumptions C107_repeated_refuted.
Print Assumptions C107_closing.
Print Assumptions C107_gea_refuted.
Print Assumptions C107_seat_refuted.
Print Assumptions C107_seat_time.
Example C107_hidden :
  let h n := concat (map (fun i => [(Eval, at_t (Z.of_nat i * 900) shut_al); (On, at_t (Z.of_nat i * 900) shut_al)]) (seq 0 n)) in
  (rep Mix (h 10%nat) (at_t 9000 shut_al), rep Think (h 100%nat) (at_t 90000 shut_al),
   rep Mix [(Eval, at_t 1 shut_al); (On, at_t 1 shut_al)] (at_t 9000 shut_al)) = (Some 0, Some 0, Some (-3)).
Proof. vm_compute. reflexivity. Qed.
Example C107_seats :
  (rep Mix [(Eval, at_t 1 shut_al); (Seat true, at_t 5000 shut_al)] (at_t 90000 shut_al),
   rep Mix [(Eval, at_t 1 shut_al); (Seat true, at_t 5000 shut_al); (Eval, at_t 5010 moving_al)] (at_t 5010 shut_al),
   rep GeaD [(Eval, at_t 1 (bytes 9 0 0 0)); (On, at_t 5000 shut_al)] (at_t 90000 shut_al)) = (Some 0, Some (-3), Some 0).
Proof. vm_compute. reflexivity. Qed.

(** * C108: opened, closed, position *)

(** The questions [is_opened] and [is_closed] of the shut-off valves. *)
Theorem C108_shut_off : forall w c b0 t0 E0 l s, ao c = true -> ai c = true -> 0 <= t0 -> timely w t0 l ->
  run w c (start (kind c) b0 t0) ((Eval, E0) :: l) = Some s ->
  let p := past_of (kind c) (data E0) t0 l in
  (kind c = Think ->
     on_fb Think s = Some (is_open (asked p) && bit (got p) 3 1 && bit (got p) 3 4) /\
     off_fb Think s = Some (is_shut (asked p) && bit (got p) 3 0 && bit (got p) 3 4)) /\
  (kind c = Sorio -> on_fb Sorio s = Some (bit (got p) 2 0) /\ off_fb Sorio s = Some (negb (bit (got p) 2 0))) /\
  (gea (kind c) = true ->
     on_fb (kind c) s = Some (bit (got p) 1 0 && negb (bit (got p) 1 1) && negb (bit (got p) 1 2) && bit (got p) 0 1) /\
     off_fb (kind c) s = Some (negb (bit (got p) 1 0) && negb (bit (got p) 1 1) && negb (bit (got p) 1 2) && bit (got p) 0 0 && bit (got p) 0 3)).
Proof.
  intros w c b0 t0 E0 l s HO HI H0 T R. cbv zeta. destruct (history w c b0 t0 E0 l HO HI H0 T) as (s' & R' & I).
  assert (s' = s) by congruence. subst s'. set (p := past_of (kind c) (data E0) t0 l) in *. repeat split.
  - unfold on_fb, rd_out. rewrite (i_pt _ _ _ I), (i_out _ _ _ I), (i_in _ _ _ I), H.
    destruct (i_seat _ _ _ I) as [-> | ->]; [rewrite H; reflexivity| |]; destruct (lamp p); reflexivity.
  - unfold off_fb, rd_out. rewrite (i_pt _ _ _ I), (i_out _ _ _ I), (i_in _ _ _ I), H.
    destruct (i_seat _ _ _ I) as [-> | ->]; [rewrite H; reflexivity| |]; destruct (lamp p); reflexivity.
  - unfold on_fb. rewrite (i_in _ _ _ I), H. reflexivity.
  - unfold off_fb. rewrite (i_in _ _ _ I), H. reflexivity.
  - unfold on_fb, n_active. rewrite (i_in _ _ _ I). destruct (in_gea (kind c) (got p) H) as (S1 & S2 & S4 & _ & Y1 & Y2 & Y3 & _). rewrite S2, Y1, Y2, Y3.
    destruct (kind c); try discriminate H; destruct (bit (got p) 1 0), (bit (got p) 1 1), (bit (got p) 1 2), (bit (got p) 0 1); reflexivity.
  - unfold off_fb. rewrite (i_in _ _ _ I). destruct (in_gea (kind c) (got p) H) as (S1 & S2 & S4 & _ & Y1 & Y2 & Y3 & _). rewrite S1, S4, Y1, Y2, Y3.
    destruct (kind c); try discriminate H; reflexivity.
Qed.
(** Not guaranteed, and false: a mixproof valve counts as opened exactly if it is to be
    open and the head shows it closed, as closed exactly if it is not to be open and the
    head shows it open. *)
Theorem C108_mixproof_refuted : forall w c b0 t0 E0 l s, kind c = Mix -> ao c = true -> ai c = true -> 0 <= t0 -> timely w t0 l ->
  run w c (start (kind c) b0 t0) ((Eval, E0) :: l) = Some s ->
  let p := past_of Mix (data E0) t0 l in
  (on_fb Mix s = Some true <-> asked p = Open /\ bit (got p) 3 0 = true /\ bit (got p) 3 4 = true) /\
  (off_fb Mix s = Some true <-> asked p <> Open /\ bit (got p) 3 1 = true /\ bit (got p) 3 4 = true).
Proof.
  intros w c b0 t0 E0 l s K HO HI H0 T R. cbv zeta. destruct (history w c b0 t0 E0 l HO HI H0 T) as (s' & R' & I).
  assert (s' = s) by congruence. subst s'. rewrite K in I. set (p := past_of Mix (data E0) t0 l) in *.
  unfold on_fb, off_fb, rd_out. rewrite (i_pt _ _ _ I), (i_out _ _ _ I), (i_in _ _ _ I).
  destruct (in_bits Mix (got p) eq_refl) as (A & B & _ & _ & F). rewrite A, B, F.
  destruct (bit (got p) 3 0), (bit (got p) 3 1), (bit (got p) 3 4), (asked p), (lamp p); cbn; split; split; intros X;
    try discriminate X; try (repeat split; congruence); try (destruct X as (X1 & X2 & X3); congruence).
Qed.
(** The position: tenths of the signed number in bytes 0 and 1 (GEA: of the ten lowest bits
    of bytes 2 and 3), the high byte first. *)
Definition tenths (k : cls) (d : mem) : Z :=
  if gea k then (256 * d 2 + d 3) mod 1024
  else let v := 256 * d 0 + d 1 in if v <? 32768 then v else v - 65536.
Theorem C108_position : forall k d, (forall n, 0 <= d n < 256) -> get_value k (load k d) = f_mul (f_lit (1 # 10)) (f_of_Z (tenths k d)).
Proof.
  intros k d H. unfold get_value. enough (P : pos k (load k d) = tenths k d) by (rewrite P; reflexivity).
  assert (B : forall m n, (forall n, 0 <= m n < 256) -> byte m n = m n).
  { intros m n Hm. unfold byte. change 255 with (Z.ones 8). rewrite Z.land_ones by lia. apply Z.mod_small. apply Hm. }
  assert (HL : forall n, 0 <= load k d n < 256).
  { intros n. unfold load. destruct (is_gea k); repeat match goal with |- context [if ?b then _ else _] => destruct b end; apply H. }
  pose proof (H 0) as H0. pose proof (H 1) as H1. pose proof (H 2) as H2. pose proof (H 3) as H3.
  unfold pos, tenths. rewrite is_gea_gea, !B by exact HL. destruct (gea k) eqn:G.
  - assert (L : load k d 2 = d 3 /\ load k d 3 = d 2) by (unfold load; rewrite is_gea_gea, G; split; reflexivity). destruct L as (-> & ->).
    change 1023 with (Z.ones 10). rewrite Z.land_ones by lia. change (2 ^ 10) with 1024. f_equal. lia.
  - assert (L : load k d 0 = d 1 /\ load k d 1 = d 0) by (unfold load; rewrite is_gea_gea, G; split; reflexivity). destruct L as (-> & ->).
    cbv zeta. unfold s16. change (2 ^ 15) with 32768. change (2 ^ 16) with 65536. destruct (Z.ltb_spec (256 * d 0 + d 1) 32768).
    + rewrite Z.mod_small by lia. lia.
    + replace (d 1 + 256 * d 0 + 32768) with (256 * d 0 + d 1 - 32768 + 1 * 65536) by lia. rewrite Z.mod_add by lia. rewrite Z.mod_small by lia. lia.
Qed.
Print Assumptions C108_shut_off.
Print Assumptions C108_mixproof_refuted.
Print Assumptions C108_position.
Example C108_example :
  let q k l := match run 64 (full k) (start k (fun _ => 0) 0) l with None => None | Some s => Some (on_fb k s, off_fb k s) end in
  (q Think [(Eval, at_t 1 shut_al); (On, at_t 1 shut_al); (Eval, at_t 5 open_al)], q Mix [(Eval, at_t 1 shut_al); (On, at_t 1 shut_al); (Eval, at_t 5 open_al)],
   q Mix [(Eval, at_t 1 shut_al); (On, at_t 1 shut_al)], map (tenths Mix) [open_al; bytes 255 254 0 0])
  = (Some (Some true, Some false), Some (Some false, Some false), Some (Some true, Some false), [300; -2]).
Proof. vm_compute. reflexivity. Qed.
