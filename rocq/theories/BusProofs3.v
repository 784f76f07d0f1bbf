(** Histories of many valves. *)
From Coq Require Import ZArith List Bool Lia.
From Verif Require Import Base TimeModel BusModel BusSpec BusProofs BusProofs2.
Import ListNotations.
Open Scope Z_scope.

Record vinv (c : conf) (wm rm : mem) (s : bst) (p : past) : Prop := {
  v_man : man s = held p;
  v_own : forall i, In i (sols c) -> bit wm (sol c i) = lit (asked p) i;
  v_sent : gateway c = true -> forall i, In i (sols c) -> bit rm (sol c i) = lit (gone p) i;
  v_st : gateway c = false -> st s = wnum (asked p);
  v_t : t_sw s = since p;
  v_err : kind c = AsCut -> t_err s = seen p;
  v_seat : seats c = false -> is_seat (asked p) = false /\ is_seat (gone p) = false }.

Lemma vinv_fits c wm rm s p : vinv c wm rm s p -> fits c wm s (asked p).
Proof. intros V. split; [apply (v_own _ _ _ _ _ V)|apply (v_st _ _ _ _ _ V)]. Qed.

Lemma wt_fields t s : st (wt t s) = st s /\ t_sw (wt t s) = t /\ t_err (wt t s) = t_err s /\ man (wt t s) = man s.
Proof. repeat split. Qed.

(** The state read from the bytes sent. *)
Lemma gate_bits c wm rm s p : good c -> gateway c = true -> vinv c wm rm s p ->
  has (state_data rm (ch c 0) (num c 0)) C_S1 = want_eqb (gone p) Open /\
  (forall u, seats c = true -> has (state_data rm (ch c 0) (num c 0)) (seat_mask c u) = want_eqb (gone p) (seat u)).
Proof.
  intros H G V. pose proof H as H0. unfold good in H0. rewrite G in H0. destruct H0 as (HB & N).
  destruct (ch c 0) as [b|] eqn:B; [|congruence].
  assert (S : forall i, In i (sols c) -> forall k, snd (sol c i) = lowest (num c 0) + k -> 0 <= k -> Z.testbit (state_data rm (Some b) (num c 0)) k = lit (gone p) i).
  { intros i Hi k E K. rewrite state_bit by assumption. rewrite <- (v_sent _ _ _ _ _ V G i Hi). unfold bit. rewrite E.
    unfold sol. rewrite G. cbn [fst]. unfold base. rewrite B, half_byte by assumption. reflexivity. }
  split.
  - unfold C_S1. rewrite has2. rewrite (S 0 (main_in c) 1); [apply lit_main| |lia]. rewrite snd_sol by assumption. reflexivity.
  - intros u E. rewrite seat_mask_bit. pose proof (seat_bit_range c u).
    rewrite (S (if u then 1 else 2)).
    + destruct u, (gone p); reflexivity.
    + unfold sols. rewrite E. destruct u; cbn; auto.
    + rewrite snd_sol by assumption. unfold seat_bit. destruct u; reflexivity.
    + lia.
Qed.

Lemma shown_state c wm rm s p : good c -> vinv c wm rm s p -> valve_state c rm s = wnum (shown c p).
Proof.
  intros H V. unfold valve_state, shown. cbv zeta.
  pose proof (gate_bits c wm rm s p H) as GB. pose proof (v_st _ _ _ _ _ V) as ST. pose proof (v_seat _ _ _ _ _ V) as SE.
  unfold gateway, seats in *. destruct (kind c); try (apply ST; reflexivity).
  - destruct (GB eq_refl V) as (A & B). rewrite A.
    pose proof (B true eq_refl) as B1. pose proof (B false eq_refl) as B2. unfold seat_mask in B1, B2. rewrite B1, B2.
    destruct (gone p); reflexivity.
  - destruct (GB eq_refl V) as (A & _). rewrite A. destruct (SE eq_refl) as (_ & E). destruct (gone p); try discriminate; reflexivity.
Qed.

Lemma delta_ge w n t : 0 <= t <= n -> get_delta_millisec w n t = n - t.
Proof.
  intros H. unfold get_delta_millisec. replace (n <? t) with false by lia. replace (t <=? n) with true by lia. reflexivity.
Qed.

(** The sensors of a gateway. *)
Lemma sensor_has c i : gateway c = true -> good c ->
  has (state_data (ain i) (ai c) (num c 0)) 1 = sensor c i 0 /\ has (state_data (ain i) (ai c) (num c 0)) 2 = sensor c i 1.
Proof.
  intros G H. unfold good in H. rewrite G in H. destruct H as (_ & N). rewrite has1, has2. unfold sensor.
  destruct (ai c) as [a|]; [|split; reflexivity]. rewrite !state_bit by lia. rewrite half_byte by assumption. split; reflexivity.
Qed.

(** One look at the feedback. *)
Lemma look c w wm rm s p i t :
  good c -> vinv c wm rm s p -> feedback c = true -> is_seat (shown c p) = false ->
  0 <= since p <= t -> (kind c = AsCut -> 0 <= seen p <= t) ->
  fb_state w c t i rm s =
   (agrees c i (shown c p) || (t - since p <? p_time i) || (match kind c with AsCut => t - seen p <? p_time i | _ => false end),
    if agrees c i (shown c p) then match kind c with AsMix => s | AsCut => werr t s | _ => wt t s end else s).
Proof.
  intros H V FB NS T TE.
  pose proof (gate_bits c wm rm s p H) as GB. pose proof (v_st _ _ _ _ _ V) as ST.
  pose proof (sensor_has c i) as SH. pose proof (good_check c) as CK. pose proof (v_err _ _ _ _ _ V) as ER.
  pose proof (v_seat _ _ _ _ _ V) as SE.
  unfold fb_state. cbv zeta. rewrite (v_t _ _ _ _ _ V). rewrite delta_ge by assumption.
  unfold shown in *. unfold agrees. unfold gateway, seats, feedback in *. destruct (kind c) eqn:EK; try discriminate FB; cbn [negb].
  - destruct (GB eq_refl V) as (A & B). destruct (SH eq_refl H) as (S0 & S1). rewrite A, S0, S1.
    pose proof (B true eq_refl) as B1. pose proof (B false eq_refl) as B2. unfold seat_mask in B1, B2. rewrite B1, B2.
    destruct (gone p); try discriminate NS; cbn [want_eqb seat negb andb orb]; destruct (sensor c i 0), (sensor c i 1); cbn [negb andb orb]; rewrite ?orb_false_r; reflexivity.
  - destruct (GB eq_refl V) as (A & B). destruct (SH eq_refl H) as (S0 & S1). rewrite A, S0, S1, (ER eq_refl), delta_ge by (apply TE; reflexivity).
    destruct (gone p); try discriminate NS; cbn [want_eqb negb andb orb]; destruct (sensor c i 0), (sensor c i 1), (t - since p <? p_time i); cbn [negb andb orb]; reflexivity.
  - rewrite (CK eq_refl H). cbn [negb]. rewrite (ST eq_refl). destruct (asked p); try discriminate NS; destruct (di0 i); cbn; rewrite ?orb_false_r; reflexivity.
  - rewrite (CK eq_refl H). cbn [negb]. rewrite (ST eq_refl). destruct (asked p); try discriminate NS; destruct (di0 i); cbn; rewrite ?orb_false_r; reflexivity.
  - rewrite (ST eq_refl). destruct (asked p); try discriminate NS; destruct (di0 i), (di1 i); cbn; rewrite ?orb_false_r; reflexivity.
  - rewrite (ST eq_refl). destruct (asked p); try discriminate NS; destruct (di0 i), (di1 i); cbn; rewrite ?orb_false_r; reflexivity.
Qed.

(** The times of the past are in the past. *)
Definition past_ok (p : past) (t : Z) : Prop := 0 <= since p <= t /\ 0 <= seen p <= t.

Lemma has_fb_feedback c : has_fb c = feedback c. Proof. reflexivity. Qed.

Lemma reported c w wm rm s p i t : good c -> vinv c wm rm s p -> past_ok p t ->
  fst (get_state w c t i rm s) = report c i t p.
Proof.
  intros H V (T1 & T2). unfold get_state, report. cbv zeta. rewrite is_as_gateway, (shown_state c wm rm s p H V), has_fb_feedback, (v_man _ _ _ _ _ V).
  destruct (negb (gateway c) && negb (link i =? 0)); [reflexivity|].
  destruct (is_seat (shown c p)) eqn:NS.
  { unfold judge. replace (agrees c i (shown c p)) with true; [|unfold agrees; destruct (kind c), (shown c p); try discriminate NS; reflexivity].
    destruct (shown c p); try discriminate NS; cbn; destruct (held p), (feedback c), (p_fb i); reflexivity. }
  unfold judge. destruct (feedback c) eqn:FB.
  - rewrite (look c w wm rm s p i t H V FB NS T1 (fun _ => T2)). cbn [fst snd].
    set (ag := agrees c i (shown c p)). set (more := match kind c with AsCut => t - seen p <? p_time i | _ => false end).
    assert (D : p_time i <? get_delta_millisec w t (t_sw (if ag then match kind c with AsMix => s | AsCut => werr t s | _ => wt t s end else s)) = true -> ag = false -> (t - since p =? p_time i) = false).
    { intros D E. rewrite E in D. rewrite (v_t _ _ _ _ _ V), delta_ge in D by assumption. lia. }
    destruct ag eqn:AG; cbn [orb]; [destruct (p_fb i), (held p), (shown c p); try discriminate NS; reflexivity|].
    rewrite (v_t _ _ _ _ _ V), delta_ge by assumption.
    destruct (t - since p <? p_time i) eqn:E1; cbn [orb]; [destruct (p_fb i), (held p), (shown c p); try discriminate NS; reflexivity|].
    destruct more; [destruct (p_fb i), (held p), (shown c p); try discriminate NS; reflexivity|].
    destruct (t - since p =? p_time i) eqn:E2.
    + replace (p_time i <? t - since p) with false by lia. destruct (p_fb i), (held p), (shown c p); try discriminate NS; reflexivity.
    + replace (p_time i <? t - since p) with true by lia. destruct (p_fb i), (held p), (shown c p); try discriminate NS; reflexivity.
  - destruct (held p), (shown c p); try discriminate NS; reflexivity.
Qed.

(** A reading. *)
Lemma polled c w wm rm s p E d : good c -> vinv c wm rm s p -> past_ok p (now E) ->
  vinv c wm rm (snd (get_state w c (now E) (ins E d) rm s)) (note c d p (Poll d, E)).
Proof.
  intros H V (T1 & T2).
  assert (N : forall s', (man s' = man s /\ st s' = st s) ->
     t_sw s' = since (note c d p (Poll d, E)) -> (kind c = AsCut -> t_err s' = seen (note c d p (Poll d, E))) -> vinv c wm rm s' (note c d p (Poll d, E))).
  { intros s' (A & B) D F. split; cbn [note held asked gone asks held1 fst snd].
    - rewrite A. apply (v_man _ _ _ _ _ V).
    - apply (v_own _ _ _ _ _ V).
    - apply (v_sent _ _ _ _ _ V).
    - intros G. rewrite B. apply (v_st _ _ _ _ _ V G).
    - exact D.
    - exact F.
    - apply (v_seat _ _ _ _ _ V). }
  assert (Q : looks c d (Poll d, E) p = false -> vinv c wm rm s (note c d p (Poll d, E))).
  { intros L. apply N; [split; reflexivity| |]; cbn [note since seen asks fst snd]; rewrite L, ?andb_false_r; [apply (v_t _ _ _ _ _ V)|apply (v_err _ _ _ _ _ V)]. }
  assert (LK : looks c d (Poll d, E) p = feedback c && p_fb (ins E d) && negb (is_seat (shown c p)) && (gateway c || (link (ins E d) =? 0)) && agrees c (ins E d) (shown c p)).
  { unfold looks. cbn [fst snd]. rewrite Z.eqb_refl. reflexivity. }
  unfold get_state. cbv zeta. rewrite is_as_gateway, (shown_state c wm rm s p H V), has_fb_feedback.
  destruct (negb (gateway c) && negb (link (ins E d) =? 0)) eqn:LN.
  { cbn [snd]. apply Q. rewrite LK. replace (gateway c || (link (ins E d) =? 0)) with false by (destruct (gateway c), (link (ins E d) =? 0); cbn in LN; congruence || reflexivity).
    rewrite andb_false_r. reflexivity. }
  assert (LN' : gateway c || (link (ins E d) =? 0) = true) by (destruct (gateway c), (link (ins E d) =? 0); cbn in LN; congruence || reflexivity).
  rewrite LN', andb_true_r in LK.
  destruct (is_seat (shown c p)) eqn:NS.
  { assert (L0 : looks c d (Poll d, E) p = false) by (rewrite LK; cbn; rewrite !andb_false_r; reflexivity). specialize (Q L0).
    destruct (shown c p); try discriminate NS; cbn; exact Q. }
  cbn [negb] in LK. rewrite andb_true_r in LK.
  assert (M : forall ok err mov, vinv c wm rm (snd (if feedback c then if p_fb (ins E d) then
        let f := fb_state w c (now E) (ins E d) rm s in
        if fst f then (ok, snd f) else if p_time (ins E d) <? get_delta_millisec w (now E) (t_sw (snd f)) then (err, snd f) else (mov, snd f)
      else (ok + 10, s) else (ok, s))) (note c d p (Poll d, E))).
  { intros ok er mov. destruct (feedback c) eqn:FB; [|cbn [snd]; apply Q; rewrite LK; reflexivity].
    destruct (p_fb (ins E d)) eqn:PF; [|cbn [snd]; apply Q; rewrite LK; reflexivity]. cbn [andb] in LK.
    cbv zeta. set (f := fb_state w c (now E) (ins E d) rm s).
    match goal with |- vinv _ _ _ (snd ?x) _ => replace (snd x) with (snd f) by (destruct (fst f); [reflexivity|destruct (p_time (ins E d) <? get_delta_millisec w (now E) (t_sw (snd f))); reflexivity]) end.
    unfold f. rewrite (look c w wm rm s p (ins E d) (now E) H V FB NS T1 (fun _ => T2)). cbn [snd].
    destruct (agrees c (ins E d) (shown c p)) eqn:AG; [|apply Q; exact LK].
    apply N.
    - destruct (kind c); split; reflexivity.
    - cbn [note since asks fst snd]. rewrite LK. pose proof (v_t _ _ _ _ _ V) as VT. unfold gateway. destruct (kind c); cbn; congruence || reflexivity.
    - intros K. cbn [note seen asks fst snd]. rewrite LK, K. reflexivity. }
  destruct (shown c p); try discriminate NS; cbn [wnum]; change (1 =? 3) with false; change (1 =? 2) with false; change (1 =? 1) with true;
    change (0 =? 3) with false; change (0 =? 2) with false; change (0 =? 1) with false; change (0 =? 0) with true; cbv iota; destruct (man s); apply M.
Qed.

(** * Steps *)

Lemma obeyed c wm rm s p d x q m' s' :
  good c -> vinv c wm rm s p -> asks c (held p) d (fst x) = Some q -> fst x <> Sent ->
  done c (now (snd x)) (asked p) q wm s m' s' -> (seats c = false -> is_seat q = false) ->
  vinv c m' rm s' (note c d p x).
Proof.
  intros H V A NS D SQ.
  assert (L : looks c d x p = false) by (unfold looks; destruct (fst x); try reflexivity; discriminate A).
  assert (HD : held1 d (fst x) (held p) = held p) by (destruct (fst x); try reflexivity; discriminate A).
  unfold note. rewrite A, L, HD, andb_false_r, orb_false_r. split; cbn [held asked gone since seen].
  - rewrite (d_man _ _ _ _ _ _ _ _ D). apply (v_man _ _ _ _ _ V).
  - apply (d_own _ _ _ _ _ _ _ _ D).
  - intros G i Hi. destruct (fst x); try congruence; apply (v_sent _ _ _ _ _ V G i Hi).
  - apply (d_st _ _ _ _ _ _ _ _ D).
  - rewrite (d_t _ _ _ _ _ _ _ _ D), (v_t _ _ _ _ _ V). reflexivity.
  - intros K. rewrite (d_err _ _ _ _ _ _ _ _ D). apply (v_err _ _ _ _ _ V K).
  - intros S. split; [auto|]. destruct (fst x); try congruence; apply (v_seat _ _ _ _ _ V S).
Qed.

(** Nothing happens to the valve. *)
Lemma idle c wm wm' rm s p d x : vinv c wm rm s p ->
  (forall i, In i (sols c) -> bit wm' (sol c i) = bit wm (sol c i)) ->
  asks c (held p) d (fst x) = None -> looks c d x p = false -> fst x <> Sent -> held1 d (fst x) (held p) = held p ->
  vinv c wm' rm s (note c d p x).
Proof.
  intros V B A L N HD. unfold note. rewrite A, L, HD, andb_false_r. cbn [orb]. split; cbn [held asked gone since seen].
  - apply (v_man _ _ _ _ _ V).
  - intros i Hi. rewrite B by assumption. apply (v_own _ _ _ _ _ V i Hi).
  - intros G i Hi. destruct (fst x); try congruence; apply (v_sent _ _ _ _ _ V G i Hi).
  - apply (v_st _ _ _ _ _ V).
  - apply (v_t _ _ _ _ _ V).
  - apply (v_err _ _ _ _ _ V).
  - intros S. pose proof (v_seat _ _ _ _ _ V S). destruct (fst x); try congruence; assumption.
Qed.

Lemma meaning_seat c n q : meaning c n = Some q -> seats c = false -> is_seat q = false.
Proof.
  unfold meaning. intros H S. rewrite S in H. cbn [andb] in H. destruct (n =? 0); [injection H as <-; reflexivity|].
  destruct (gateway c && negb false && ((n =? 2) || (n =? 3))); [discriminate|]. injection H as <-. reflexivity.
Qed.

(** Bits of [D] and the rest. *)
Definition outside (K : Z -> conf) (D : list Z) (x : Z * Z) : Prop := 0 <= snd x < 8 /\ forall d, In d D -> ~ owns (K d) x.

Record pinv (K : Z -> conf) (D : list Z) (p : plant) (P : Z -> past) : Prop := {
  i_v : forall d, In d D -> vinv (K d) (W p) (R p) (vs p d) (P d);
  i_out : forall x, outside K D x -> bit (W p) x = false }.

Lemma upd_vs p d x e : vs (upd p d x) e = if e =? d then snd x else vs p e.
Proof. reflexivity. Qed.

Lemma ordered K D p P d q x m' s' :
  (forall e, In e D -> good (K e)) -> apart K D -> pinv K D p P -> In d D -> target (fst x) = Some d ->
  asks (K d) (held (P d)) d (fst x) = Some q ->
  done (K d) (now (snd x)) (asked (P d)) q (W p) (vs p d) m' s' -> (seats (K d) = false -> is_seat q = false) ->
  pinv K D (upd p d (m', s')) (fun e => note (K e) e (P e) x).
Proof.
  intros HG HA I Hd Tx A D0 SQ.
  assert (NS : fst x <> Sent) by (intros E; rewrite E in Tx; discriminate). split.
  - intros e He. rewrite upd_vs. cbn [upd W R fst snd]. destruct (Z.eqb_spec e d) as [->|N].
    + eapply obeyed; try eassumption; [apply HG; assumption|apply (i_v _ _ _ _ I d Hd)].
    + apply (idle _ (W p)).
      * apply (i_v _ _ _ _ I e He).
      * intros i Hi. apply (d_frame _ _ _ _ _ _ _ _ D0).
        -- apply sol_range.
        -- intros O. apply N. apply (HA e d (sol (K e) i) He Hd); [apply sol_owned; assumption|assumption].
      * destruct (fst x); cbn in Tx |- *; try discriminate; injection Tx as ->; replace (d =? e) with false by lia; reflexivity.
      * unfold looks. destruct (fst x); try reflexivity. cbn in Tx. injection Tx as ->. discriminate A.
      * exact NS.
      * destruct (fst x); try reflexivity. discriminate A.
  - intros y (Hy & Ny). cbn [upd W fst]. rewrite (d_frame _ _ _ _ _ _ _ _ D0) by (assumption || (apply Ny; assumption)).
    apply (i_out _ _ _ _ I). split; assumption.
Qed.

(** An order that does nothing. *)
Lemma ignored K D p P x :
  pinv K D p P ->
  (forall e, In e D -> asks (K e) (held (P e)) e (fst x) = None /\ looks (K e) e x (P e) = false /\ held1 e (fst x) (held (P e)) = held (P e)) ->
  fst x <> Sent -> pinv K D p (fun e => note (K e) e (P e) x).
Proof.
  intros I H N. split; [|apply (i_out _ _ _ _ I)]. intros e He. destruct (H e He) as (A & B & C).
  apply (idle _ (W p)); try assumption; [apply (i_v _ _ _ _ I e He)|reflexivity].
Qed.
Lemma same_plant K D p d P : pinv K D p P -> pinv K D (upd p d (W p, vs p d)) P.
Proof.
  intros I. split; [|exact (i_out _ _ _ _ I)]. intros e He. rewrite upd_vs. cbn [upd W R fst snd].
  destruct (Z.eqb_spec e d) as [->|]; apply (i_v _ _ _ _ I); assumption.
Qed.

Lemma asks_none c b e o : target o <> Some e -> asks c b e o = None.
Proof. destruct o; cbn; intros H; try reflexivity; destruct (Z.eqb_spec d e); try congruence; reflexivity. Qed.
Lemma held1_none e o b : target o <> Some e -> held1 e o b = b.
Proof. destruct o; cbn; intros H; try reflexivity. destruct (Z.eqb_spec d e); congruence || reflexivity. Qed.
Lemma looks_none c e x p : target (fst x) <> Some e -> looks c e x p = false.
Proof. unfold looks. destruct (fst x); cbn; intros H; try reflexivity. destruct (Z.eqb_spec d e); congruence || reflexivity. Qed.
Lemma looks_order c e x p : (forall d, fst x <> Poll d) -> looks c e x p = false.
Proof. unfold looks. intros H. destruct (fst x); try reflexivity. destruct (H d eq_refl). Qed.
Lemma held1_order e o b : (forall d n, o <> Man d n) -> held1 e o b = b.
Proof. destruct o; cbn; intros H; try reflexivity. destruct (H d n eq_refl). Qed.

Lemma step_inv w K D p P x :
  (forall e, In e D -> good (K e)) -> apart K D -> pinv K D p P ->
  (forall d, target (fst x) = Some d -> In d D) ->
  (forall e, In e D -> past_ok (P e) (now (snd x))) ->
  exists p', step w K p x = Some p' /\ pinv K D p' (fun e => note (K e) e (P e) x).
Proof.
  intros HG HA I HT HP. destruct x as (o, E). cbn [fst snd] in *.
  (* orders that may be ignored or obeyed *)
  assert (OB : forall d q r, target o = Some d -> asks (K d) (held (P d)) d o = Some q -> (seats (K d) = false -> is_seat q = false) ->
     (exists m' s', r = Some (m', s') /\ done (K d) (now E) (asked (P d)) q (W p) (vs p d) m' s') ->
     exists p', upd_o p d r = Some p' /\ pinv K D p' (fun e => note (K e) e (P e) (o, E))).
  { intros d q r Td A SQ (m' & s' & -> & D0). exists (upd p d (m', s')). split; [reflexivity|].
    eapply (ordered K D p P d q (o, E)); try eassumption. apply HT. assumption. }
  assert (IG : forall d, target o = Some d -> asks (K d) (held (P d)) d o = None -> (forall y, o <> Poll y) -> (forall y n, o <> Man y n) ->
     pinv K D p (fun e => note (K e) e (P e) (o, E))).
  { intros d Td A NP NM. apply ignored; [assumption| |cbn; intros ->; discriminate]. intros e He. cbn [fst].
    repeat split; [|apply looks_order; assumption|apply held1_order; assumption].
    destruct (Z.eq_dec e d) as [->|N]; [assumption|]. apply asks_none. congruence. }
  assert (DS : forall d, In d D -> fits (K d) (W p) (vs p d) (asked (P d))) by (intros d Hd; eapply vinv_fits; apply (i_v _ _ _ _ I d Hd)).
  assert (MN : forall d, In d D -> man (vs p d) = held (P d)) by (intros d Hd; apply (v_man _ _ _ _ _ (i_v _ _ _ _ I d Hd))).
  destruct o as [d|d|d n|d u|d n|d n|d| ]; unfold step; cbn [fst snd]; cbv zeta.
  - pose proof (HT d eq_refl) as Hd. rewrite (MN d Hd). destruct (held (P d)) eqn:M.
    + exists p. split; [reflexivity|]. apply (IG d); try reflexivity; try discriminate. cbn. rewrite M, andb_false_r. reflexivity.
    + apply (OB d Open); [reflexivity|cbn; rewrite M, Z.eqb_refl; reflexivity|reflexivity|].
      apply do_on; auto.
  - pose proof (HT d eq_refl) as Hd. rewrite (MN d Hd). destruct (held (P d)) eqn:M.
    + exists p. split; [reflexivity|]. apply (IG d); try reflexivity; try discriminate. cbn. rewrite M, andb_false_r. reflexivity.
    + apply (OB d Shut); [reflexivity|cbn; rewrite M, Z.eqb_refl; reflexivity|reflexivity|].
      apply do_off; auto.
  - pose proof (HT d eq_refl) as Hd. rewrite (MN d Hd). destruct (held (P d)) eqn:M.
    + exists p. split; [reflexivity|]. apply (IG d); try reflexivity; try discriminate. cbn. rewrite M, andb_false_r. reflexivity.
    + pose proof (do_set (K d) (now E) n (W p) (vs p d) (asked (P d)) (HG d Hd) (DS d Hd)) as S.
      destruct (meaning (K d) n) as [q|] eqn:MG.
      * apply (OB d q); [reflexivity|cbn; rewrite M, Z.eqb_refl; exact MG|apply (meaning_seat _ _ _ MG)|exact S].
      * rewrite S. exists (upd p d (W p, vs p d)). split; [reflexivity|]. apply same_plant. apply (IG d); try reflexivity; try discriminate.
        cbn. rewrite M, Z.eqb_refl. exact MG.
  - pose proof (HT d eq_refl) as Hd.
    pose proof (do_seat (K d) u (now E) (W p) (vs p d) (asked (P d)) (HG d Hd) (DS d Hd)) as S.
    destruct (seats (K d)) eqn:SE.
    + apply (OB d (seat u)); [reflexivity|cbn; rewrite SE, Z.eqb_refl; destruct u; reflexivity|congruence|exact S].
    + rewrite S. exists (upd p d (W p, vs p d)). split; [reflexivity|]. apply same_plant. apply (IG d); try reflexivity; try discriminate.
      cbn. rewrite SE, andb_false_r. reflexivity.
  - pose proof (HT d eq_refl) as Hd.
    pose proof (do_set (K d) (now E) n (W p) (vs p d) (asked (P d)) (HG d Hd) (DS d Hd)) as S.
    destruct (meaning (K d) n) as [q|] eqn:MG.
    + apply (OB d q); [reflexivity|cbn; rewrite Z.eqb_refl; exact MG|apply (meaning_seat _ _ _ MG)|exact S].
    + rewrite S. exists (upd p d (W p, vs p d)). split; [reflexivity|]. apply same_plant. apply (IG d); try reflexivity; try discriminate.
      cbn. rewrite Z.eqb_refl. exact MG.
  - pose proof (HT d eq_refl) as Hd.
    assert (MM : forall b, (if n =? 0 then Some false else if n =? 1 then Some true else None) = Some b ->
       pinv K D (upd p d (W p, wman b (vs p d))) (fun e => note (K e) e (P e) (Man d n, E))).
    { intros b Hb. split; [|exact (i_out _ _ _ _ I)]. intros e He. rewrite upd_vs. cbn [upd W R fst snd].
      pose proof (i_v _ _ _ _ I e He) as V. destruct (Z.eqb_spec e d) as [->|N].
      - split; cbn [note held asked gone since seen asks looks held1 fst snd]; rewrite ?andb_false_r; cbn [orb].
        + rewrite Z.eqb_refl. cbn [man wman]. destruct (n =? 0); [congruence|]. destruct (n =? 1); congruence.
        + apply (v_own _ _ _ _ _ V).
        + apply (v_sent _ _ _ _ _ V).
        + apply (v_st _ _ _ _ _ V).
        + apply (v_t _ _ _ _ _ V).
        + apply (v_err _ _ _ _ _ V).
        + apply (v_seat _ _ _ _ _ V).
      - apply (idle _ (W p)); try assumption; try reflexivity; [discriminate|]. cbn. replace (d =? e) with false by lia. reflexivity. }
    destruct (n =? 0) eqn:E0; [eexists; split; [reflexivity|apply MM; reflexivity]|].
    destruct (n =? 1) eqn:E1; [eexists; split; [reflexivity|apply MM; reflexivity]|].
    exists p. split; [reflexivity|]. apply ignored; [assumption| |discriminate]. intros e He. cbn [fst]. repeat split.
    cbn. rewrite E0, E1. destruct (d =? e); reflexivity.
  - pose proof (HT d eq_refl) as Hd. eexists. split; [reflexivity|]. split; [|exact (i_out _ _ _ _ I)].
    intros e He. rewrite upd_vs. cbn [upd W R fst snd]. pose proof (i_v _ _ _ _ I e He) as V. destruct (Z.eqb_spec e d) as [->|N].
    + apply polled; auto.
    + apply (idle _ (W p)); try assumption; try reflexivity; [|discriminate]. apply looks_none. cbn. congruence.
  - eexists. split; [reflexivity|]. split; [|exact (i_out _ _ _ _ I)]. cbn [W R vs].
    intros e He. pose proof (i_v _ _ _ _ I e He) as V. split; cbn [note held asked gone since seen asks looks held1 fst snd]; rewrite ?andb_false_r; cbn [orb].
    + apply (v_man _ _ _ _ _ V).
    + apply (v_own _ _ _ _ _ V).
    + intros _. apply (v_own _ _ _ _ _ V).
    + apply (v_st _ _ _ _ _ V).
    + apply (v_t _ _ _ _ _ V).
    + apply (v_err _ _ _ _ _ V).
    + intros S. destruct (v_seat _ _ _ _ _ V S). split; assumption.
Qed.

Lemma note_ok c d p x : past_ok p (now (snd x)) -> past_ok (note c d p x) (now (snd x)).
Proof.
  intros ((A & B) & (C & D)). unfold past_ok, note. cbn [since seen].
  split.
  - destruct (_ || _); lia.
  - destruct (looks c d x p); lia.
Qed.
Lemma past_later p t u : past_ok p t -> t <= u -> past_ok p u.
Proof. unfold past_ok. intros. lia. Qed.
Lemma timely_ok w t l c d p : timely w t l -> past_ok p t -> forall u, (forall x, In x l -> now (snd x) <= u) -> t <= u -> past_ok (fold_left (note c d) l p) u.
Proof.
  revert t p. induction l as [|x l IH]; intros t p T O u U Hu; cbn [fold_left].
  - apply (past_later p t); assumption.
  - destruct T as (T1 & T2). apply (IH (now (snd x))); [assumption| | |].
    + apply note_ok. apply (past_later p t); [assumption|lia].
    + intros y Hy. apply U. right. assumption.
    + apply U. left. reflexivity.
Qed.

Lemma run_inv w K D : (forall e, In e D -> good (K e)) -> apart K D ->
  forall l t p P, timely w t l -> within D l -> pinv K D p P -> (forall e, In e D -> past_ok (P e) t) ->
  exists p', run w K p l = Some p' /\ pinv K D p' (fun e => fold_left (note (K e) e) l (P e)).
Proof.
  intros HG HA. induction l as [|x l IH]; intros t p P T WI I O.
  - exists p. split; [reflexivity|]. cbn. exact I.
  - destruct T as (T1 & T2). inversion WI as [|? ? W1 W2]; subst.
    destruct (step_inv w K D p P x HG HA I W1) as (p1 & E1 & I1).
    { intros e He. apply (past_later _ t); [apply O; assumption|lia]. }
    cbn [run]. rewrite E1.
    destruct (IH (now (snd x)) p1 (fun e => note (K e) e (P e) x) T2 W2 I1) as (p2 & E2 & I2).
    { intros e He. apply note_ok. apply (past_later _ t); [apply O; assumption|lia]. }
    exists p2. split; assumption.
Qed.

Lemma start_inv K D t0 : pinv K D (start t0) (fun _ => fresh t0).
Proof.
  split.
  - intros d Hd. split; cbn; try reflexivity.
    + intros i Hi. unfold bit. cbn. apply Z.bits_0.
    + intros _ i Hi. unfold bit. cbn. apply Z.bits_0.
    + intros _. split; reflexivity.
  - intros x _. unfold bit. cbn. apply Z.bits_0.
Qed.

Theorem history w K D t0 l :
  (forall e, In e D -> good (K e)) -> apart K D -> 0 <= t0 -> timely w t0 l -> within D l ->
  exists p, run w K (start t0) l = Some p /\ pinv K D p (fun e => past_of (K e) e t0 l).
Proof.
  intros HG HA H0 T WI. apply (run_inv w K D HG HA l t0); try assumption; [apply start_inv|].
  intros e He. unfold past_ok. cbn. lia.
Qed.
