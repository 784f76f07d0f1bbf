(** The model of power units and circuit breakers against the specification. *)
From Coq Require Import ZArith List Bool Lia.
From Verif Require Import Base TimeModel PowModel PowSpec.
Import ListNotations.
Open Scope Z_scope.

Lemma delta_ge w n t : 0 <= t <= n -> get_delta_millisec w n t = n - t.
Proof.
  intros H. unfold get_delta_millisec. replace (n <? t) with false by lia. replace (t <=? n) with true by lia. reflexivity.
Qed.
Lemma eight (P : Z -> Prop) : P 1 -> P 2 -> P 3 -> P 4 -> P 5 -> P 6 -> P 7 -> P 8 -> forall c, 1 <= c <= 8 -> P c.
Proof.
  intros. assert (C : c = 1 \/ c = 2 \/ c = 3 \/ c = 4 \/ c = 5 \/ c = 6 \/ c = 7 \/ c = 8) by lia.
  destruct C as [->|[->|[->|[->|[->|[->|[->| ->]]]]]]]; assumption.
Qed.
Lemma four (P : Z -> Prop) : P 1 -> P 2 -> P 3 -> P 4 -> forall c, 1 <= c <= 4 -> P c.
Proof. intros. assert (C : c = 1 \/ c = 2 \/ c = 3 \/ c = 4) by lia. destruct C as [->|[->|[->| ->]]]; assumption. Qed.

(** * Bytes *)

Lemma stat_spec b c : 1 <= c <= 8 -> stat b c = is_on b c.
Proof. revert c. apply eight; reflexivity. Qed.
Lemma nom_spec b c : 1 <= c <= 8 -> nom b c = current b c.
Proof. revert c. apply eight; reflexivity. Qed.
Lemma nom_range b c : 0 <= nom b c < 8.
Proof. unfold nom, fld. destruct (c mod 2 =? 1); change (2 ^ 3) with 8; apply Z.mod_pos_bound; lia. Qed.

(** The records of the device keep their fields in range. *)
Definition fits (m : Z) (o : out) : Prop := forall c, 0 <= nm o c < m.
Lemma take_out o : take (out_byte o) = flag o.
Proof. unfold take, out_byte. cbn [Z.eqb]. destruct (flag o); reflexivity. Qed.
Lemma switch_out o c : 1 <= c <= 8 -> switch (out_byte o) c = sw o c.
Proof.
  revert c. unfold switch, out_byte. cbn [Z.eqb Z.leb Z.compare andb Pos.compare Pos.compare_cont].
  apply eight; destruct (sw o 1), (sw o 2), (sw o 3), (sw o 4), (sw o 5), (sw o 6), (sw o 7), (sw o 8); reflexivity.
Qed.
Lemma low3 a b : 0 <= a < 8 -> 0 <= b < 8 -> bits (a + 8 * b) 0 3 = a /\ bits (a + 8 * b) 3 3 = b.
Proof.
  intros A B. unfold bits. change (2 ^ 0) with 1. change (2 ^ 3) with 8. rewrite Z.div_1_r. split.
  - rewrite (Z.mul_comm 8 b), Z_mod_plus_full. apply Z.mod_small; lia.
  - rewrite (Z.mul_comm 8 b), Z.div_add by lia. rewrite (Z.div_small a 8) by lia. rewrite Z.mod_small; lia.
Qed.
Lemma rated_out o c : fits 8 o -> 1 <= c <= 8 -> rated (out_byte o) c = nm o c.
Proof.
  intros F. revert c.
  assert (H : forall n, 1 <= n <= 4 -> out_byte o n = nm o (2 * n) + 8 * nm o (2 * n - 1)).
  { intros n N. unfold out_byte. replace (n =? 0) with false by lia. replace ((1 <=? n) && (n <=? 4)) with true by lia. reflexivity. }
  assert (G : forall n, 1 <= n <= 4 -> bits (out_byte o n) 0 3 = nm o (2 * n) /\ bits (out_byte o n) 3 3 = nm o (2 * n - 1)).
  { intros n N. rewrite H by exact N. apply low3; apply F. }
  apply eight.
  - apply (G 1); lia.
  - apply (G 1); lia.
  - apply (G 2); lia.
  - apply (G 2); lia.
  - apply (G 3); lia.
  - apply (G 3); lia.
  - apply (G 4); lia.
  - apply (G 4); lia.
Qed.
Lemma sync_fits b : fits 8 (sync b).
Proof. intros c. apply nom_range. Qed.
Lemma sync_echo b : echo (out_byte (sync b)) b.
Proof.
  split; [apply take_out|]. intros c C. rewrite switch_out, rated_out by (assumption || apply sync_fits). split; [apply stat_spec; exact C|apply nom_spec; exact C].
Qed.

(** * Runs *)

Lemma run_app w l1 : forall s l2, run w s (l1 ++ l2) = match run w s l1 with None => None | Some s1 => run w s1 l2 end.
Proof.
  induction l1 as [|e l IH]; intros s l2; cbn [app run]; [reflexivity|]. destruct (step w s e); [apply IH|reflexivity].
Qed.

Record inv (s : pus) (p : bool * option Z) (t : Z) : Prop := {
  i_man : man s = fst p;
  i_busy : busy s = match snd p with Some _ => true | None => false end;
  i_tc : match snd p with Some u => tc s = u /\ 0 <= u <= t | None => True end;
  i_fits : fits 8 (area s) /\ fits 8 (stub s);
  i_pos : 0 <= t }.
Lemma upd_range f c v n : (forall k, 0 <= f k < 8) -> 0 <= upd f c (v mod 8) n < 8.
Proof. intros H. unfold upd. destruct (n =? c); [apply Z.mod_pos_bound; lia|apply H]. Qed.

Definition after (t : Z) (e : ev) : Z := match time_of e with Some t' => t' | None => t end.
Lemma timely_cons w t e l : timely w t (e :: l) -> (t <= after t e) /\ timely w (after t e) l.
Proof. cbn [timely]. unfold after. destruct (time_of e); [intros ((A & _) & B); split; assumption|intros H; split; [lia|exact H]]. Qed.

(** The order as the specification sees it: the effect on the record. *)
Lemma step_order w s e s' t : step w s e = Some s' -> order_time (man s) e = Some t -> (forall i, e <> Cycle i) ->
  exists f, s' = order t f s /\ (forall o, flag (f o) = flag o) /\ (forall o, fits 8 o -> fits 8 (f o)) /\
    forall o c, 1 <= c <= 8 -> sw (f o) c = order_sw c (sw o c) e /\ nm (f o) c = order_nm c (nm o c) e.
Proof.
  intros H T NC. destruct e; cbn in T; try discriminate; cbn [step] in H.
  - destruct (man s); [discriminate|]. injection H as <-. injection T as <-. exists (all_sw true). split; [reflexivity|]. split; [intros; reflexivity|]. split; [auto|]. intros; split; reflexivity.
  - destruct (man s); [discriminate|]. injection H as <-. injection T as <-. exists (all_sw false). split; [reflexivity|]. split; [intros; reflexivity|]. split; [auto|]. intros; split; reflexivity.
  - destruct (man s); [discriminate|]. injection H as <-. injection T as <-. exists (all_sw (negb (n =? 0))). split; [reflexivity|]. split; [intros; reflexivity|]. split; [auto|]. intros; split; reflexivity.
  - destruct (to_byte v); [|discriminate]. injection H as <-. injection T as <-. eexists. split; [reflexivity|].
    split; [intros o; destruct (ch_ok 8 c); reflexivity|]. split; [intros o; destruct (ch_ok 8 c); auto|].
    intros o k K. cbn [order_sw order_nm]. unfold ch_ok. rewrite (Z.eqb_sym c k).
    destruct ((1 <=? c) && (c <=? 8)) eqn:CK; cbn [sw nm]; unfold upd; [destruct (k =? c); split; reflexivity|].
    destruct (Z.eqb_spec k c); [exfalso; lia|split; reflexivity].
  - destruct (to_byte v); [|discriminate]. injection H as <-. injection T as <-. eexists. split; [reflexivity|].
    split; [intros o; destruct (ch_ok 8 c); reflexivity|]. split; [intros o F; destruct (ch_ok 8 c); [intros k; cbn [nm]; apply upd_range, F|exact F]|].
    intros o k K. cbn [order_sw order_nm]. unfold ch_ok. rewrite (Z.eqb_sym c k).
    destruct ((1 <=? c) && (c <=? 8)) eqn:CK; cbn [sw nm]; unfold upd; [destruct (k =? c); split; reflexivity|].
    destruct (Z.eqb_spec k c); [exfalso; lia|split; reflexivity].
Qed.
Lemma step_other w s e s' : step w s e = Some s' -> order_time (man s) e = None -> (forall i, e <> Cycle i) ->
  att s' = att s /\ stub s' = stub s /\ area s' = area s /\ busy s' = busy s /\ tc s' = tc s /\ pin s' = pin s /\
  man s' = fst (note (man s, None) e).
Proof.
  intros H T NC. destruct e; cbn in T; try discriminate; cbn [step] in H.
  - exfalso. eapply NC. reflexivity.
  - destruct (man s) eqn:M; [|discriminate]. injection H as <-. repeat split; try reflexivity. exact M.
  - destruct (man s) eqn:M; [|discriminate]. injection H as <-. repeat split; try reflexivity. exact M.
  - injection H as <-. repeat split; reflexivity.
  - destruct (man s) eqn:M; [|discriminate]. injection H as <-. repeat split; try reflexivity. exact M.
  - injection H as <-. repeat split; reflexivity.
Qed.
Lemma note_order m o e t : order_time m e = Some t -> (forall i, e <> Cycle i) -> note (m, o) e = (m, Some t).
Proof. intros T NC. destruct e; cbn in T; try discriminate; cbn [note]; cbn [order_time]; rewrite T; reflexivity. Qed.
Lemma note_none m o e : order_time m e = None -> (forall i, e <> Cycle i) -> note (m, o) e = (fst (note (m, None) e), o).
Proof. intros T NC. destruct e; cbn [note fst]; try (rewrite T; reflexivity); try reflexivity. exfalso. eapply NC. reflexivity. Qed.
Lemma not_cycle e : (exists i, e = Cycle i) \/ (forall i, e <> Cycle i).
Proof. destruct e; [left; eexists; reflexivity|right; intros j; discriminate..]. Qed.

Lemma fits_order f s t : (forall o, fits 8 o -> fits 8 (f o)) -> fits 8 (area s) /\ fits 8 (stub s) -> fits 8 (area (order t f s)) /\ fits 8 (stub (order t f s)).
Proof. intros F (A & B). cbn [order area stub]. destruct (att s); split; auto. Qed.
Lemma step_inv w s p t e s' : inv s p t -> timely w t [e] -> step w s e = Some s' -> inv s' (note p e) (after t e).
Proof.
  intros [I1 I2 I3 I4 I5] T H. destruct p as (m, o). cbn [fst snd] in *.
  destruct (timely_cons w t e [] T) as (TA & _).
  destruct (not_cycle e) as [(i & ->)|NC].
  - cbn [step] in H. injection H as <-. unfold after in *. cbn [time_of] in *. cbn [note]. unfold evaluate.
    destruct (ok i); cbn [andb].
    + rewrite I2. destruct o as [u|].
      * destruct I3 as (E & B). rewrite E, delta_ge by lia. destruct (1000 <? now i - u) eqn:D.
        -- constructor; cbn [man busy tc area stub fst snd]; auto; [split; [apply sync_fits|apply I4]|lia].
        -- constructor; cbn [man busy tc area stub fst snd]; auto; [lia| |lia]. split; [|apply I4]. destruct (300 <? now i - u); [intros c; apply I4|apply I4].
      * constructor; cbn [man busy tc area stub fst snd]; auto; [split; [apply sync_fits|apply I4]|lia].
    + constructor; cbn [man busy tc area stub fst snd]; auto; [destruct o; exact I2| |lia]. destruct o; [lia|exact I].
  - destruct (order_time (man s) e) as [u|] eqn:OT.
    + destruct (step_order w s e s' u H OT NC) as (f & -> & F1 & F2 & _).
      rewrite (note_order m o e u) by (rewrite <- ?I1; assumption).
      assert (AU : after t e = u).
      { unfold after. destruct e; cbn in OT; cbn [time_of]; try discriminate; try (destruct (man s); [discriminate|]); injection OT as <-; reflexivity. }
      constructor; cbn [fst snd]; [exact I1|reflexivity|cbn [order tc]; rewrite AU in *; lia|apply fits_order; assumption|lia].
    + destruct (step_other w s e s' H OT NC) as (A1 & A2 & A3 & A4 & A5 & A6 & A7).
      rewrite note_none by (rewrite <- ?I1; assumption). rewrite I1 in A7.
      constructor; cbn [fst snd]; [exact A7|congruence| |rewrite A2, A3; exact I4|lia]. rewrite A5. destruct o; [lia|exact I].
Qed.
Fixpoint last_t (t : Z) (l : list ev) : Z := match l with [] => t | e :: r => last_t (after t e) r end.
Lemma run_inv w l : forall s p t s', inv s p t -> timely w t l -> run w s l = Some s' -> inv s' (fold_left note l p) (last_t t l).
Proof.
  induction l as [|e l IH]; intros s p t s' I T R; cbn [run] in R; [injection R as <-; exact I|].
  destruct (step w s e) as [s1|] eqn:E; [|discriminate]. cbn [fold_left last_t].
  assert (T1 : timely w t [e]) by (cbn [timely] in *; destruct (time_of e); [split; [apply T|exact Logic.I]|exact Logic.I]).
  apply (IH s1); [apply (step_inv w s p t e s1 I T1 E)|apply (timely_cons w t e l T)|exact R].
Qed.
Lemma inv_new t : 0 <= t -> inv new_pu (false, None) t.
Proof. intros H. constructor; cbn; auto. split; intros c; cbn; lia. Qed.
Lemma history w t0 l s : 0 <= t0 -> timely w t0 l -> run w new_pu l = Some s -> inv s (past_of l) (last_t t0 l).
Proof. intros H T R. exact (run_inv w l _ _ _ _ (inv_new t0 H) T R). Qed.
Lemma timely_app w l1 : forall t l2, timely w t (l1 ++ l2) -> timely w t l1 /\ timely w (last_t t l1) l2.
Proof.
  induction l1 as [|e l IH]; intros t l2 T; cbn [app] in *; [split; [exact I|exact T]|].
  cbn [timely last_t] in *. unfold after. destruct (time_of e); [destruct T as (A & B); destruct (IH _ _ B); tauto|destruct (IH _ _ T); tauto].
Qed.
Lemma last_mono w l : forall t, timely w t l -> t <= last_t t l.
Proof.
  induction l as [|e l IH]; intros t T; cbn [last_t]; [lia|]. destruct (timely_cons w t e l T) as (A & B). specialize (IH _ B). lia.
Qed.

(** A list of orders, all effective. *)
Definition orders (m : bool) (cs : list ev) : Prop := Forall (fun e => order_time m e <> None) cs.
Lemma orders_nc m e : order_time m e <> None -> forall i, e <> Cycle i.
Proof. intros H i ->. apply H. reflexivity. Qed.
Lemma run_orders w cs : forall s s', att s = true -> orders (man s) cs -> fits 8 (area s) -> run w s cs = Some s' ->
  att s' = true /\ man s' = man s /\ flag (area s') = flag (area s) /\ fits 8 (area s') /\
  (forall c, 1 <= c <= 8 -> sw (area s') c = fold_left (order_sw c) cs (sw (area s) c) /\ nm (area s') c = fold_left (order_nm c) cs (nm (area s) c)) /\
  (cs = [] \/ (busy s' = true /\ exists e, In e cs /\ last cs e = e /\ order_time (man s) e = Some (tc s'))).
Proof.
  induction cs as [|e cs IH]; intros s s' A O F R; cbn [run] in R.
  - injection R as <-. repeat split; auto; apply F.
  - destruct (step w s e) as [s1|] eqn:E; [|discriminate]. inversion O as [|? ? O1 O2]; subst.
    destruct (order_time (man s) e) as [u|] eqn:OT; [|congruence].
    destruct (step_order w s e s1 u E OT (orders_nc (man s) e ltac:(congruence))) as (f & -> & F1 & F2 & F3).
    assert (AR : area (order u f s) = f (area s)) by (cbn [order area]; rewrite A; reflexivity).
    destruct (IH (order u f s) s' A O2 ltac:(rewrite AR; apply F2; exact F) R) as (B1 & B2 & B3 & B4 & B5 & B6).
    split; [exact B1|]. split; [exact B2|]. split; [rewrite B3, AR; apply F1|]. split; [exact B4|]. split.
    + intros c C. destruct (B5 c C) as (X & Y). rewrite X, Y, AR. cbn [fold_left]. destruct (F3 (area s) c C) as (-> & ->). split; reflexivity.
    + right. destruct cs as [|e2 cs].
      * cbn [run] in R. injection R as <-. split; [reflexivity|]. exists e. split; [left; reflexivity|]. split; [reflexivity|exact OT].
      * destruct B6 as [B6|(B6 & e3 & B7 & B8 & B9)]; [discriminate|]. split; [exact B6|]. exists e3. split; [right; exact B7|]. split; [cbn [last] in *; exact B8|exact B9].
Qed.
(** Cycles of a working port while an order is in progress. *)
Lemma run_wait w js : forall s s', busy s = true -> 0 <= tc s -> Forall (fun i => ok i = true /\ tc s <= now i /\ now i - tc s <= 1000) js ->
  run w s (map Cycle js) = Some s' ->
  busy s' = true /\ tc s' = tc s /\ sw (area s') = sw (area s) /\ nm (area s') = nm (area s) /\ man s' = man s /\
  flag (area s') = flag (area s) || existsb (fun i => 300 <? now i - tc s) js.
Proof.
  induction js as [|i js IH]; intros s s' B T F R; cbn [map run] in R.
  - injection R as <-. rewrite orb_false_r. repeat split; auto.
  - cbn [step] in R. inversion F as [|? ? (F1 & F2 & F3) F4]; subst.
    remember (evaluate w i s) as s1 eqn:E.
    assert (X : busy s1 = true /\ tc s1 = tc s /\ sw (area s1) = sw (area s) /\ nm (area s1) = nm (area s) /\ man s1 = man s /\ flag (area s1) = flag (area s) || (300 <? now i - tc s)).
    { subst s1. unfold evaluate. rewrite F1, B, delta_ge by lia. replace (1000 <? now i - tc s) with false by lia.
      destruct (300 <? now i - tc s); cbn [busy tc area sw nm flag man]; rewrite ?orb_true_r, ?orb_false_r; repeat split; auto. }
    destruct X as (X1 & X2 & X3 & X4 & X6 & X5). assert (F5 : Forall (fun i => ok i = true /\ tc s1 <= now i /\ now i - tc s1 <= 1000) js) by (rewrite X2; exact F4).
    destruct (IH s1 s' X1 ltac:(lia) F5 R) as (Y1 & Y2 & Y3 & Y4 & Y6 & Y5).
    rewrite Y3, Y4, Y5, Y6, X3, X4, X5, X6, Y2, X2. cbn [existsb]. rewrite orb_assoc. repeat split; auto.
Qed.

(** * Commands *)

Lemma last_app_cycle t l i : last_t t (l ++ [Cycle i]) = now i.
Proof. revert t. induction l as [|e l IH]; intros t; [reflexivity|apply IH]. Qed.
Lemma fold_app_note l1 l2 p : fold_left note (l1 ++ l2) p = fold_left note l2 (fold_left note l1 p).
Proof. apply fold_left_app. Qed.
Lemma orders_note m cs : orders m cs -> forall o, fst (fold_left note cs (m, o)) = m.
Proof.
  induction 1 as [|e cs H F IH]; intros o; [reflexivity|]. cbn [fold_left]. destruct (order_time m e) as [u|] eqn:E; [|congruence].
  rewrite (note_order m o e u E); [apply IH|apply (orders_nc m); congruence].
Qed.
Lemma times_sorted w t js i : timely w t (map Cycle (js ++ [i])) -> t <= now i /\ Forall (fun j => t <= now j <= now i) js.
Proof.
  revert t. induction js as [|j js IH]; intros t; cbn [app map timely time_of].
  - intros ((A & _) & _). split; [exact A|constructor].
  - intros ((A & _) & B). destruct (IH _ B) as (C & D). split; [lia|]. constructor; [lia|]. eapply Forall_impl; [|exact D]. cbn. intros; lia.
Qed.
Lemma idle_cycle w s p t i : inv s p t -> t <= now i -> ok i = true -> snd (note p (Cycle i)) = None ->
  area (evaluate w i s) = sync (bytes i).
Proof.
  intros [I1 I2 I3 I4 I5] T K N. destruct p as (m, o). cbn [note fst snd] in *. unfold evaluate. rewrite K in *. cbn [andb] in N. rewrite I2.
  destruct o as [u|]; [|reflexivity]. destruct I3 as (E & B). rewrite E, delta_ge by lia. destruct (1000 <? now i - u); [reflexivity|discriminate].
Qed.
Lemma att_evaluate w i s : att (evaluate w i s) = true.
Proof. unfold evaluate. destruct (ok i), (busy s); try reflexivity. destruct (1000 <? get_delta_millisec w (now i) (tc s)); reflexivity. Qed.

Lemma idle_state w t0 h i0 s : 0 <= t0 -> timely w t0 (h ++ [Cycle i0]) -> run w new_pu (h ++ [Cycle i0]) = Some s ->
  ok i0 = true -> in_progress (h ++ [Cycle i0]) = None -> area s = sync (bytes i0) /\ att s = true.
Proof.
  intros H0 T R K N. destruct (timely_app w h _ _ T) as (T1 & T2). rewrite run_app in R. destruct (run w new_pu h) as [s1|] eqn:E; [|discriminate].
  cbn [run step] in R. injection R as <-. pose proof (history w t0 h s1 H0 T1 E) as I.
  unfold in_progress, past_of in N. rewrite fold_app_note in N. cbn [fold_left] in N. split; [|apply att_evaluate].
  eapply idle_cycle; [exact I| |exact K|exact N]. cbn [timely time_of] in T2. lia.
Qed.

Lemma command w t0 h i0 cs js i t s :
  0 <= t0 -> timely w t0 ((h ++ [Cycle i0]) ++ cs ++ map Cycle (js ++ [i])) ->
  run w new_pu ((h ++ [Cycle i0]) ++ cs ++ map Cycle (js ++ [i])) = Some s ->
  ok i0 = true -> in_progress (h ++ [Cycle i0]) = None -> orders (manual h) cs ->
  in_progress ((h ++ [Cycle i0]) ++ cs) = Some t ->
  Forall (fun j => ok j = true) (js ++ [i]) -> now i - t <= 1000 ->
  take (sent s) = (300 <? now i - t) /\
  forall c, 1 <= c <= 8 -> switch (sent s) c = fold_left (order_sw c) cs (is_on (bytes i0) c) /\ rated (sent s) c = fold_left (order_nm c) cs (current (bytes i0) c).
Proof.
  intros H0 T R K N O P F L.
  rewrite run_app in R. destruct (run w new_pu (h ++ [Cycle i0])) as [s1|] eqn:E1; [|discriminate].
  destruct (timely_app w (h ++ [Cycle i0]) _ _ T) as (T1 & T2).
  destruct (idle_state w t0 h i0 s1 H0 T1 E1 K N) as (A1 & A2).
  pose proof (history w t0 _ s1 H0 T1 E1) as I1.
  rewrite run_app in R. destruct (run w s1 cs) as [s2|] eqn:E2; [|discriminate].
  destruct (timely_app w cs _ _ T2) as (T3 & T4).
  pose proof (run_inv w cs _ _ _ _ I1 T3 E2) as I2.
  assert (M : man s1 = manual h).
  { rewrite (i_man _ _ _ I1). unfold manual, past_of. rewrite fold_app_note. cbn [fold_left]. destruct (fold_left note h (false, None)). reflexivity. }
  rewrite <- M in O. destruct (run_orders w cs s1 s2 A2 O ltac:(rewrite A1; apply sync_fits) E2) as (B1 & B2 & B3 & B4 & B5 & _).
  unfold in_progress, past_of in P. rewrite fold_app_note in P. fold (past_of (h ++ [Cycle i0])) in P.
  destruct I2 as [J1 J2 J3 J4 J5]. rewrite P in J2, J3. destruct J3 as (J3 & J6).
  destruct (times_sorted w _ js i T4) as (S1 & S2).
  assert (W : Forall (fun j => ok j = true /\ tc s2 <= now j /\ now j - tc s2 <= 1000) (js ++ [i])).
  { apply Forall_app. apply Forall_app in F. destruct F as (F1 & F2). split.
    - rewrite Forall_forall in *. intros j IN. specialize (S2 j IN). specialize (F1 j IN). clear - S2 F1 J3 J6 L. repeat split; [exact F1|lia|lia].
    - constructor; [|constructor]. inversion F2 as [|? ? F3 F4]. clear - F3 S1 J3 J6 L. repeat split; [exact F3|lia|lia]. }
  destruct (run_wait w (js ++ [i]) s2 s J2 ltac:(clear - J3 J6; lia) W R) as (C1 & C2 & C3 & C4 & C5 & C6).
  assert (FS : fits 8 (area s)) by (intros c; rewrite C4; apply B4).
  unfold sent. split.
  - rewrite take_out, C6, B3, A1. cbn [sync flag orb]. rewrite J3, existsb_app. cbn [existsb]. rewrite orb_false_r.
    destruct (300 <? now i - t) eqn:D; [apply orb_true_r|]. rewrite orb_false_r.
    destruct (existsb (fun i1 => 300 <? now i1 - t) js) eqn:X; [|reflexivity]. exfalso.
    apply existsb_exists in X. destruct X as (j & IN & X). rewrite Forall_forall in S2. specialize (S2 j IN). clear - S2 X D. lia.
  - intros c C. rewrite switch_out, rated_out, C3, C4 by assumption. destruct (B5 c C) as (-> & ->). rewrite A1. cbn [sync sw nm].
    rewrite stat_spec, nom_spec by exact C. split; reflexivity.
Qed.

(** The unit takes outputs only while an order is in progress. *)
Definition calm (s : pus) (p : bool * option Z) : Prop := flag (stub s) = false /\ (flag (area s) = true -> snd p <> None).
Lemma step_calm w s p t e s' : inv s p t -> calm s p -> timely w t [e] -> step w s e = Some s' -> calm s' (note p e).
Proof.
  intros I [C1 C2] T H. destruct p as (m, o). cbn [fst snd] in *. pose proof I as [I1 I2 I3 I4 I5]. cbn [fst snd] in *.
  destruct (timely_cons w t e [] T) as (TA & _).
  destruct (not_cycle e) as [(i & ->)|NC].
  - cbn [step] in H. injection H as <-. unfold after in TA. cbn [time_of] in TA. cbn [note]. unfold calm, evaluate. cbn [snd].
    destruct (ok i); cbn [andb].
    + rewrite I2. destruct o as [u|].
      * destruct I3 as (E & B). rewrite E, delta_ge by lia. destruct (1000 <? now i - u); cbn [stub area sync flag]; split; auto; discriminate.
      * cbn [stub area sync flag]. split; auto; discriminate.
    + cbn [stub area]. destruct o; split; auto.
  - destruct (order_time (man s) e) as [u|] eqn:OT.
    + destruct (step_order w s e s' u H OT NC) as (f & -> & F1 & F2 & _). rewrite (note_order m o e u) by (rewrite <- ?I1; assumption).
      split; [cbn [order stub]; destruct (att s); [|rewrite F1]; exact C1|intros _; discriminate].
    + destruct (step_other w s e s' H OT NC) as (A1 & A2 & A3 & A4 & A5 & A6 & A7). rewrite note_none by (rewrite <- ?I1; assumption).
      split; [rewrite A2; exact C1|rewrite A3; exact C2].
Qed.
Lemma run_calm w l : forall s p t s', inv s p t -> calm s p -> timely w t l -> run w s l = Some s' -> calm s' (fold_left note l p).
Proof.
  induction l as [|e l IH]; intros s p t s' I C T R; cbn [run] in R; [injection R as <-; exact C|].
  destruct (step w s e) as [s1|] eqn:E; [|discriminate]. cbn [fold_left].
  assert (T1 : timely w t [e]) by (cbn [timely] in *; destruct (time_of e); [split; [apply T|exact Logic.I]|exact Logic.I]).
  apply (IH s1 _ (after t e)); [apply (step_inv w s p t e s1 I T1 E)|apply (step_calm w s p t e s1 I C T1 E)|apply (timely_cons w t e l T)|exact R].
Qed.

Lemma timely_weak w l : forall a b, timely w a l -> b <= a -> timely w b l.
Proof.
  induction l as [|e l IH]; intros a b T L; [exact I|]. cbn [timely] in *. destruct (time_of e); [destruct T as (A & B); split; [lia|exact B]|apply (IH a); assumption].
Qed.
(** Orders repeated too fast. *)
Lemma run_hasty w l : forall s t s', busy s = true -> tc s = t -> 0 <= t -> man s = false -> flag (area s) = false -> flag (stub s) = false ->
  timely w t l -> hasty t l -> run w s l = Some s' -> flag (area s') = false.
Proof.
  assert (K : forall e s t s', (forall i, e <> Cycle i) -> (forall n, e <> Man n) -> busy s = true -> tc s = t -> man s = false -> flag (area s) = false -> flag (stub s) = false -> step w s e = Some s' ->
     busy s' = true /\ tc s' = match order_time false e with Some u => u | None => t end /\ man s' = false /\ flag (area s') = false /\ flag (stub s') = false).
  { intros e s t s' NC NM B TC M F FS H. destruct (order_time (man s) e) as [u|] eqn:OT.
    - destruct (step_order w s e s' u H OT NC) as (f & -> & F1 & _). rewrite M in OT. rewrite OT. cbn [order busy tc man area stub].
      repeat split; try assumption; destruct (att s); rewrite ?F1; assumption.
    - destruct (step_other w s e s' H OT NC) as (A1 & A2 & A3 & A4 & A5 & A6 & A7). rewrite M in OT. rewrite OT, A2, A3, A4, A5. repeat split; auto.
      rewrite A7, M. destruct e; try reflexivity; [exfalso; eapply NM; reflexivity]. }
  induction l as [|e l IH]; intros s t s' B TC T0 M F FS T H R; cbn [run] in R; [injection R as <-; exact F|].
  destruct (step w s e) as [s1|] eqn:E; [|discriminate].
  destruct (not_cycle e) as [(i & ->)|NC].
  - cbn [hasty] in H. destruct H as (H1 & H2). cbn [step] in E. injection E as <-. cbn [timely time_of] in T. destruct T as (T1 & T2).
    assert (TL : timely w t l) by (apply (timely_weak w l (now i)); [exact T2|lia]).
    assert (X : evaluate w i s = {| att := true; stub := stub s; area := area s; pin := bytes i; busy := true; tc := tc s; man := man s |}).
    { unfold evaluate. rewrite B. destruct (ok i); [|reflexivity]. rewrite TC, delta_ge by lia. replace (300 <? now i - t) with false by lia. replace (1000 <? now i - t) with false by lia. reflexivity. }
    rewrite X in R. eapply (IH _ t); [..|exact H2|exact R]; try assumption; reflexivity.
  - assert (NM : forall n, e <> Man n) by (intros n ->; exact H).
    destruct (K e s t s1 NC NM B TC M F FS E) as (K1 & K2 & K3 & K4 & K5).
    assert (H' : hasty (match order_time false e with Some u => u | None => t end) l) by (destruct e; try exact H; [exfalso; eapply NC; reflexivity|exfalso; eapply NM; reflexivity]).
    destruct (timely_cons w t e l T) as (TA & TB).
    assert (TE : match order_time false e with Some u => u | None => t end <= after t e /\ 0 <= match order_time false e with Some u => u | None => t end).
    { clear - TA T0; unfold after in *; destruct e; cbn [order_time time_of] in *; lia. }
    eapply (IH s1 _); [exact K1|exact K2|apply TE|exact K3|exact K4|exact K5| |exact H'|exact R].
    apply (timely_weak w l (after t e)); [exact TB|apply TE].
Qed.

(** Orders before the first cycle. *)
Lemma run_early w l : forall s s', att s = false -> Forall (fun e => forall i, e <> Cycle i) l -> run w s l = Some s' -> area s' = area s /\ att s' = false.
Proof.
  induction l as [|e l IH]; intros s s' A F R; cbn [run] in R; [injection R as <-; split; [reflexivity|exact A]|].
  destruct (step w s e) as [s1|] eqn:E; [|discriminate]. inversion F as [|? ? F1 F2]; subst.
  assert (X : area s1 = area s /\ att s1 = false).
  { destruct (order_time (man s) e) as [u|] eqn:OT.
    - destruct (step_order w s e s1 u E OT F1) as (f & -> & _). cbn [order area att]. rewrite A. split; reflexivity.
    - destruct (step_other w s e s1 E OT F1) as (A1 & A2 & A3 & _). rewrite A1, A3. split; [reflexivity|exact A]. }
  destruct X as (X1 & X2). destruct (IH s1 s' X2 F2 R) as (Y1 & Y2). split; [congruence|exact Y2].
Qed.

(** * Readings *)

Lemma pin_last w h i s : run w new_pu (h ++ [Cycle i]) = Some s -> pin s = bytes i.
Proof.
  rewrite run_app. destruct (run w new_pu h) as [s1|]; [|discriminate]. cbn [run step]. intros H. injection H as <-. unfold evaluate.
  destruct (ok i), (busy s1); try reflexivity. destruct (1000 <? get_delta_millisec w (now i) (tc s1)); reflexivity.
Qed.
Lemma byte_parts x : 0 <= x < 256 ->
  (negb (bits x 6 2 =? 0) || (negb (bits x 4 2 =? 0) || (negb (bits x 2 2 =? 0) || negb (bits x 0 2 =? 0)))) = negb (x =? 0).
Proof.
  intros H.
  assert (A : forallb (fun x => eqb (negb (bits x 6 2 =? 0) || (negb (bits x 4 2 =? 0) || (negb (bits x 2 2 =? 0) || negb (bits x 0 2 =? 0)))) (negb (x =? 0))) (map Z.of_nat (seq 0 256)) = true) by (vm_compute; reflexivity).
  rewrite forallb_forall in A. specialize (A x). rewrite eqb_true_iff in A. apply A.
  rewrite <- (Z2Nat.id x) by lia. apply in_map, in_seq. lia.
Qed.

(** * Circuit breakers *)

Lemma b_stat_spec b c : 1 <= c <= 4 -> b_stat b c = br_on b c.
Proof. revert c. apply four; reflexivity. Qed.
Lemma b_nom_spec b c : 1 <= c <= 4 -> b_nom b c = br_current b c.
Proof. revert c. apply four; reflexivity. Qed.
Lemma b_nom_range b c : 0 <= b_nom b c < 16.
Proof. unfold b_nom, fld. destruct (c mod 2 =? 1); change (2 ^ 4) with 16; apply Z.mod_pos_bound; lia. Qed.
Lemma br_take_out o : br_take (b_out_byte o) = flag o.
Proof. unfold br_take, b_out_byte. cbn [Z.eqb]. destruct (sw o 1), (sw o 2), (sw o 3), (sw o 4), (flag o); reflexivity. Qed.
Lemma br_switch_out o c : 1 <= c <= 4 -> br_switch (b_out_byte o) c = sw o c.
Proof.
  revert c. unfold br_switch, b_out_byte. cbn [Z.eqb]. apply four; destruct (sw o 1), (sw o 2), (sw o 3), (sw o 4), (flag o); reflexivity.
Qed.
Lemma low4 a b : 0 <= a < 16 -> 0 <= b < 16 -> bits (a + 16 * b) 0 4 = a /\ bits (a + 16 * b) 4 4 = b.
Proof.
  intros A B. unfold bits. change (2 ^ 0) with 1. change (2 ^ 4) with 16. rewrite Z.div_1_r. split.
  - rewrite (Z.mul_comm 16 b), Z_mod_plus_full. apply Z.mod_small; lia.
  - rewrite (Z.mul_comm 16 b), Z.div_add by lia. rewrite (Z.div_small a 16) by lia. rewrite Z.mod_small; lia.
Qed.
Lemma br_rated_out o c : fits 16 o -> 1 <= c <= 4 -> br_rated (b_out_byte o) c = nm o c.
Proof.
  intros F. revert c.
  assert (G : forall n, 1 <= n <= 2 -> bits (b_out_byte o n) 0 4 = nm o (2 * n) /\ bits (b_out_byte o n) 4 4 = nm o (2 * n - 1)).
  { intros n N. unfold b_out_byte. replace (n =? 0) with false by lia. replace ((1 <=? n) && (n <=? 2)) with true by lia. apply low4; apply F. }
  apply four; [apply (G 1)|apply (G 1)|apply (G 2)|apply (G 2)]; lia.
Qed.
(** Orders of a breaker never change nominal currents. *)
Lemma c_run_app s l1 l2 : c_run s (l1 ++ l2) = c_run (c_run s l1) l2.
Proof. apply fold_left_app. Qed.
Record cinv (s : cbs) (p : sight) : Prop := {
  k_man : c_man s = s_man p; k_att : c_att s = s_run p; k_ok : read_ok s = s_ok p; k_armed : flag (c_area s) = s_armed p; k_fits : fits 16 (c_area s) }.
Lemma c_all_fits o b : fits 16 o -> fits 16 (c_all b o).
Proof. auto. Qed.
Lemma c_step_all s e b : br_all (c_man s) e = Some b -> c_step s e = c_order (c_all b) s.
Proof. unfold br_all. destruct (c_man s) eqn:M; [discriminate|]. destruct e; cbn; intros H; try discriminate; rewrite M; injection H as <-; reflexivity. Qed.
Lemma c_step_inv s p e : cinv s p -> cinv (c_step s e) (see p e).
Proof.
  intros [K1 K2 K3 K4 K5]. destruct (br_all (c_man s) e) as [b|] eqn:B.
  - rewrite (c_step_all s e b B). rewrite K1 in B.
    assert (X : see p e = {| s_man := s_man p; s_run := s_run p; s_ok := s_ok p; s_armed := s_armed p || (s_run p && true) |}).
    { destruct e; try (cbn [see]; rewrite B; reflexivity); unfold br_all in B; destruct (s_man p); discriminate. }
    rewrite X. constructor; cbn [c_order c_man c_att read_ok c_area s_man s_run s_ok s_armed]; auto.
    + rewrite K2. destruct (s_run p); [cbn; rewrite orb_true_r; reflexivity|rewrite orb_false_r; exact K4].
    + destruct (c_att s); [apply c_all_fits|]; exact K5.
  - assert (Y : match br_all (s_man p) e with Some _ => true | None => false end = false) by (rewrite <- K1, B; reflexivity).
    destruct e; cbn [see]; rewrite ?Y, ?andb_false_r, ?orb_false_r; cbn [c_step].
    + unfold c_evaluate. constructor; cbn [c_man c_att read_ok c_area s_man s_run s_ok s_armed]; auto.
      * destruct (ok i && negb (read_ok s)); exact K4.
      * destruct (ok i && negb (read_ok s)); [intros c; apply b_nom_range|exact K5].
    + unfold br_all in B. destruct (c_man s) eqn:M; [|discriminate]. constructor; cbn; congruence || assumption.
    + unfold br_all in B. destruct (c_man s) eqn:M; [|discriminate]. constructor; cbn; congruence || assumption.
    + constructor; cbn; assumption.
    + unfold br_all in B. destruct (c_man s) eqn:M; [|discriminate]. constructor; cbn; congruence || assumption.
    + unfold br_all in B. destruct (c_man s) eqn:M; [|discriminate]. constructor; cbn; congruence || assumption.
    + destruct (ch_ok 4 c); constructor; cbn; auto; destruct (c_att s); auto.
    + unfold br_all in B. destruct (c_man s) eqn:M; [|discriminate]. constructor; cbn; congruence || assumption.
    + constructor; cbn; auto. rewrite K1. reflexivity.
Qed.
Lemma c_run_inv l : forall s p, cinv s p -> cinv (c_run s l) (fold_left see l p).
Proof. induction l as [|e l IH]; intros s p H; [exact H|]. cbn [c_run fold_left]. apply IH, c_step_inv, H. Qed.
Lemma c_history l : cinv (c_run new_cb l) (seen l).
Proof. apply c_run_inv. constructor; try reflexivity. intros c. cbn. lia. Qed.
Lemma c_steady l : forall s, read_ok s = true -> Forall steady l -> c_area (c_run s l) = c_area s.
Proof.
  induction l as [|e l IH]; intros s K F; [reflexivity|]. inversion F as [|? ? F1 F2]; subst. change (c_run s (e :: l)) with (c_run (c_step s e) l).
  rewrite (IH (c_step s e)); [|destruct e; cbn in F1 |- *; tauto|exact F2]. destruct e; cbn in F1 |- *; try tauto.
  rewrite F1, K. reflexivity.
Qed.
