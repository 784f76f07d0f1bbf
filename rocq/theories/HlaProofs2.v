(** Lemmas about blinking and about the outputs of signal columns. *)
From Coq Require Import ZArith List Bool Lia.
From Verif Require Import Base TimeModel HlaModel HlaSpec HlaProofs.
Import ListNotations.
Open Scope Z_scope.

Lemma delta_ge w n t : 0 <= t <= n -> get_delta_millisec w n t = n - t.
Proof.
  intros H. unfold get_delta_millisec. replace (n <? t) with false by lia. replace (t <=? n) with true by lia. reflexivity.
Qed.

Section P.
Context (w : Z) (wr : wiring).
Lemma hits_self n : drives wr n -> hits wr n n = true.
Proof. intros H. apply hits_eq. split; [exact H|reflexivity]. Qed.
Lemma hits_other l l' : separate wr -> drives wr (ch wr l) -> l' <> l -> hits wr (ch wr l') (ch wr l) = false.
Proof.
  intros (S1 & _) D N. destruct (hits wr (ch wr l') (ch wr l)) eqn:H; [|reflexivity]. exfalso.
  apply hits_eq in H. destruct H as (_ & H). apply N. symmetry. exact (S1 l l' D H).
Qed.
Lemma hits_siren l : separate wr -> hits wr (sch wr) (ch wr l) = false.
Proof.
  intros (_ & S2). destruct (hits wr (sch wr) (ch wr l)) eqn:H; [|reflexivity]. exfalso.
  apply hits_eq in H. destruct H as (D & H). exact (S2 l D H).
Qed.

(** What a round does to its lamp. *)
Lemma kept_run t (r : list event) c : Forall (fun e => keeps e (shown c) = true) r ->
  run w wr (map (fun e => (t, Show e)) r) c = c.
Proof.
  intros F. induction F as [|e r K F IH]; [reflexivity|]. cbn [map run fold_left]. cbn [step snd fst].
  replace (show w wr t e c) with c; [exact IH|]. unfold show. rewrite K. destruct (man c); reflexivity.
Qed.
Lemma round_step l slow t x c : separate wr -> drives wr (ch wr l) -> man c = false -> (l = Red -> self c = true) ->
  round l slow t x ->
  let c' := run w wr x c in let r := blink1 w t (half slow) (li c l) (out c (ch wr l)) in
  li c' l = fst r /\ out c' (ch wr l) = snd r /\ man c' = false /\ self c' = self c.
Proof.
  intros S D M SF R. cbv zeta.
  assert (B : forall c0, li c0 = li c -> out c0 = out c -> man c0 = man c -> self c0 = self c ->
    let c' := direct_set_state w wr t (blink_code l slow) c0 in let r := blink1 w t (half slow) (li c l) (out c (ch wr l)) in
    li c' l = fst r /\ out c' (ch wr l) = snd r /\ man c' = false /\ self c' = self c).
  { intros c0 E1 E2 E3 E4. cbv zeta.
    replace (direct_set_state w wr t (blink_code l slow) c0) with (blink w wr t l (half slow) c0).
    - rewrite blink_li, blink_out, blink_man, blink_self, lamp_eqb_refl, (hits_self _ D), E1, E2, E3, E4. repeat split; assumption.
    - destruct l, slow; cbn; try reflexivity; rewrite E4, (SF eq_refl); reflexivity. }
  destruct R as [| |r L SL F|r L SL F].
  - apply (B c); reflexivity.
  - cbn [run fold_left step snd fst]. cbn [set_shown man]. rewrite M. apply (B (set_shown Idle c)); reflexivity.
  - subst l slow. unfold run. cbn [fold_left step snd fst].
    set (c1 := show w wr t Error (set_shown Idle c)).
    assert (K : shown c1 = Error) by (unfold c1; rewrite show_shown; cbn [man set_shown]; rewrite M; reflexivity).
    change (fold_left (step w wr) ?q ?s) with (run w wr q s). rewrite kept_run.
    2:{ rewrite K. eapply Forall_impl; [|exact F]. intros e N. destruct e; try reflexivity. congruence. }
    unfold c1, show. cbn [man set_shown shown]. rewrite M. cbn [keeps existsb]. cbv iota zeta.
    rewrite ts_li, ts_out, ts_man, ts_self. rewrite !turn_li by reflexivity. rewrite !turn_out, !turn_man, !turn_self.
    rewrite (hits_siren _ S), !(hits_other Red) by (assumption || discriminate).
    unfold do_blink. cbn [set_shown self]. rewrite (SF eq_refl). rewrite blink_li, blink_out, blink_man, blink_self. cbn [lamp_eqb].
    rewrite (hits_self _ D). repeat split; try assumption. exact (SF eq_refl).
  - subst l slow. unfold run. cbn [fold_left step snd fst].
    set (c1 := show w wr t Message (set_shown Idle c)).
    assert (K : shown c1 = Message) by (unfold c1; rewrite show_shown; cbn [man set_shown]; rewrite M; reflexivity).
    change (fold_left (step w wr) ?q ?s) with (run w wr q s). rewrite kept_run.
    2:{ rewrite K. eapply Forall_impl; [|exact F]. intros e (N1 & N2). destruct e; try reflexivity; congruence. }
    unfold c1, show. cbn [man set_shown shown]. rewrite M. cbn [keeps existsb event_eqb orb]. cbv iota zeta.
    rewrite ts_li, ts_out, ts_man, ts_self. rewrite !turn_li by reflexivity. rewrite !turn_out, !turn_man, !turn_self.
    rewrite (hits_siren _ S), !(hits_other Yellow) by (assumption || discriminate).
    cbn [do_blink]. rewrite blink_li, blink_out, blink_man, blink_self. cbn [lamp_eqb].
    rewrite (hits_self _ D), turn_li, turn_out, turn_man, turn_self by reflexivity.
    rewrite !(hits_other Yellow) by (assumption || discriminate). repeat split. exact M.
Qed.

Definition flag (p : bool) : stp := if p then BlinkOn else BlinkOff.
Definition since (p : bool) (i : info) : Z := if p then t_on i else t_off i.
(** The lamp in phase [p]; its output [o] has lasted since [s]; the last round was at [t]. *)
Definition binv (d g : Z) (p : bool) (i : info) (o : bool) (s t : Z) : Prop :=
  sp i = flag p /\ 0 <= since p i <= t /\
  ((o = p /\ since p i <= s <= since p i + g /\ s <= t /\ t - since p i <= d) \/
   (o = negb p /\ since p i = t /\ exists b, b <= s <= b + g /\ s <= t /\ d < t - b <= d + g)).
Lemma binv_step d g p i o s t t' : 0 <= g <= d -> t <= t' <= t + g -> binv d g p i o s t ->
  let r := blink1 w t' d i o in
  t' - s <= d + 2 * g /\ exists p', 
  if eqb (snd r) o then binv d g p' (fst r) o s t' else d - g < t' - s /\ binv d g p' (fst r) (snd r) t' t'.
Proof.
  intros G T (SP & S0 & H). cbv zeta. unfold blink1. rewrite SP.
  assert (E : get_delta_millisec w t' (since p i) = t' - since p i) by (apply delta_ge; lia).
  destruct p; cbn [flag since] in *; rewrite E; cbn [fst snd].
  - destruct H as [(-> & A & B & C)|(-> & A & b & B & C & F)].
    + split; [lia|]. cbn [eqb]. destruct (d <? t' - t_on i) eqn:L.
      * exists false. split; [reflexivity|]. cbn [since t_off]. split; [lia|]. right. split; [reflexivity|]. split; [reflexivity|]. exists (t_on i). lia.
      * exists true. split; [exact SP|]. cbn [since]. split; [lia|]. left. repeat split; lia.
    + split; [lia|]. cbn [negb eqb]. replace (d <? t' - t_on i) with false by lia. exists true. split; [lia|].
      split; [exact SP|]. cbn [since]. split; [lia|]. left. repeat split; lia.
  - destruct H as [(-> & A & B & C)|(-> & A & b & B & C & F)].
    + split; [lia|]. cbn [eqb]. destruct (d <? t' - t_off i) eqn:L.
      * exists true. split; [reflexivity|]. cbn [since t_on]. split; [lia|]. right. split; [reflexivity|]. split; [reflexivity|]. exists (t_off i). lia.
      * exists false. split; [exact SP|]. cbn [since]. split; [lia|]. left. repeat split; lia.
    + split; [lia|]. cbn [negb eqb]. replace (d <? t' - t_off i) with false by lia. exists false. split; [lia|].
      split; [exact SP|]. cbn [since]. split; [lia|]. left. repeat split; lia.
Qed.
Lemma trace_stretches l slow g : separate wr -> drives wr (ch wr l) -> 0 <= g <= half slow ->
  forall t rs, rounds l slow w g t rs -> forall c p o s, man c = false -> (l = Red -> self c = true) ->
  out c (ch wr l) = o -> binv (half slow) g p (li c l) o s t -> stretches (half slow) g s o (trace w wr l rs c).
Proof.
  intros SE D G t rs R. induction R as [t|t t' x r T W X R IH]; intros c p o s M SF O I; cbn [trace stretches]; [exact Logic.I|].
  destruct (round_step l slow t' x c SE D M SF X) as (E1 & E2 & E3 & E4).
  destruct (binv_step _ _ _ _ _ _ _ t' G T I) as (U & p' & H). cbv zeta in U, H. rewrite O in E1, E2.
  split; [exact U|]. rewrite E2. destruct (eqb (snd _) o) eqn:Q.
  - apply (IH _ p'); [exact E3|rewrite E4; exact SF| |rewrite E1; exact H]. apply eqb_prop in Q. rewrite E2. exact Q.
  - destruct H as (H1 & H2). split; [exact H1|]. apply (IH _ p'); [exact E3|rewrite E4; exact SF|exact E2|rewrite E1; exact H2].
Qed.
End P.
