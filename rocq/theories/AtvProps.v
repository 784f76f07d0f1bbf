(** Properties C112 to C114: motors with an Altivar frequency converter. *)
From Coq Require Import ZArith List Bool Lia QArith Qabs.
From Verif Require Import Base TimeModel FTextModel FloatModel AtvModel AtvSpec AtvProofs AtvProofs2.
Import ListNotations.
Open Scope Z_scope.

(** * C112: orders reach the converter *)

(** After an order, from the first answered exchange on, every exchange carries its command
    word, until another order. *)
Theorem C112_words : forall a w s e q l1 s1 t1 l2 s2 t2, asks (man s) e = Some q ->
  run a w s (e :: l1) = Some (s1, t1) -> Forall (fun x => asks false x = None) l1 -> existsb answered t1 = true ->
  run a w s1 l2 = Some (s2, t2) -> Forall (fun x => asks false x = None) l2 ->
  forall c f, In (c, f) (words t2) -> c = word q (get_state s).
Proof.
  intros a w s e q l1 s1 t1 l2 s2 t2 A R F1 AN R2 F2 c f I. cbn [run] in R.
  destruct (step a w s e) as [(s0, c0)|] eqn:E; [|discriminate]. destruct (run a w s0 l1) as [(s1', t1')|] eqn:R1; [|discriminate].
  injection R as <- <-.
  assert (C : cmd s0 = word q (get_state s)).
  { unfold step in E. destruct e; cbn in A; try discriminate; try (destruct (man s); [discriminate|]); injection E as <- <-.
    - injection A as <-. reflexivity.
    - injection A as <-. reflexivity.
    - pose proof (meaning_set n s) as M. rewrite A in M. rewrite M. reflexivity.
    - injection A as <-. reflexivity.
    - pose proof (meaning_set n s) as M. rewrite A in M. rewrite M. reflexivity. }
  assert (NA : answered (e, c0) = false) by (destruct e; try reflexivity; discriminate A).
  cbn [existsb] in AN. rewrite NA in AN. cbn [orb] in AN.
  destruct (run_calm a w l1 s0 s1' t1' R1 F1) as (K1 & _ & K3). destruct (run_calm a w l2 s1' s2 t2 R2 F2) as (_ & L2 & _).
  rewrite (proj2 (L2 (K3 AN)) c f I), K1, C. unfold word. destruct q; [destruct (get_state s <? 0)| |]; reflexivity.
Qed.

Definition ok_cfg (s : avs) : Prop := match qs s with Config n => 0 <= n <= 16 | _ => True end.
Lemma ok_step a w s e s' c : step a w s e = Some (s', c) -> ok_cfg s -> ok_cfg s'.
Proof.
  intros H K. unfold ok_cfg in *. unfold step in H. destruct e.
  9: injection H as <- <-; destruct (n =? 0); [|destruct (n =? 1)]; exact K.
  2-8: injection H as <- <-; try (destruct (man s)); try exact K; try (destruct (set_keep n s) as (_ & -> & _); exact K).
  unfold evaluate in H. destruct (en s); [|injection H as <- <-; exact K].
  destruct (one a w i s) as [(s1, c1)|] eqn:E; [|discriminate]. injection H as <- <-. destruct (watch_q w i s1) as (-> & _). unfold one in E. destruct (qs s) eqn:Q.
  - injection E as <- <-. cbn. destruct (conf s && a); [lia|exact I].
  - destruct (Z.eqb_spec n 16); [injection E as <- <-; exact I|]. destruct (n mod 2 =? 0); [injection E as <- <-; cbn; lia|].
    destruct (nth _ _ _) as (ad, vs). destruct (negb (res i =? 0)); injection E as <- <-; cbn; [lia|rewrite Q; lia].
  - destruct (freq_reg (sp s)); [|discriminate]. injection E as <- <-. exact I.
  - destruct (res i =? 1); [|destruct (res i =? -1)]; injection E as <- <-; try exact I. rewrite Q. exact I.
  - injection E as <- <-. exact I.
  - injection E as <- <-. destruct (200 <? _); [exact I|rewrite Q; exact I].
Qed.
Definition rank (q : qstep) : Z := match q with End_ => 20 | Check => 19 | Config n => 18 - n | Init => 1 | Query => 0 | EndInit => 0 end.
Lemma tick_rank a w s i s' c : evaluate a w i s = Some (s', c) -> en s = true -> ok_cfg s -> res i = 1 -> 200 < get_delta_millisec w (now i) (tq s) -> qs s <> EndInit ->
  answered (Tick i, c) = true \/ (en s' = true /\ tq s' = tq s /\ qs s' <> EndInit /\ rank (qs s') < rank (qs s)).
Proof.
  intros H EN K R T NE. unfold evaluate in H. rewrite EN in H. destruct (one a w i s) as [(s1, c1)|] eqn:E; [|discriminate]. injection H as <- <-.
  destruct (watch_q w i s1) as (-> & _).
  assert (WE : en (watch w i s1) = en s1 /\ tq (watch w i s1) = tq s1) by (unfold watch; destruct (conn i); [split; reflexivity|]; destruct (_ && _); split; reflexivity).
  destruct WE as (-> & ->). unfold ok_cfg in K. unfold one in E. destruct (qs s) eqn:Q.
  - injection E as <- <-. right. cbn [wq qs tq en rank]. destruct (conf s && a); repeat split; try exact EN; try discriminate; cbn; lia.
  - destruct (Z.eqb_spec n 16); [injection E as <- <-; right; cbn [wq wconf wbuf wtq qs tq en rank]; repeat split; try exact EN; try discriminate; lia|].
    destruct (n mod 2 =? 0); [injection E as <- <-; right; cbn [wq wconf wbuf wtq qs tq en rank]; repeat split; try exact EN; try discriminate; lia|].
    destruct (nth _ _ _) as (ad, vs). rewrite R in E. injection E as <- <-. right; cbn [wq wconf wbuf wtq qs tq en rank]; repeat split; try exact EN; try discriminate; lia.
  - destruct (freq_reg (sp s)); [|discriminate]. injection E as <- <-. right; cbn [wq wconf wbuf wtq qs tq en rank]; repeat split; try exact EN; try discriminate; lia.
  - rewrite R in E. injection E as <- <-. left. cbn. rewrite R. reflexivity.
  - contradiction.
  - injection E as <- <-. replace (200 <? get_delta_millisec w (now i) (tq s)) with true by (symmetry; apply Z.ltb_lt; exact T).
    right; cbn [wq wconf wbuf wtq qs tq en rank]; repeat split; try exact EN; try discriminate; lia.
Qed.
Lemma ticks_rank a w l : forall s s' t, run a w s (map Tick l) = Some (s', t) -> en s = true -> ok_cfg s -> qs s <> EndInit ->
  Forall (fun i => res i = 1 /\ 200 < get_delta_millisec w (now i) (tq s)) l -> rank (qs s) < Z.of_nat (length l) -> existsb answered t = true.
Proof.
  assert (RK : forall s, ok_cfg s -> 0 <= rank (qs s)) by (intros s; unfold ok_cfg; destruct (qs s); cbn [rank]; lia).
  induction l as [|i l IH]; intros s s' t R EN K NE F L; cbn [map length] in *; [specialize (RK s K); lia|]. cbn [run] in R.
  destruct (step a w s (Tick i)) as [(s1, c)|] eqn:E; [|discriminate]. destruct (run a w s1 (map Tick l)) as [(s2, t2)|] eqn:R2; [|discriminate]. injection R as <- <-.
  inversion F as [|? ? (F1 & F2) F3]; subst. cbn [existsb]. pose proof (ok_step a w s (Tick i) s1 c E K) as K1. cbn [step] in E.
  destruct (tick_rank a w s i s1 c E EN K F1 F2 NE) as [->|(E1 & E2 & E3 & E4)]; [reflexivity|]. apply orb_true_iff. right.
  apply (IH s1 s2 t2 R2 E1 K1 E3); [rewrite E2; exact F3|]. lia.
Qed.

Lemma set_tq n s : tq (direct_set_state n s) = tq s.
Proof. unfold direct_set_state, direct_on, direct_off. repeat match goal with |- context [if ?b then _ else _] => destruct b end; reflexivity. Qed.
Lemma tq_step a w s e s' c t : step a w s e = Some (s', c) -> 0 <= tq s <= t -> timely w t [e] -> 0 <= tq s' <= (match e with Tick i => now i | _ => t end).
Proof.
  intros H B T. unfold step in H. destruct e; cbn [timely] in T.
  9: injection H as <- <-; destruct (n =? 0); [|destruct (n =? 1)]; exact B.
  2-8: injection H as <- <-; try (destruct (man s)); try exact B; try (rewrite set_tq; exact B).
  unfold evaluate in H. destruct (en s); [|injection H as <- <-; lia]. destruct (one a w i s) as [(s1, c1)|] eqn:E; [|discriminate]. injection H as <- <-.
  replace (tq (watch w i s1)) with (tq s1) by (unfold watch; destruct (conn i); [reflexivity|]; destruct (_ && _); reflexivity).
  unfold one in E. destruct (qs s).
  - injection E as <- <-. cbn. lia.
  - destruct (n =? 16); [injection E as <- <-; cbn; lia|]. destruct (n mod 2 =? 0); [injection E as <- <-; cbn; lia|].
      destruct (nth _ _ _) as (ad, vs). destruct (negb (res i =? 0)); injection E as <- <-; cbn; lia.
  - destruct (freq_reg (sp s)); [|discriminate]. injection E as <- <-. cbn. lia.
  - destruct (res i =? 1); [|destruct (res i =? -1)]; injection E as <- <-; cbn; lia.
  - injection E as <- <-. cbn. lia.
  - injection E as <- <-. destruct (200 <? _); cbn; lia.
Qed.
Lemma run_tq a w l : forall s t s' tr, run a w s l = Some (s', tr) -> 0 <= tq s <= t -> timely w t l -> ok_cfg s -> 0 <= tq s' <= last_time t l /\ ok_cfg s'.
Proof.
  induction l as [|e l IH]; intros s t s' tr R B T K; cbn [run] in R; [injection R as <- <-; split; assumption|].
  destruct (step a w s e) as [(s1, c)|] eqn:E; [|discriminate]. destruct (run a w s1 l) as [(s2, t2)|] eqn:R2; [|discriminate]. injection R as <- <-.
  apply timely_cons in T. destruct T as (T1 & T2). pose proof (tq_step a w s e s1 c t E B T1) as B1.
  destruct (IH s1 _ s2 t2 R2 B1 T2 (ok_step a w s e s1 c E K)) as (X & Y). split; [|exact Y]. destruct e; exact X.
Qed.

(** Orders are sent at all: if the exchange is switched on and every call is answered, then
    of a cycle and 21 cycles more than 200 ms later one has an answered exchange. *)
Theorem C112_sent : forall a w t0 l s t i l2 s2 t2, 0 <= t0 -> timely w t0 l -> run a w (new_atv t0) l = Some (s, t) ->
  active (past_of t0 t) = true -> last_time t0 l <= now i -> Forall (fun j => res j = 1) (i :: l2) -> Forall (fun j => now i + 200 < now j) l2 ->
  20 < Z.of_nat (length l2) -> run a w s (map Tick (i :: l2)) = Some (s2, t2) -> existsb answered t2 = true.
Proof.
  intros a w t0 l s t i l2 s2 t2 H T R AC LT RS TM LN R2.
  pose proof (i_en _ _ (history a w t0 l s t H T R)) as EN. rewrite AC in EN.
  destruct (run_tq a w l (new_atv t0) t0 s t R ltac:(cbn; lia) T I) as (BQ & K). inversion RS as [|? ? RI RL]; subst. cbn [map] in R2.
  cbn [run] in R2. destruct (step a w s (Tick i)) as [(s1, c)|] eqn:E; [|discriminate]. destruct (run a w s1 (map Tick l2)) as [(s3, t3)|] eqn:R3; [|discriminate]. injection R2 as <- <-.
  pose proof (ok_step a w s (Tick i) s1 c E K) as K1. cbn [existsb].
  assert (Q : answered (Tick i, c) = true \/ (en s1 = true /\ 0 <= tq s1 <= now i /\ qs s1 <> EndInit)).
  { cbn [step] in E. unfold evaluate in E. rewrite EN in E. destruct (one a w i s) as [(s4, c4)|] eqn:O; [|discriminate]. injection E as <- <-.
    destruct (watch_q w i s4) as (-> & _). assert (WE : en (watch w i s4) = en s4 /\ tq (watch w i s4) = tq s4) by (unfold watch; destruct (conn i); [split; reflexivity|]; destruct (_ && _); split; reflexivity).
    destruct WE as (-> & ->). unfold one in O. destruct (qs s) eqn:QS.
    - injection O as <- <-. right. cbn. split; [exact EN|]. split; [lia|]. destruct (conf s && a); discriminate.
    - destruct (n =? 16); [injection O as <- <-; right; cbn; repeat split; try exact EN; try discriminate; lia|].
      destruct (n mod 2 =? 0); [injection O as <- <-; right; cbn; repeat split; try exact EN; try discriminate; lia|].
      destruct (nth _ _ _) as (ad, vs). rewrite RI in O. injection O as <- <-; right; cbn; repeat split; try exact EN; try discriminate; lia.
    - destruct (freq_reg (sp s)); [|discriminate]. injection O as <- <-. right; cbn; repeat split; try exact EN; try discriminate; lia.
    - rewrite RI in O. injection O as <- <-. left. cbn. rewrite RI. reflexivity.
    - injection O as <- <-. right; cbn; repeat split; try exact EN; try discriminate; lia.
    - injection O as <- <-. right. destruct (200 <? _); cbn; repeat split; try exact EN; try discriminate; try lia. rewrite QS. discriminate. }
  destruct Q as [->|(E1 & E2 & E3)]; [reflexivity|]. apply orb_true_iff. right.
  apply (ticks_rank a w l2 s1 s3 t3 R3 E1 K1 E3).
  - rewrite Forall_forall in *. intros j J. split; [apply RL; exact J|]. specialize (TM j J). cbn beta in TM. rewrite delta_ge by lia. lia.
  - unfold ok_cfg in K1. destruct (qs s1); cbn [rank]; lia.
Qed.
(** Not guaranteed, and false: that an order is sent while the connection is up.  A converter
    that refuses one of the configuration writes gets no command any more, not even to stop. *)
Theorem C112_refused_refuted : forall a w t0 l s t n l2 s2 t2, timely w t0 l -> run a w (new_atv t0) l = Some (s, t) -> qs s = Config n -> n mod 2 = 1 ->
  (forall i, In (Tick i) l2 -> res i = 0) -> run a w s l2 = Some (s2, t2) -> words t2 = [].
Proof.
  intros a w t0 l s t n l2 s2 t2 _ _ Q N R. revert s s2 t2 Q. induction l2 as [|e l2 IH]; intros s s2 t2 Q RN; cbn [run] in RN; [injection RN as <- <-; reflexivity|].
  destruct (step a w s e) as [(s1, c)|] eqn:E; [|discriminate]. destruct (run a w s1 l2) as [(s3, t3)|] eqn:R3; [|discriminate]. injection RN as <- <-.
  assert (X : qs s1 = Config n /\ match c with Some (Xchg _ _ _) => False | _ => True end).
  { unfold step in E. destruct e.
    9: injection E as <- <-; split; [destruct (n0 =? 0); [|destruct (n0 =? 1)]; exact Q|exact I].
    2-8: injection E as <- <-; split; try exact I; try (destruct (man s)); try exact Q; try (destruct (set_keep n0 s) as (_ & -> & _); exact Q).
    unfold evaluate in E. destruct (en s); [|injection E as <- <-; split; [exact Q|exact I]].
    destruct (one a w i s) as [(s4, c4)|] eqn:O; [|discriminate]. injection E as <- <-. destruct (watch_q w i s4) as (-> & _).
    unfold one in O. rewrite Q in O. destruct (Z.eqb_spec n 16); [subst; discriminate N|]. rewrite N in O. cbn [Z.eqb] in O.
    destruct (nth _ _ _) as (ad, vs). rewrite (R i (or_introl eq_refl)) in O. injection O as <- <-. split; [exact Q|exact I]. }
  destruct X as (X1 & X2). unfold words. cbn [flat_map snd]. fold (words t3). rewrite (IH (fun i J => R i (or_intror J)) s1 s3 t3 X1 R3).
  destruct c as [[]|]; [reflexivity|contradiction|reflexivity].
Qed.
Print Assumptions C112_words.
Print Assumptions C112_sent.
Print Assumptions C112_refused_refuted.

Definition tk (t r : Z) (r0 r3 : Z) (c : bool) : ev := Tick {| now := t; res := r; regs := fun n => if n =? 0 then r0 else if n =? 3 then r3 else 0; conn := c |}.
(** A converter of the older type: start, exchange, speed, next exchange, reverse. *)
Example C112_example : option_map (fun x => words (snd x))
  (run false 64 (new_atv 5) [On; tk 6 0 0 0 true; tk 7 0 0 0 true; tk 8 1 39 500 true; tk 9 0 0 0 true; Value (f_of_Z 50);
                             tk 210 0 0 0 true; tk 211 0 0 0 true; tk 212 0 0 0 true; Cmd 2; tk 213 0 0 0 true; tk 214 1 39 500 true;
                             tk 215 0 0 0 true; tk 416 0 0 0 true; tk 417 0 0 0 true; tk 418 0 0 0 true; tk 419 1 39 500 true])
  = Some [(1, 0); (1, 250); (1, 250); (2, 250)].
Proof. vm_compute. reflexivity. Qed.

(** * C113: the state reported *)

Theorem C113_state : forall a w t0 l s t, 0 <= t0 -> timely w t0 l -> run a w (new_atv t0) l = Some (s, t) ->
  get_state s = shown (past_of t0 t).
Proof. intros a w t0 l s t H T R. apply (i_st _ _ (history a w t0 l s t H T R)). Qed.
(** The loss of the connection is reported at the first cycle later than 5 s, and the report
    stays until the next answer. *)
Theorem C113_lost : forall a w t0 l s t i s1 c l2 s2 t2, 0 <= t0 -> timely w t0 (l ++ [Tick i]) -> run a w (new_atv t0) l = Some (s, t) ->
  active (past_of t0 t) = true -> conn i = false -> seen (past_of t0 t) + 5000 < now i -> alarmed (past_of t0 t) = false ->
  step a w s (Tick i) = Some (s1, c) -> get_state s1 = -100 /\
  (run a w s1 l2 = Some (s2, t2) -> existsb answered t2 = false -> get_state s2 = -100).
Proof.
  intros a w t0 l s t i s1 c l2 s2 t2 H T R AC CN LT AL E.
  assert (R1 : run a w (new_atv t0) (l ++ [Tick i]) = Some (s1, t ++ [(Tick i, c)])) by (rewrite run_app, R; cbn [run]; rewrite E; reflexivity).
  pose proof (i_st _ _ (history a w t0 _ s1 _ H T R1)) as S. unfold past_of in S. rewrite fold_left_app in S. cbn [fold_left] in S. fold (past_of t0 t) in S.
  unfold note in S. cbn [fst] in S. rewrite AC, CN, AL in S. cbv zeta in S. cbn [negb andb shown] in S.
  replace (5000 <? now i - seen (past_of t0 t)) with true in S by lia. cbn [andb] in S. split; [exact S|]. clear - S.
  revert s1 s2 t2 S. induction l2 as [|e l2 IH]; intros s1 s2 t2 S R2 N; cbn [run] in R2; [injection R2 as <- <-; exact S|].
  destruct (step a w s1 e) as [(s3, c3)|] eqn:E3; [|discriminate]. destruct (run a w s3 l2) as [(s4, t4)|] eqn:R4; [|discriminate]. injection R2 as <- <-.
  cbn [existsb] in N. apply orb_false_iff in N. destruct N as (N1 & N2). apply (IH s3 s4 t4); [|exact R4|exact N2].
  unfold step in E3. destruct e.
  9: injection E3 as <- <-; destruct (n =? 0); [|destruct (n =? 1)]; exact S.
  2-8: injection E3 as <- <-; try (destruct (man s1)); try exact S; unfold get_state in *; try (destruct (set_keeps n s1) as (_ & _ & -> & _); exact S).
  unfold evaluate in E3. destruct (en s1); [|injection E3 as <- <-; exact S].
  destruct (one a w i s1) as [(s5, c5)|] eqn:O; [|discriminate]. injection E3 as <- <-. pose proof (one_now a w i s1 s5 c5 O N1) as K.
  unfold watch. destruct (conn i); [cbn; congruence|]. destruct (_ && _); [reflexivity|congruence].
Qed.
(** Not guaranteed, and false: that a converter which does not answer is reported.  While the
    connection is up, the last state stays, for any time. *)
Theorem C113_silent_refuted : forall a w t0 l s t l2 s2 t2, 0 <= t0 -> timely w t0 l -> run a w (new_atv t0) l = Some (s, t) ->
  Forall (fun i => conn i = true /\ res i = 0) l2 -> run a w s (map Tick l2) = Some (s2, t2) -> get_state s2 = get_state s.
Proof.
  intros a w t0 l s t l2 s2 t2 _ _ _ F. revert s s2 t2 F. induction l2 as [|i l2 IH]; intros s s2 t2 F R; cbn [map run] in R; [injection R as <- <-; reflexivity|].
  destruct (step a w s (Tick i)) as [(s3, c3)|] eqn:E3; [|discriminate]. destruct (run a w s3 (map Tick l2)) as [(s4, t4)|] eqn:R4; [|discriminate]. injection R as <- <-.
  inversion F as [|? ? (F1 & F2) F3]; subst. rewrite (IH s3 s4 t4 F3 R4). cbn [step] in E3. unfold evaluate in E3. destruct (en s); [|injection E3 as <- <-; reflexivity].
  destruct (one a w i s) as [(s5, c5)|] eqn:O; [|discriminate]. injection E3 as <- <-.
  unfold get_state, watch. rewrite F1. cbn [wtm wmerr st]. apply (one_now a w i s s5 c5 O). cbn. destruct c5 as [[]|]; try reflexivity. rewrite F2. reflexivity.
Qed.
(** Nor that a converter whose exchange is switched off is: no calls are made and the last
    state stays, whatever orders follow. *)
Theorem C113_off_refuted : forall a w t0 l s t l2 s2 t2, 0 <= t0 -> timely w t0 l -> run a w (new_atv t0) l = Some (s, t) ->
  active (past_of t0 t) = false -> Forall (fun e => e <> Set_ 101 /\ e <> Cmd 101) l2 -> run a w s l2 = Some (s2, t2) ->
  get_state s2 = get_state s /\ Forall (fun x => snd x = None) t2.
Proof.
  intros a w t0 l s t l2 s2 t2 H T R AC F R2. pose proof (i_en _ _ (history a w t0 l s t H T R)) as EN. rewrite AC in EN. clear - EN F R2.
  revert s s2 t2 EN R2. induction l2 as [|e l2 IH]; intros s s2 t2 EN R; cbn [run] in R; [injection R as <- <-; split; [reflexivity|constructor]|].
  destruct (step a w s e) as [(s3, c3)|] eqn:E3; [|discriminate]. destruct (run a w s3 l2) as [(s4, t4)|] eqn:R4; [|discriminate]. injection R as <- <-.
  inversion F as [|? ? (F1 & F2) F3]; subst.
  assert (SET : forall n, n <> 101 -> en (direct_set_state n s) = false).
  { intros n N. unfold direct_set_state, direct_on, direct_off. destruct (n =? 2); [exact EN|]. destruct (n =? 100); [reflexivity|].
    destruct (Z.eqb_spec n 101); [contradiction|]. destruct (negb (n =? 0)); exact EN. }
  assert (X : en s3 = false /\ c3 = None /\ st s3 = st s).
  { unfold step in E3. destruct e.
    - unfold evaluate in E3. rewrite EN in E3. injection E3 as <- <-. repeat split. exact EN.
    - injection E3 as <- <-. destruct (man s); repeat split; exact EN.
    - injection E3 as <- <-. destruct (man s); repeat split; exact EN.
    - injection E3 as <- <-. destruct (man s); repeat split; [exact EN|apply SET; congruence|apply set_keeps].
    - injection E3 as <- <-. destruct (man s); repeat split; exact EN.
    - injection E3 as <- <-. destruct (man s); repeat split; exact EN.
    - injection E3 as <- <-. repeat split; [apply SET; congruence|apply set_keeps].
    - injection E3 as <- <-. repeat split; exact EN.
    - injection E3 as <- <-. destruct (n =? 0); [|destruct (n =? 1)]; repeat split; exact EN. }
  destruct X as (X1 & -> & X3). destruct (IH F3 s3 s4 t4 X1 R4) as (Y1 & Y2). split; [unfold get_state in *; congruence|]. constructor; [reflexivity|exact Y2].
Qed.
(** Nor that the direction reported is the one of the drive: it is the one ordered last.  A
    motor ordered to reverse is reported reversed by an exchange that still ordered it
    ahead. *)
Theorem C113_direction_refuted : exists l s t, run false 64 (new_atv 0) l = Some (s, t) /\ timely 64 0 l /\
  words t = [(1, 0); (1, 0)] /\ get_state s = 2.
Proof.
  exists [On; tk 1 0 0 0 true; tk 2 0 0 0 true; tk 3 0 0 0 true; Back; tk 4 1 39 500 true].
  eexists. eexists. split; [vm_compute; reflexivity|]. split; [cbn; lia|]. split; vm_compute; reflexivity.
Qed.
Print Assumptions C113_state.
Print Assumptions C113_lost.
Print Assumptions C113_silent_refuted.
Print Assumptions C113_off_refuted.
Print Assumptions C113_direction_refuted.
(** Running, connection lost, back, fault, exchange switched off. *)
Example C113_example :
  map (fun n => option_map (fun x => get_state (fst x)) (run false 64 (new_atv 0) (firstn n
    [On; tk 1 0 0 0 true; tk 2 0 0 0 true; tk 3 1 39 500 true; tk 5003 0 0 0 false; tk 5004 0 0 0 false; tk 5005 0 0 0 true; tk 5006 0 0 0 true; tk 5206 0 0 0 true; tk 5207 0 0 0 true;
     tk 5208 0 0 0 true; tk 5209 1 8 500 true; Cmd 100; tk 20000 1 39 500 false])))
    [3; 4; 5; 6; 7; 8; 9; 10; 11; 12; 14]%nat = map Some [0; 1; 1; -100; -100; -100; -100; -100; -100; -1; -1].
Proof. vm_compute. reflexivity. Qed.

(** * C114: frequencies *)

(** A speed of at most 100 percent, set after any history: the setpoint sent by the exchanges
    after the next answered one is that part of the limit of frequency last read, with an
    error of at most 0.1001 Hz (the register counts tenths), until another speed is set; and
    it is read back with an error of at most 0.001 while the limit stays. *)
Theorem C114_frequency : forall a w t0 l s t v e l1 s1 t1 l2 s2 t2, 0 <= t0 -> timely w t0 l -> words_ok l -> run a w (new_atv t0) l = Some (s, t) ->
  speed_asked (held (past_of t0 t)) e = Some v -> f_finite v = true -> (Qabs (f_val v) <= 100)%Q ->
  run a w s (e :: l1) = Some (s1, t1) -> Forall (fun x => speed_asked false x = None) l1 -> existsb answered t1 = true ->
  run a w s1 l2 = Some (s2, t2) -> Forall (fun x => speed_asked false x = None) l2 ->
  forall c f, In (c, f) (words t2) -> (Qabs (inject_Z f - f_val v * inject_Z (tenths (past_of t0 t)) / 100) <= 1 + (1 # 1000))%Q.
Proof.
  intros a w t0 l s t v e l1 s1 t1 l2 s2 t2 H T W R A FV BV R1 F1 AN R2 F2 c f I.
  pose proof (history_max a w t0 l s t H T W R) as L. pose proof (i_man _ _ (history a w t0 l s t H T R)) as M.
  cbn [run] in R1. destruct (step a w s e) as [(s0, c0)|] eqn:E; [|discriminate]. destruct (run a w s0 l1) as [(s1', t1')|] eqn:R1'; [|discriminate]. injection R1 as <- <-.
  assert (S : s0 = direct_set_value v s).
  { unfold step in E. destruct e; cbn in A; try discriminate.
    - destruct (held (past_of t0 t)) eqn:HP; [discriminate|]. rewrite M in E. injection E as <- <-. injection A as <-. reflexivity.
    - injection E as <- <-. injection A as <-. reflexivity. }
  assert (NA : answered (e, c0) = false) by (destruct e; try reflexivity; discriminate A).
  cbn [existsb] in AN. rewrite NA in AN. cbn [orb] in AN.
  destruct (run_steady a w l1 s0 s1' t1' R1' F1) as (K1 & _ & K3). destruct (run_steady a w l2 s1' s2 t2 R2 F2) as (_ & L2 & _).
  pose proof (proj2 (L2 (K3 AN)) c f I) as X. rewrite K1, S in X.
  destruct (register v (fmax s) (tenths (past_of t0 t)) s FV BV L eq_refl) as (r & Y & Z). rewrite X in Y. injection Y as ->. exact Z.
Qed.
Theorem C114_read_back : forall a w t0 l s t v e s1 c, 0 <= t0 -> timely w t0 l -> words_ok l -> run a w (new_atv t0) l = Some (s, t) ->
  speed_asked (held (past_of t0 t)) e = Some v -> f_finite v = true -> (Qabs (f_val v) <= 100)%Q -> step a w s e = Some (s1, c) ->
  f_finite (get_value s1) = true /\ (Qabs (f_val (get_value s1) - f_val v) <= 1 # 1000)%Q.
Proof.
  intros a w t0 l s t v e s1 c H T W R A FV BV E.
  pose proof (history_max a w t0 l s t H T W R) as L. pose proof (i_man _ _ (history a w t0 l s t H T R)) as M.
  assert (S : s1 = direct_set_value v s).
  { unfold step in E. destruct e; cbn in A; try discriminate.
    - destruct (held (past_of t0 t)) eqn:HP; [discriminate|]. rewrite M in E. injection E as <- <-. injection A as <-. reflexivity.
    - injection E as <- <-. injection A as <-. reflexivity. }
  rewrite S. exact (read_back v s _ FV BV L).
Qed.
(** Not guaranteed, and false: that a percentage refers to the limit of the converter.  Before
    the first answer it refers to 120 Hz: 50 percent set then turn a motor of at most 50 Hz
    at 60 Hz, and more than 119 percent
    are read back. *)
Theorem C114_early_refuted : exists l s t, run false 64 (new_atv 0) l = Some (s, t) /\ timely 64 0 l /\
  l = [Value (f_of_Z 50); On; tk 1 0 0 0 true; tk 2 0 0 0 true; tk 3 1 39 500 true; tk 4 0 0 0 true; tk 205 0 0 0 true; tk 206 0 0 0 true; tk 207 0 0 0 true; tk 208 1 39 500 true] /\
  words t = [(1, 600); (1, 600)] /\ (119 < f_val (get_value s))%Q.
Proof.
  eexists. eexists. eexists. split; [|split; [|split; [reflexivity|]]]; [vm_compute; reflexivity|cbn; lia|]. split; vm_compute; reflexivity.
Qed.
(** Nor that more than 100 percent are refused: 2800 percent of 120 Hz are sent as a negative
    frequency; and a still larger number has no defined conversion. *)
Theorem C114_large_refuted : exists s t, run false 64 (new_atv 0) [Value (f_of_Z 2800); On; tk 1 0 0 0 true; tk 2 0 0 0 true; tk 3 1 39 500 true] = Some (s, t) /\
  words t = [(1, -31936)] /\ run false 64 (new_atv 0) [Value (f_of_Z 1000000000); tk 1 0 0 0 true; tk 2 0 0 0 true] = None.
Proof. eexists. eexists. split; [vm_compute; reflexivity|]. split; vm_compute; reflexivity. Qed.
Print Assumptions C114_frequency.
Print Assumptions C114_read_back.
Print Assumptions C114_early_refuted.
Print Assumptions C114_large_refuted.
(** After the first answer 75 percent are 37.5 Hz. *)
Example C114_example : option_map (fun x => (words (snd x), f_eq (get_value (fst x)) (f_of_Z 75)))
  (run false 64 (new_atv 0) [tk 1 0 0 0 true; tk 2 0 0 0 true; tk 3 1 33 500 true; CmdV (f_of_Z 75); On; tk 4 0 0 0 true; tk 205 0 0 0 true; tk 206 0 0 0 true; tk 207 0 0 0 true; tk 208 1 39 500 true])
  = Some ([(4, 0); (1, 375)], true).
Proof. vm_compute. reflexivity. Qed.
