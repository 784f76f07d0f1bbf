(** The model of Altivar converters does what the specification says. *)
From Coq Require Import ZArith List Bool Lia QArith Qabs Lqa.
From Verif Require Import Base TimeModel FTextModel FloatModel AtvModel AtvSpec.
Import ListNotations.
Open Scope Z_scope.

Lemma delta_ge w n t : 0 <= t <= n -> get_delta_millisec w n t = n - t.
Proof.
  intros H. unfold get_delta_millisec. replace (n <? t) with false by lia. replace (t <=? n) with true by lia. reflexivity.
Qed.
Lemma decode_status x r : decode x r = status x r.
Proof.
  unfold decode, status. destruct (Z.land x 111 =? 64), (Z.land x 111 =? 33), (Z.land x 111 =? 35), (Z.land x 111 =? 39), (Z.land x 111 =? 7); reflexivity.
Qed.

Lemma run_app a w l1 : forall s l2, run a w s (l1 ++ l2) =
  match run a w s l1 with None => None | Some (s1, t1) => match run a w s1 l2 with None => None | Some (s2, t2) => Some (s2, t1 ++ t2) end end.
Proof.
  induction l1 as [|e l IH]; intros s l2; cbn [app run]; [destruct (run a w s l2) as [[]|]; reflexivity|].
  destruct (step a w s e) as [(s', c)|]; [|reflexivity]. rewrite IH.
  destruct (run a w s' l) as [(s1, t1)|]; [|reflexivity]. destruct (run a w s1 l2) as [(s2, t2)|]; reflexivity.
Qed.

(** * Commands are carried *)

(** Events that give no order of direction, and none for the speed. *)
Definition calm (e : ev) : Prop := asks false e = None.
Definition steady (e : ev) : Prop := speed_asked false e = None.
Lemma calm_asks e h : calm e -> asks h e = None.
Proof. unfold calm. destruct e; cbn; try discriminate; intros H; destruct h; auto. Qed.
Lemma steady_asks e h : steady e -> speed_asked h e = None.
Proof. unfold steady. destruct e; cbn; try discriminate; reflexivity. Qed.

Lemma meaning_set n s : match meaning n with
  | Some q => direct_set_state n s = wcmd (word q (st s)) (match q with Astern => true | _ => false end) s
  | None => (n = 100 /\ direct_set_state n s = wen false s) \/ (n = 101 /\ direct_set_state n s = wmerr false (wen true s))
  end.
Proof.
  unfold meaning, direct_set_state, direct_on, direct_off, word.
  destruct (Z.eqb_spec n 0); [subst; reflexivity|]. destruct (Z.eqb_spec n 2); [reflexivity|].
  destruct (Z.eqb_spec n 100); cbn [orb]; [left; split; [assumption|reflexivity]|].
  destruct (Z.eqb_spec n 101); cbn [orb negb]; [right; split; [assumption|reflexivity]|]. reflexivity.
Qed.
Lemma set_not n s : meaning n = None -> cmd (direct_set_state n s) = cmd s /\ qs (direct_set_state n s) = qs s /\ bc (direct_set_state n s) = bc s.
Proof. intros M. pose proof (meaning_set n s) as H. rewrite M in H. destruct H as [(_ & ->)|(_ & ->)]; repeat split. Qed.

Definition prep (s : avs) : Prop := qs s = Query -> bc s = s16 (cmd s).
Lemma watch_q w i s : qs (watch w i s) = qs s /\ bc (watch w i s) = bc s /\ bf (watch w i s) = bf s /\ cmd (watch w i s) = cmd s /\ sp (watch w i s) = sp s.
Proof. unfold watch. destruct (conn i); [repeat split|]. destruct (_ && _); repeat split. Qed.
Lemma one_q a w i s s' c : one a w i s = Some (s', c) ->
  cmd s' = cmd s /\ sp s' = sp s /\
  (qs s' = Query -> (bc s' = s16 (cmd s) /\ freq_reg (sp s) = Some (bf s')) \/ (qs s = Query /\ bc s' = bc s /\ bf s' = bf s)) /\
  (match c with Some (Xchg _ x f) => x = bc s /\ f = bf s /\ qs s = Query | _ => True end) /\
  (match c with Some (Xchg _ _ _) => res i =? 1 | _ => false end = true -> qs s' <> Query).
Proof.
  unfold one. intros H. destruct (qs s) eqn:Q.
  - injection H as <- <-. cbn. repeat split; try discriminate. destruct (conf s && a); discriminate.
  - destruct (n =? 16); [injection H as <- <-; cbn; repeat split; discriminate|].
    destruct (n mod 2 =? 0); [injection H as <- <-; cbn; repeat split; discriminate|].
    destruct (nth _ _ _) as (ad, vs). destruct (negb (res i =? 0)); injection H as <- <-; cbn; repeat split; try discriminate.
    intros X. congruence.
  - destruct (freq_reg (sp s)) as [f|] eqn:F; [|discriminate]. injection H as <- <-. cbn. repeat split; try discriminate. intros _. left. split; [reflexivity|first [exact F|reflexivity]].
  - destruct (res i =? 1) eqn:R1; [injection H as <- <-; cbn; repeat split; discriminate|].
    destruct (res i =? -1); injection H as <- <-; cbn; rewrite ?R1; repeat split; try discriminate. intros _. right. auto.
  - injection H as <- <-. cbn. repeat split; discriminate.
  - injection H as <- <-. destruct (200 <? _); cbn; repeat split; try discriminate. intros X. congruence.
Qed.
Lemma step_calm a w s e s' c : step a w s e = Some (s', c) -> calm e ->
  cmd s' = cmd s /\ (prep s -> prep s') /\ (match c with Some (Xchg _ x _) => prep s -> x = s16 (cmd s) | _ => True end) /\
  (answered (e, c) = true -> prep s').
Proof.
  intros H C. assert (A : forall h, asks h e = None) by (intros h; apply calm_asks; exact C).
  assert (AUTO : forall r, (cmd r = cmd s /\ qs r = qs s /\ bc r = bc s) -> Some (if man s then s else r, @None tele) = Some (s', c) ->
    cmd s' = cmd s /\ (prep s -> prep s') /\ (match c with Some (Xchg _ x _) => prep s -> x = s16 (cmd s) | _ => True end) /\ (answered (e, c) = true -> prep s')).
  { intros r (R1 & R2 & R3) X. injection X as <- <-. unfold prep. destruct (man s); rewrite ?R1, ?R2, ?R3; repeat split; auto; destruct e; discriminate. }
  unfold step in H. destruct e.
  - unfold evaluate in H. destruct (en s); [|injection H as <- <-; repeat split; auto; discriminate].
    destruct (one a w i s) as [(s1, c1)|] eqn:E; [|discriminate]. injection H as <- <-.
    destruct (one_q a w i s s1 c1 E) as (O1 & _ & O2 & O3 & O4). destruct (watch_q w i s1) as (W1 & W2 & _ & W3 & _). unfold prep. rewrite W1, W2, W3, O1.
    split; [reflexivity|]. split; [|split].
    + intros P Q. destruct (O2 Q) as [(X & _)|(X & Y & _)]; [exact X|rewrite Y; apply P; exact X].
    + destruct c1 as [[]|]; auto. destruct O3 as (-> & _ & Q). intros P. apply P; exact Q.
    + unfold answered. intros X Q. exfalso. apply O4; [|exact Q]. destruct c1 as [[]|]; [discriminate|exact X|discriminate].
  - specialize (A false). discriminate A.
  - specialize (A false). discriminate A.
  - apply (AUTO _ (set_not n s (A false)) H).
  - specialize (A false). discriminate A.
  - apply (AUTO (direct_set_value v s)); [repeat split|exact H].
  - destruct (set_not n s (A false)) as (X & Y & Z). injection H as <- <-. unfold prep. rewrite X, Y, Z. repeat split; auto; discriminate.
  - injection H as <- <-. repeat split; auto; discriminate.
  - injection H as <- <-. destruct (n =? 0); [|destruct (n =? 1)]; repeat split; auto; discriminate.
Qed.
Lemma run_calm a w l : forall s s' t, run a w s l = Some (s', t) -> Forall calm l ->
  cmd s' = cmd s /\ (prep s -> prep s' /\ forall x f, In (x, f) (words t) -> x = s16 (cmd s)) /\ (existsb answered t = true -> prep s').
Proof.
  induction l as [|e l IH]; intros s s' t R F; cbn [run] in R.
  - injection R as <- <-. split; [reflexivity|]. split; [intros P; split; [exact P|intros x f []]|discriminate].
  - inversion F as [|? ? F1 F2]; subst. destruct (step a w s e) as [(s1, c)|] eqn:E; [|discriminate].
    destruct (run a w s1 l) as [(s2, t2)|] eqn:R2; [|discriminate]. injection R as <- <-.
    destruct (step_calm a w s e s1 c E F1) as (A1 & A2 & A3 & A4). destruct (IH s1 s2 t2 R2 F2) as (B1 & B2 & B3).
    split; [congruence|]. split.
    + intros P. destruct (B2 (A2 P)) as (C1 & C2). split; [exact C1|]. intros x f X. unfold words in X. cbn [flat_map snd] in X. apply in_app_or in X. destruct X as [X|X].
      * destruct c as [[|b x0 f0]|]; cbn in X; try contradiction. destruct X as [X|[]]. injection X as -> ->. apply (A3 P).
      * rewrite <- A1. apply (C2 x f X).
    + cbn [existsb]. intros X. apply orb_true_iff in X. destruct X as [X|X]; [|apply B3; exact X]. apply B2. apply A4. exact X.
Qed.

(** The same for the frequency. *)
Definition prepf (s : avs) : Prop := qs s = Query -> freq_reg (sp s) = Some (bf s).
Lemma set_keep n s : sp (direct_set_state n s) = sp s /\ qs (direct_set_state n s) = qs s /\ bf (direct_set_state n s) = bf s.
Proof.
  unfold direct_set_state, direct_on, direct_off. repeat match goal with |- context [if ?b then _ else _] => destruct b end; repeat split.
Qed.
Lemma step_steady a w s e s' c : step a w s e = Some (s', c) -> steady e ->
  sp s' = sp s /\ (prepf s -> prepf s') /\ (match c with Some (Xchg _ _ f) => prepf s -> freq_reg (sp s) = Some f | _ => True end) /\
  (answered (e, c) = true -> prepf s').
Proof.
  intros H C.
  assert (AUTO : forall r, (sp r = sp s /\ qs r = qs s /\ bf r = bf s) -> Some (if man s then s else r, @None tele) = Some (s', c) ->
    sp s' = sp s /\ (prepf s -> prepf s') /\ (match c with Some (Xchg _ _ f) => prepf s -> freq_reg (sp s) = Some f | _ => True end) /\ (answered (e, c) = true -> prepf s')).
  { intros r (R1 & R2 & R3) X. injection X as <- <-. unfold prepf. destruct (man s); rewrite ?R1, ?R2, ?R3; repeat split; auto; destruct e; discriminate. }
  unfold step in H. destruct e.
  - unfold evaluate in H. destruct (en s); [|injection H as <- <-; repeat split; auto; discriminate].
    destruct (one a w i s) as [(s1, c1)|] eqn:E; [|discriminate]. injection H as <- <-.
    destruct (one_q a w i s s1 c1 E) as (_ & O1 & O2 & O3 & O4). destruct (watch_q w i s1) as (W1 & _ & W2 & _ & W3). unfold prepf. rewrite W1, W2, W3, O1.
    split; [reflexivity|]. split; [|split].
    + intros P Q. destruct (O2 Q) as [(_ & X)|(X & _ & Y)]; [exact X|rewrite Y; apply P; exact X].
    + destruct c1 as [[]|]; auto. destruct O3 as (_ & -> & Q). intros P. apply P; exact Q.
    + unfold answered. intros X Q. exfalso. apply O4; [|exact Q]. destruct c1 as [[]|]; [discriminate|exact X|discriminate].
  - apply (AUTO (direct_on s)); [repeat split|exact H].
  - apply (AUTO (direct_off s)); [repeat split|exact H].
  - apply (AUTO _ (set_keep n s) H).
  - apply (AUTO _ (set_keep 2 s) H).
  - discriminate C.
  - destruct (set_keep n s) as (X & Y & Z). injection H as <- <-. unfold prepf. rewrite X, Y, Z. repeat split; auto; discriminate.
  - discriminate C.
  - injection H as <- <-. destruct (n =? 0); [|destruct (n =? 1)]; repeat split; auto; discriminate.
Qed.
Lemma run_steady a w l : forall s s' t, run a w s l = Some (s', t) -> Forall steady l ->
  sp s' = sp s /\ (prepf s -> prepf s' /\ forall x f, In (x, f) (words t) -> freq_reg (sp s) = Some f) /\ (existsb answered t = true -> prepf s').
Proof.
  induction l as [|e l IH]; intros s s' t R F; cbn [run] in R.
  - injection R as <- <-. split; [reflexivity|]. split; [intros P; split; [exact P|intros x f []]|discriminate].
  - inversion F as [|? ? F1 F2]; subst. destruct (step a w s e) as [(s1, c)|] eqn:E; [|discriminate].
    destruct (run a w s1 l) as [(s2, t2)|] eqn:R2; [|discriminate]. injection R as <- <-.
    destruct (step_steady a w s e s1 c E F1) as (A1 & A2 & A3 & A4). destruct (IH s1 s2 t2 R2 F2) as (B1 & B2 & B3).
    split; [congruence|]. split.
    + intros P. destruct (B2 (A2 P)) as (C1 & C2). split; [exact C1|]. intros x f X. unfold words in X. cbn [flat_map snd] in X. apply in_app_or in X. destruct X as [X|X].
      * destruct c as [[|b x0 f0]|]; cbn in X; try contradiction. destruct X as [X|[]]. injection X as -> ->. apply (A3 P).
      * rewrite <- A1. apply (C2 x f X).
    + cbn [existsb]. intros X. apply orb_true_iff in X. destruct X as [X|X]; [|apply B3; exact X]. apply B2. apply A4. exact X.
Qed.

(** * The state *)

Record inv (s : avs) (p : past) : Prop := {
  i_man : man s = held p;
  i_en : en s = active p;
  i_rev : revd s = back p;
  i_st : st s = shown p;
  i_tm : tm s = seen p;
  i_merr : merr s = alarmed p }.

Lemma inv_fresh t0 : inv (new_atv t0) (fresh t0).
Proof. constructor; reflexivity. Qed.

Lemma set_keeps n s : man (direct_set_state n s) = man s /\ tm (direct_set_state n s) = tm s /\ st (direct_set_state n s) = st s /\ fmax (direct_set_state n s) = fmax s.
Proof.
  unfold direct_set_state, direct_on, direct_off. repeat match goal with |- context [if ?b then _ else _] => destruct b end; repeat split.
Qed.
Lemma set_inv n s p : inv s p -> forall h, h = held p ->
  inv (direct_set_state n s)
    {| held := h; active := if n =? 100 then false else if n =? 101 then true else active p;
       back := match meaning n with Some Astern => true | Some _ => false | None => back p end; shown := shown p;
       seen := seen p; alarmed := if n =? 101 then false else alarmed p; tenths := tenths p |}.
Proof.
  intros I h ->. destruct (set_keeps n s) as (K1 & K2 & K3 & _). pose proof (meaning_set n s) as M.
  destruct I as [I1 I2 I3 I4 I5 I6].
  constructor; cbn [held active back shown seen alarmed]; try congruence.
  - destruct (meaning n) as [q|] eqn:E.
    + rewrite M. cbn [wcmd en]. unfold meaning in E. destruct (Z.eqb_spec n 0); [subst; exact I2|]. destruct (Z.eqb_spec n 2); [subst; exact I2|].
      destruct (n =? 100); [discriminate|]. destruct (n =? 101); [discriminate|]. exact I2.
    + destruct M as [(-> & ->)|(-> & ->)]; reflexivity.
  - destruct (meaning n) as [q|] eqn:E; [rewrite M; destruct q; reflexivity|].
    destruct M as [(-> & ->)|(-> & ->)]; exact I3.
  - destruct (meaning n) as [q|] eqn:E.
    + rewrite M. cbn [wcmd merr]. unfold meaning in E. destruct (Z.eqb_spec n 0); [subst; exact I6|]. destruct (Z.eqb_spec n 2); [subst; exact I6|].
      destruct (n =? 100); [discriminate|]. destruct (n =? 101); [discriminate|]. exact I6.
    + destruct M as [(-> & ->)|(-> & ->)]; [exact I6|reflexivity].
Qed.
Lemma one_inv a w i s s1 c : one a w i s = Some (s1, c) ->
  man s1 = man s /\ en s1 = en s /\ revd s1 = revd s /\ tm s1 = tm s /\ merr s1 = merr s /\
  st s1 = (if answered (Tick i, c) then status (regs i 0) (revd s) else st s) /\
  fmax s1 = (if answered (Tick i, c) then limit (regs i 3) else fmax s).
Proof.
  unfold one. intros H. destruct (qs s).
  - injection H as <- <-. repeat split.
  - destruct (n =? 16); [injection H as <- <-; repeat split|].
    destruct (n mod 2 =? 0); [injection H as <- <-; repeat split|].
    destruct (nth _ _ _) as (ad, vs). destruct (negb (res i =? 0)); injection H as <- <-; repeat split.
  - destruct (freq_reg (sp s)) as [f|]; [|discriminate]. injection H as <- <-. repeat split.
  - destruct (res i =? 1) eqn:R1; [injection H as <- <-|destruct (res i =? -1); injection H as <- <-]; cbn [answered]; rewrite R1; repeat split.
    cbn [wq wst wfmax st]. apply decode_status.
  - injection H as <- <-. repeat split.
  - injection H as <- <-. destruct (200 <? _); repeat split.
Qed.

Lemma step_inv a w s e s' c p t : step a w s e = Some (s', c) -> inv s p -> 0 <= seen p <= t -> timely w t [e] ->
  inv s' (note p (e, c)) /\ seen (note p (e, c)) <= (match e with Tick i => now i | _ => t end) /\ 0 <= seen (note p (e, c)).
Proof.
  intros H I B T. pose proof I as [I1 I2 I3 I4 I5 I6].
  assert (KEEP : forall q, held q = held p -> active q = active p -> back q = back p -> shown q = shown p -> seen q = seen p -> alarmed q = alarmed p -> inv s q).
  { intros q Q1 Q2 Q3 Q4 Q5 Q6. constructor; congruence. }
  destruct e; cbn [timely] in T; unfold step in H.
  - unfold evaluate in H. unfold note. cbn [fst]. rewrite I2 in H. destruct (active p) eqn:AC.
    2:{ injection H as <- <-. cbv zeta. split; [exact I|lia]. }
    destruct (one a w i s) as [(s1, c1)|] eqn:E; [|discriminate]. injection H as <- <-.
    destruct (one_inv a w i s s1 c1 E) as (O1 & O2 & O3 & O4 & O5 & O6 & _). cbv zeta.
    unfold watch. rewrite O4, I5, delta_ge by lia. rewrite O5, I6.
    destruct (conn i); cbn [negb andb held active back shown seen alarmed].
    + split; [|lia]. constructor; cbn; try congruence; rewrite O6, I3, I4; reflexivity.
    + destruct ((5000 <? now i - seen p) && negb (alarmed p)) eqn:L; (split; [|lia]); constructor; cbn [wmerr wst man en revd st tm merr held active back shown seen alarmed]; try congruence.
      * rewrite orb_true_r. reflexivity.
      * rewrite O6, I3, I4. reflexivity.
      * rewrite orb_false_r. congruence.
  - unfold note. cbn [fst asks]. rewrite I1 in H. destruct (held p) eqn:HP; injection H as <- <-; cbn; (split; [|lia]); [apply KEEP; cbn; auto|constructor; cbn; congruence].
  - unfold note. cbn [fst asks]. rewrite I1 in H. destruct (held p) eqn:HP; injection H as <- <-; cbn; (split; [|lia]); [apply KEEP; cbn; auto|constructor; cbn; congruence].
  - unfold note. cbn [fst asks]. rewrite I1 in H. destruct (held p) eqn:HP; injection H as <- <-; cbv zeta; (split; [|cbn [seen]; lia]); [apply KEEP; cbn; auto|].
    apply set_inv; [exact I|congruence].
  - unfold note. cbn [fst asks]. rewrite I1 in H. destruct (held p) eqn:HP; injection H as <- <-; cbn; (split; [|lia]); [apply KEEP; cbn; auto|constructor; cbn; congruence].
  - unfold note. cbn [fst asks]. rewrite I1 in H. destruct (held p) eqn:HP; injection H as <- <-; cbn; (split; [|lia]); [apply KEEP; cbn; auto|constructor; cbn; congruence].
  - unfold note. cbn [fst asks]. injection H as <- <-. cbv zeta. split; [|cbn [seen]; lia]. apply set_inv; [exact I|reflexivity].
  - unfold note. cbn [fst asks]. injection H as <- <-. cbn. split; [|lia]. constructor; cbn; congruence.
  - unfold note. cbn [fst asks]. injection H as <- <-. cbn [seen]. split; [|lia]. destruct (n =? 0); [|destruct (n =? 1)]; constructor; cbn; congruence.
Qed.
Lemma timely_cons w t e l : timely w t (e :: l) -> timely w t [e] /\ timely w (match e with Tick i => now i | _ => t end) l.
Proof. destruct e; cbn; tauto. Qed.
Lemma run_inv a w l : forall s p t s' tr, run a w s l = Some (s', tr) -> inv s p -> 0 <= seen p <= t -> timely w t l -> inv s' (fold_left note tr p).
Proof.
  induction l as [|e l IH]; intros s p t s' tr R I B T; cbn [run] in R; [injection R as <- <-; exact I|].
  destruct (step a w s e) as [(s1, c)|] eqn:E; [|discriminate]. destruct (run a w s1 l) as [(s2, t2)|] eqn:R2; [|discriminate]. injection R as <- <-.
  apply timely_cons in T. destruct T as (T1 & T2). destruct (step_inv a w s e s1 c p t E I B T1) as (J & S1 & S2).
  cbn [fold_left]. exact (IH s1 _ _ s2 t2 R2 J (conj S2 S1) T2).
Qed.
Lemma history a w t0 l s t : 0 <= t0 -> timely w t0 l -> run a w (new_atv t0) l = Some (s, t) -> inv s (past_of t0 t).
Proof. intros H T R. exact (run_inv a w l _ _ t0 s t R (inv_fresh t0) ltac:(cbn; lia) T). Qed.

(** Without exchanges nothing changes. *)
Lemma one_now a w i s s1 c : one a w i s = Some (s1, c) -> answered (Tick i, c) = false -> st s1 = st s.
Proof. intros H A. destruct (one_inv a w i s s1 c H) as (_ & _ & _ & _ & _ & O & _). rewrite A in O. exact O. Qed.
