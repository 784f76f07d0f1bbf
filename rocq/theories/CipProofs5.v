(** Proofs about the washing sequencer: washing only with the recipe in service; several lines. *)
From Coq Require Import ZArith List Bool Lia.
From Verif Require Import CipModel CipSpec CipProofs CipProofs2 CipProofs3 CipProofs4.
Import ListNotations.
Open Scope Z_scope.

(** * No washing without the valves of the recipe *)

Definition refused (l : line) : Prop :=
  (0 < state l -> step l = 555) /\ (step l = 0 \/ step l = 555)
  /\ (state l < 0 -> step l = 0 -> locked l = true \/ state l = -30 \/ state l = -32 \/ (state l = -31 /\ conflict l = true)).
Lemma refused_command : forall o i l, refused l -> locked l = false -> (state l = 0 -> step l = 0) ->
  (state l < 0 -> cmd l <> 1 /\ (state l = -30 -> cmd l <> 3)) ->
  fold_left serve1 (snd (eval_command o i l)) None = None -> refused (fst (eval_command o i l)).
Proof.
  intros o i l R0 U Z0 G. pose proof R0 as (A & B & C). unfold eval_command.
  destruct (Z.eqb_spec (cmd l) NEXT) as [E|E].
  { destruct (Z.eqb_spec (state l) 0) as [S|S]; cbn [negb andb]; [intros _; exact R0|].
    destruct (Z.eqb_spec (step l) 555) as [T|T]; cbn [negb]; [intros _; exact R0|].
    exfalso. destruct (Z.lt_trichotomy (state l) 0) as [Q|[Q|Q]]; [destruct (G Q); contradiction|contradiction|auto]. }
  destruct (cmd l =? PAUSE).
  { destruct (Z.ltb_spec 0 (state l)) as [S|S]; [|intros _; exact R0]. rewrite (A S). cbn. intros _; exact R0. }
  destruct (cmd l =? RESET).
  { destruct (Z.eqb_spec (state l) 0) as [S|S]; cbn [negb fst snd]; intros _.
    - split; [cbn; lia|]. split; [cbn; auto|]. cbn. lia.
    - split; [cbn; lia|]. split; [cbn; auto|]. cbn. lia. }
  destruct (Z.eqb_spec (cmd l) EVALUATE) as [E3|E3]; [|intros _; exact R0].
  destruct (Z.ltb_spec (state l) 0) as [N|N].
  { destruct (conflict l) eqn:CF; [intros _; exact R0|].
    destruct (negb (i_ready i)).
    { intros _. split; [cbn; lia|]. split; [exact B|]. cbn. auto. }
    destruct (Z.eqb_spec (state l) (-32)) as [Q|Q]; [intros _; exact R0|].
    intros _. destruct B as [B|B].
    - exfalso. destruct (C N B) as [D|[D|[D|(D & D2)]]]; [congruence| |congruence|congruence]. destruct (G N) as [_ G3]. exact (G3 D E3).
    - split; [cbn; auto|]. split; [cbn; auto|]. cbn. lia. }
  destruct ((state l =? 0) && ((0 <=? recipe l) || (256 <=? prog l)) && (0 <? prog l)) eqn:Q; [|intros _; exact R0].
  apply andb_prop in Q. destruct Q as [Q _]. apply andb_prop in Q. destruct Q as [Q _]. apply Z.eqb_eq in Q.
  destruct (i_conf i) eqn:CI. { intros _. split; [cbn; lia|]. split; [exact B|]. cbn. auto 6. }
  destruct (negb (i_ready i)). { intros _. split; [cbn; lia|]. split; [exact B|]. cbn. auto. }
  destruct (i_acid i && _ && _). { intros _. split; [cbn; lia|]. split; [exact B|]. cbn. auto. }
  cbn [fst snd fold_left serve1]. rewrite serve_init. discriminate.
Qed.
Lemma refused_cycle : forall o i l s, sound l -> served l s -> (s = None -> refused l) ->
  (s = None -> state l < 0 -> cmd l <> 1 /\ (state l = -30 -> cmd l <> 3)) ->
  fold_left serve1 (snd (cycle o i l)) s = None -> refused (fst (cycle o i l)).
Proof.
  intros o i l s SD H W G.
  assert (W0 : s = None -> refused (eval_lock l)).
  { intros N. specialize (W N). destruct W as (A & B & C). unfold eval_lock. destruct (cmd l =? LOCK).
    - split; [exact A|]. split; [exact B|]. cbn. auto.
    - destruct (cmd l =? UNLOCK); [|split; auto]. unfold refused. cbn -[Z.ltb].
      destruct (Z.ltb_spec 0 (step l)); (split; [lia|]; split; [exact B|]; lia). }
  assert (G0 : s = None -> state (eval_lock l) < 0 -> cmd (eval_lock l) <> 1 /\ (state (eval_lock l) = -30 -> cmd (eval_lock l) <> 3)).
  { intros N. unfold eval_lock. destruct (cmd l =? LOCK); [cbn; lia|]. destruct (cmd l =? UNLOCK); [cbn; lia|]. exact (G N). }
  assert (S0 : sound (eval_lock l)) by (apply lock_sound, SD).
  assert (C0 : forall r, s = Some r -> conflict (eval_lock l) = false).
  { intros r E. destruct (lock_same l) as (_ & _ & _ & _ & _ & _ & _ & l1 & _). rewrite l1. apply (H r E). }
  assert (R0 : forall r, s = Some r -> selrec (eval_lock l) <= 0 /\ recipe (eval_lock l) = r).
  { intros r E. destruct (lock_same l) as (_ & _ & _ & _ & _ & l1 & l2 & _). rewrite l1, l2. split; apply (H r E). }
  unfold cycle. revert W0 G0 S0 C0 R0. generalize (eval_lock l). clear. intros l W G SD CF RC.
  destruct (locked l) eqn:U.
  { cbn [fst snd]. rewrite fold_left_app.
    replace (fold_left serve1 (if 0 <? state l then snd (stop l) else []) s) with s by (destruct (0 <? state l); reflexivity).
    cbn. intros N. specialize (W N). destruct W as (A & B & C). split; [cbn; lia|]. split; [exact B|]. cbn. auto. }
  destruct (rec_fields l) as (r1 & r2 & r3 & r4 & r5 & r6 & _ & _ & r7 & r8).
  assert (W0 : s = None -> refused (eval_recipes l)). { intros N. unfold refused. rewrite r1, r3, r4, r6. exact (W N). }
  assert (G0 : s = None -> state (eval_recipes l) < 0 -> cmd (eval_recipes l) <> 1 /\ (state (eval_recipes l) = -30 -> cmd (eval_recipes l) <> 3)).
  { intros N. rewrite r4, r5. exact (G N). }
  assert (S0 : sound (eval_recipes l)) by (apply rec_sound, SD).
  assert (C0 : forall r, s = Some r -> conflict (eval_recipes l) = false). { intros r E. rewrite r6. exact (CF r E). }
  assert (R0 : forall r, s = Some r -> recipe (eval_recipes l) = r).
  { intros r E. destruct (RC r E) as [Q1 Q2]. destruct (r7 Q1) as [Q3 _]. rewrite Q3. exact Q2. }
  rewrite <- r3 in U. revert W0 G0 S0 C0 R0 U. generalize (eval_recipes l). clear. intros l W G SD CF RC U.
  destruct (negb (cmd l =? 0)).
  - cbn [fst snd]. intros E. destruct s as [r|].
    + exfalso. revert E. unfold eval_command.
      destruct (cmd l =? NEXT); [destruct (_ && _); cbn [fst snd]; rewrite ?serve_init; discriminate|].
      destruct (cmd l =? PAUSE); [destruct (_ && _); cbn [fst snd]; discriminate|].
      destruct (cmd l =? RESET); [destruct (negb (state l =? 0)); cbn [fst snd]; rewrite ?fold_left_app, ?serve_init; discriminate|].
      destruct (cmd l =? EVALUATE); [|discriminate].
      destruct (state l <? 0); [destruct (conflict l); [discriminate|]; destruct (negb (i_ready i)); [discriminate|]; destruct (state l =? -32); [discriminate|]; cbn [fst snd]; rewrite serve_init; discriminate|].
      destruct ((state l =? 0) && _ && _); [|discriminate].
      destruct (i_conf i); [discriminate|]. destruct (negb (i_ready i)); [discriminate|]. destruct (i_acid i && _ && _); [discriminate|].
      cbn [fst snd fold_left serve1]. rewrite serve_init. discriminate.
    + pose proof (refused_command o i l (W eq_refl) U (proj1 (proj2 SD)) (G eq_refl) E) as Q. exact Q.
  - destruct (Z.ltb_spec 0 (state l)) as [P|P].
    + unfold in_progress. destruct (Z.eqb_spec (step l) 555) as [E|E].
      * destruct (_ && _); cbn [fst snd].
        -- intros _. split; [cbn; lia|]. split; [cbn; auto|cbn; lia].
        -- intros N. exact (W N).
      * destruct s as [r|].
        -- destruct (0 <? i_do i); [destruct (negb _); cbn [fst snd fold_left serve1]; rewrite ?serve_init; discriminate|].
           destruct (i_do i <? 0); discriminate.
        -- exfalso. apply E. apply (W eq_refl). exact P.
    + destruct (Z.ltb_spec (state l) 0) as [N|N]; [|intros Q; exact (W Q)].
      unfold in_error. destruct (i_resume i && _) eqn:RS; [|intros Q; exact (W Q)].
      cbn [fst snd]. rewrite serve_init. intros Q. destruct (W Q) as (A & B & C).
      apply andb_prop in RS. destruct RS as [_ RS]. apply orb_prop in RS. rewrite !Z.eqb_eq in RS.
      destruct B as [B|B]; [exfalso; destruct (C N B) as [D|D]; [congruence|lia]|].
      split; [cbn; auto|]. split; [cbn; auto|cbn; lia].
Qed.
Lemma refused_step : forall o l tr e, sound l -> served l (service tr) -> (service tr = None -> refused l) ->
  heeds_refusal l tr e -> service (tr ++ snd (step_ev o l e)) = None -> refused (fst (step_ev o l e)).
Proof.
  intros o l tr e SD H W K. unfold service. rewrite !fold_left_app. fold (service tr).
  destruct e as [n|n|n|n|i]; cbn [step_ev fst snd fold_left]; try exact W.
  intros E. apply (refused_cycle o i l (service tr)); auto.
Qed.
Lemma refused_run : forall o es l tr, sound l -> served l (service tr) -> (service tr = None -> refused l) ->
  always keeps_recipe o l tr es -> always heeds_refusal o l tr es ->
  let x := run o l es in
  served (fst x) (service (tr ++ snd x)) /\ (service (tr ++ snd x) = None -> refused (fst x)).
Proof.
  intros o es. induction es as [|e r IH]; intros l tr SD H W A B; [cbn; rewrite app_nil_r; auto|].
  cbn [always] in A, B. destruct A as [A1 A2], B as [B1 B2]. cbn [run fst snd]. rewrite app_assoc.
  destruct (serve_step o l tr e SD H A1) as [Q _].
  apply IH; [apply step_sound, SD|exact Q| |exact A2|exact B2].
  apply refused_step; auto.
Qed.
Lemma washes_served : forall o es, always keeps_recipe o new_line [] es -> always heeds_refusal o new_line [] es ->
  let x := run o new_line es in
  0 < state (fst x) -> step (fst x) <> 555 -> service (snd x) = Some (recipe (fst x)).
Proof.
  intros o es A B x P N. destruct (refused_run o es new_line [] new_sound) as [S R]; auto.
  { intros r E; discriminate E. }
  { intros _. split; [cbn; lia|]. split; [cbn; auto|cbn; lia]. }
  cbn [app] in S, R. fold x in S, R. destruct (service (snd x)) as [r|] eqn:E.
  - destruct (S r eq_refl) as (_ & Q & _). congruence.
  - destruct (R eq_refl) as (Q & _). contradiction (N (Q P)).
Qed.

(** * Several lines *)

Lemma put_same : forall A (xs : list A) k x y, nth_error xs k = Some y -> nth_error (put k x xs) k = Some x.
Proof. intros A xs. induction xs as [|z r IH]; intros [|k] x y H; cbn in *; try discriminate; auto. apply (IH k x y H). Qed.
Lemma put_other : forall A (xs : list A) k j x, j <> k -> nth_error (put k x xs) j = nth_error xs j.
Proof.
  intros A xs. induction xs as [|z r IH]; intros [|k] [|j] x H; cbn; auto; try congruence.
Qed.
Lemma of_line_app : forall k a b, of_line k (a ++ b) = of_line k a ++ of_line k b.
Proof. intros. unfold of_line. rewrite filter_app, map_app. reflexivity. Qed.
Lemma of_line_same : forall k a, of_line k (map (pair k) a) = a.
Proof. intros k a. unfold of_line. induction a as [|x r IH]; [reflexivity|]. cbn. rewrite Nat.eqb_refl. cbn. rewrite IH. reflexivity. Qed.
Lemma of_line_other : forall k j a, j <> k -> of_line j (map (pair k) a) = [].
Proof.
  intros k j a H. unfold of_line. induction a as [|x r IH]; [reflexivity|]. cbn.
  replace (Nat.eqb k j) with false by (symmetry; apply Nat.eqb_neq; congruence). exact IH.
Qed.
Lemma meets_in : forall xs ys v, In v xs -> In v ys -> v <> 0 -> v < 1000 -> meets xs ys = true.
Proof.
  intros xs ys v A B N L. unfold meets. apply existsb_exists. exists v. split; [exact A|].
  replace (v =? 0) with false by (symmetry; apply Z.eqb_neq; exact N).
  replace (v <? 1000) with true by (symmetry; apply Z.ltb_lt; exact L). cbn. apply one_of_in, B.
Qed.
Lemma no_conflict : forall b ls k l j m, valves_conflict b ls k l = false -> nth_error ls j = Some m -> j <> k ->
  state m <> 0 -> 0 <= recipe m ->
  ~ disagree (opens b k (recipe l)) (closes b k (recipe l)) (opens b j (recipe m)) (closes b j (recipe m)).
Proof.
  intros b ls k l j m C NJ JK S R (v & V0 & V1 & D).
  assert (T : valves_conflict b ls k l = true); [|congruence]. unfold valves_conflict. apply existsb_exists. exists j.
  split. { apply in_seq. split; [lia|]. cbn. apply nth_error_Some. congruence. }
  rewrite NJ. replace (Nat.eqb j k) with false by (symmetry; apply Nat.eqb_neq; exact JK).
  replace (state m =? 0) with false by (symmetry; apply Z.eqb_neq; exact S).
  replace (0 <=? recipe m) with true by (symmetry; apply Z.leb_le; exact R). cbn [negb andb].
  destruct D as [(D1 & D2)|(D1 & D2)].
  - rewrite (meets_in _ _ v D1); auto. apply in_or_app. exact D2.
  - rewrite (meets_in (closes b k (recipe l)) _ v D1 D2); auto. apply orb_true_r.
Qed.
Lemma disagree_sym : forall a b c d, disagree a b c d -> disagree c d a b.
Proof. intros a b c d (v & V0 & V1 & D). exists v. repeat split; auto. tauto. Qed.

Definition peace (b : book) (ls : list line) (tr : list (nat * act)) : Prop :=
  (forall k l, nth_error ls k = Some l -> sound l /\ served l (service (of_line k tr)))
  /\ (forall j k rj rk, j <> k -> service (of_line j tr) = Some rj -> service (of_line k tr) = Some rk -> 0 <= rj -> 0 <= rk ->
        ~ disagree (opens b j rj) (closes b j rj) (opens b k rk) (closes b k rk))
  /\ (forall k, nth_error ls k = None -> of_line k tr = []).
Lemma peace_step : forall os b ls tr e, peace b ls tr ->
  (forall l, nth_error ls (fst e) = Some l -> keeps_recipe l (of_line (fst e) tr) (snd e)) ->
  peace b (fst (station_ev os b ls e)) (tr ++ snd (station_ev os b ls e)).
Proof.
  intros os b ls tr [k e] (A & B & C) K. unfold station_ev. cbn [fst snd] in *.
  destruct (nth_error ls k) as [l|] eqn:NK; [|cbn; rewrite app_nil_r; exact (conj A (conj B C))].
  destruct (A k l NK) as [SD SV]. specialize (K l eq_refl).
  match goal with |- context [step_ev (os k) l ?x] => set (e' := x) end.
  assert (K' : keeps_recipe l (of_line k tr) e') by (destruct e; exact K).
  destruct (serve_step (os k) l (of_line k tr) e' SD SV K') as [S1 S2]. cbn [fst snd].
  assert (T : forall j, of_line j (tr ++ map (pair k) (snd (step_ev (os k) l e'))) =
                        if Nat.eqb j k then of_line k tr ++ snd (step_ev (os k) l e') else of_line j tr).
  { intros j. rewrite of_line_app. destruct (Nat.eqb_spec j k) as [->|N]; [rewrite of_line_same; reflexivity|].
    rewrite of_line_other by exact N. apply app_nil_r. }
  assert (N2 : forall j r, j <> k -> service (of_line j tr) = Some r -> exists m, nth_error ls j = Some m /\ state m <> 0 /\ recipe m = r).
  { intros j r J Q. destruct (nth_error ls j) as [m|] eqn:M; [|rewrite (C j M) in Q; discriminate Q].
    exists m. destruct (A j m M) as [_ Q2]. destruct (Q2 r Q) as (Q3 & Q4 & _). auto. }
  assert (NEW : forall j rj rk, j <> k -> service (of_line j tr) = Some rj ->
     service (of_line k tr ++ snd (step_ev (os k) l e')) = Some rk -> 0 <= rj -> 0 <= rk ->
     ~ disagree (opens b k rk) (closes b k rk) (opens b j rj) (closes b j rj)).
  { intros j rj rk J QJ QK PJ PK. destruct (S2 rk QK) as [OLD|(i & EI & CI & ->)].
    - apply (B k j rk rj); auto.
    - destruct e as [| | | |i0]; try discriminate EI. inversion EI as [EI']. rewrite <- EI' in CI. cbn in CI.
      destruct (N2 j rj J QJ) as (m & M & SM & <-). apply (no_conflict b ls k (eval_recipes l) j m); auto. }
  split; [|split].
  - intros j m M. rewrite T. destruct (Nat.eqb_spec j k) as [->|N].
    + rewrite (put_same _ ls k _ l NK) in M. inversion M; subst m. split; [apply step_sound, SD|exact S1].
    + rewrite put_other in M by exact N. apply A, M.
  - intros j j' rj rj' N. rewrite !T. destruct (Nat.eqb_spec j k) as [->|NJ]; destruct (Nat.eqb_spec j' k) as [->|NJ']; [congruence| | |].
    + intros Q1 Q2 P1 P2. apply (NEW j' rj' rj); auto.
    + intros Q1 Q2 P1 P2 D. apply disagree_sym in D. revert D. apply (NEW j rj rj'); auto.
    + intros Q1 Q2 P1 P2. apply (B j j' rj rj'); auto.
  - intros j M. rewrite T. destruct (Nat.eqb_spec j k) as [->|N].
    + rewrite (put_same _ ls k _ l NK) in M. discriminate M.
    + rewrite put_other in M by exact N. apply C, M.
Qed.
Lemma peace_run : forall os b es ls tr, peace b ls tr -> always_all keeps_recipe os b ls tr es ->
  peace b (fst (station os b ls es)) (tr ++ snd (station os b ls es)).
Proof.
  intros os b es. induction es as [|e r IH]; intros ls tr P A; [cbn; rewrite app_nil_r; exact P|].
  cbn [always_all] in A. destruct A as [A1 A2]. cbn [station fst snd]. rewrite app_assoc. apply IH; [|exact A2].
  apply peace_step; auto.
Qed.
Lemma peace_new : forall b n, peace b (repeat new_line n) [].
Proof.
  intros b n. split; [|split].
  - intros k l H. apply nth_error_In, repeat_spec in H. subst l. split; [exact new_sound|]. intros r E; discriminate E.
  - intros j k rj rk _ E. discriminate E.
  - reflexivity.
Qed.
