(** Lemmas about the agreement of lamps and outputs, commands and channels. *)
From Coq Require Import ZArith List Bool Lia.
From Verif Require Import Base TimeModel HlaModel HlaSpec HlaProofs HlaProofs2.
Import ListNotations.
Open Scope Z_scope.

Section P.
Context (w : Z) (wr : wiring).
(** The lamps that do not blink agree with their outputs. *)
Definition agree (c : col) : Prop :=
  (forall l, drives wr (ch wr l) ->
     (sp (li c l) = On -> out c (ch wr l) = true) /\ (sp (li c l) = Off -> out c (ch wr l) = false)) /\
  (drives wr (sch wr) -> out c (sch wr) = siren c).
Lemma siren_apart l : separate wr -> drives wr (sch wr) -> hits wr (ch wr l) (sch wr) = false.
Proof.
  intros (_ & S2) D. destruct (hits wr (ch wr l) (sch wr)) eqn:H; [|reflexivity]. apply hits_eq in H. destruct H as (_ & H).
  exfalso. exact (S2 l D (eq_sym H)).
Qed.
Lemma agree_turn l b c : separate wr -> agree c -> agree (turn wr l b c).
Proof.
  intros S (A & B). split.
  - intros l' D. rewrite turn_sp, turn_out. destruct (lamp_eqb l' l) eqn:E.
    + apply lamp_eqb_eq in E. subst l'. rewrite (hits_self _ _ D). destruct b; split; congruence.
    + rewrite (hits_other _ l' l S D). { apply A, D. } intros ->. rewrite lamp_eqb_refl in E. discriminate.
  - intros D. rewrite turn_out, turn_siren_, (siren_apart l S D). exact (B D).
Qed.
Lemma agree_ts b c : separate wr -> agree c -> agree (turn_siren wr b c).
Proof.
  intros S (A & B). split.
  - intros l' D. rewrite ts_li, ts_out, (hits_siren _ l' S). apply A, D.
  - intros D. rewrite ts_out, ts_siren, (hits_self _ _ D). reflexivity.
Qed.
Lemma agree_blink t l d c : separate wr -> agree c -> agree (blink w wr t l d c).
Proof.
  intros S (A & B). split.
  - intros l' D. rewrite blink_li, blink_out. destruct (lamp_eqb l' l) eqn:E.
    + apply lamp_eqb_eq in E. subst l'. pose proof (blink1_look w t d (li c l) (out c (ch wr l))) as L.
      destruct (sp (fst _)); try discriminate L; split; discriminate.
    + rewrite (hits_other _ l' l S D). { apply A, D. } intros ->. rewrite lamp_eqb_refl in E. discriminate.
  - intros D. rewrite blink_out, blink_siren, (siren_apart l S D). exact (B D).
Qed.
Lemma agree_db t l d c : separate wr -> agree c -> agree (do_blink w wr t l d c).
Proof.
  intros S A. rewrite db_eq. destruct (match l with Red => _ | _ => _ end); [apply agree_turn|apply agree_blink]; assumption.
Qed.
Lemma agree_set t n c : separate wr -> agree c -> agree (direct_set_state w wr t n c).
Proof.
  intros S A. unfold direct_set_state, direct_off, direct_on, lights_off.
  repeat match goal with |- agree (match ?x with _ => _ end) => destruct x end;
    repeat (apply agree_turn || apply agree_ts || apply agree_db); assumption.
Qed.
Lemma agree_step c x : separate wr -> agree c -> agree (step w wr c x).
Proof.
  intros S A. destruct x as (t, x). destruct x as [|e|n|n|n|v]; cbn [step snd fst].
  - exact A.
  - unfold show. destruct (man c); [exact A|]. destruct (keeps _ _); [exact A|]. cbv zeta.
    assert (A' : agree (set_shown e c)) by exact A.
    destruct e; repeat (apply agree_turn || apply agree_ts || apply agree_db); assumption.
  - apply agree_set; assumption.
  - destruct (man c); [exact A|apply agree_set; assumption].
  - destruct (_ || _); exact A.
  - exact A.
Qed.
Lemma agree_run h : separate wr -> agree (run w wr h new_col).
Proof.
  intros S. assert (G : forall l c, agree c -> agree (run w wr l c)).
  { induction l as [|x l IH]; intros c A; [exact A|]. apply IH, agree_step; assumption. }
  apply G. split; [intros l D; split; [discriminate|reflexivity]|reflexivity].
Qed.

(** Commands. *)
Lemma apart_false l l' : separate wr -> drives wr (ch wr l) -> lamp_eqb l l' = false -> hits wr (ch wr l') (ch wr l) = false.
Proof. intros S D E. apply hits_other; try assumption. intros ->. rewrite lamp_eqb_refl in E. discriminate. Qed.
Ltac tidy S D :=
  repeat (first [ rewrite turn_sp; cbn [lamp_eqb] | rewrite ts_li | rewrite ts_siren | rewrite turn_siren_
                | rewrite turn_out | rewrite ts_out ]);
  rewrite ?(hits_siren wr _ S), ?(hits_self wr _ D).
Lemma command_wishes t n c x : separate wr -> In x (wishes n) -> fulfilled wr (direct_set_state w wr t n c) x.
Proof.
  intros S H. unfold wishes in H.
  assert (R : 0 <= n <= 20 \/ n < 0 \/ 20 < n) by lia.
  assert (X : forall m, (m <= 20)%nat -> n = Z.of_nat m ->
    In x (nth m [ [Dark_ Red; Dark_ Yellow; Dark_ Green; Dark_ Blue] ++ [Siren_ false]; [Dark_ Red; Dark_ Yellow; Lit_ Green; Dark_ Blue; Siren_ false]; [Dark_ Red; Dark_ Yellow; Dark_ Green; Dark_ Blue];
      [Lit_ Green]; [Lit_ Yellow]; [Lit_ Red]; [Lit_ Blue];
      [Dark_ Green]; [Dark_ Yellow]; [Dark_ Red]; [Dark_ Blue];
      []; []; []; []; []; []; []; []; [Siren_ true]; [Siren_ false] ] []) -> fulfilled wr (direct_set_state w wr t n c) x).
  { intros m M -> K. clear H R.
    do 21 (destruct m as [|m]; [cbn in K;
      repeat (destruct K as [<-|K]); try (destruct K; fail);
      cbn [Z.of_nat Pos.of_succ_nat Pos.succ direct_set_state fulfilled]; unfold direct_off, direct_on, lights_off;
      (split; [tidy S S; reflexivity|intros D; tidy S D;
         repeat (rewrite (apart_false _ _ S D) by reflexivity); rewrite ?(siren_apart _ S D); reflexivity])|]).
    lia. }
  destruct R as [R|[R|R]].
  - replace (n <? 0) with false in H by lia. apply (X (Z.to_nat n)); [lia|lia|exact H].
  - replace (n <? 0) with true in H by lia. destruct H.
  - replace (n <? 0) with false in H by lia. rewrite nth_overflow in H; [destruct H|]. cbn [length app]. lia.
Qed.
Lemma numbers (P : Z -> Prop) : (forall m, (m <= 20)%nat -> P (Z.of_nat m)) -> forall n, 0 <= n <= 20 -> P n.
Proof. intros H n R. replace n with (Z.of_nat (Z.to_nat n)) by lia. apply H. lia. Qed.
Lemma set_outside t n c : ~ 0 <= n <= 20 -> direct_set_state w wr t n c = c.
Proof.
  intros H. unfold direct_set_state.
  repeat match goal with |- match ?x with _ => _ end = _ => destruct x; try reflexivity; try (exfalso; lia) end.
Qed.
Lemma command_frame t n c l : ~ touches n l -> n <> blink_code l false -> n <> blink_code l true ->
  li (direct_set_state w wr t n c) l = li c l /\
  (separate wr -> drives wr (ch wr l) -> out (direct_set_state w wr t n c) (ch wr l) = out c (ch wr l)).
Proof.
  intros T B1 B2. destruct (Z_le_gt_dec 0 n) as [N0|N0]; [|rewrite set_outside by lia; split; reflexivity].
  destruct (Z_le_gt_dec n 20) as [N1|N1]; [|rewrite set_outside by lia; split; reflexivity].
  assert (N : 0 <= n <= 20) by lia. clear N0 N1. revert n N T B1 B2. refine (numbers _ _). intros m M.
  do 21 (destruct m as [|m]; [intros T B1 B2;
    cbn [Z.of_nat Pos.of_succ_nat Pos.succ] in *; unfold touches in T; vm_compute in T;
    destruct l; cbn in B1, B2; try (exfalso; lia); try (exfalso; apply T; tauto);
    cbn [direct_set_state]; unfold direct_off, direct_on, lights_off;
    (split; [rewrite ?ts_li; rewrite ?turn_li by reflexivity; rewrite ?db_other by reflexivity; reflexivity
            |intros S D; rewrite ?ts_out, ?(hits_siren wr _ S); rewrite ?turn_out;
             repeat (rewrite (apart_false _ _ S D) by reflexivity); rewrite ?db_out by (apply (apart_false _ _ S D); reflexivity); reflexivity])|]).
  lia.
Qed.
End P.

(** Channels. *)
Lemma find_spec x t k : find x t k = match find x t 1 with Some n => Some (n + (k - 1)) | None => None end.
Proof.
  revert k. induction t as [|y t IH]; intros k; cbn [find]; [reflexivity|]. destruct (y =? x); [f_equal; lia|].
  rewrite (IH (k + 1)), (IH (1 + 1)). destruct (find x t 1); [f_equal; lia|reflexivity].
Qed.
Lemma find_some x t n : find x t 1 = Some n <-> first_at t x n.
Proof.
  revert n. induction t as [|y t IH]; intros n.
  - split; [discriminate|]. intros (a & b & E & _). destruct a; discriminate.
  - cbn [find]. destruct (y =? x) eqn:E.
    + apply Z.eqb_eq in E. subst y. split.
      * intros [= <-]. exists [], t. repeat split; intros [].
      * intros (a & b & E & N & ->). destruct a as [|z a]; [reflexivity|]. cbn in E. injection E as <- E. exfalso. apply N. left. reflexivity.
    + rewrite find_spec. split.
      * destruct (find x t 1) as [m|]; [|discriminate]. intros [= <-]. destruct (IH m) as (F & _). specialize (F eq_refl). destruct F as (a & b & -> & N & ->).
        exists (y :: a), b. cbn [length app]. repeat split; [|lia]. intros [->|K]; [rewrite Z.eqb_refl in E; discriminate|exact (N K)].
      * intros (a & b & E' & N & ->). destruct a as [|z a]; cbn in E'; [injection E' as -> _; rewrite Z.eqb_refl in E; discriminate|].
        injection E' as <- E'. destruct (IH (Z.of_nat (length a) + 1)) as (_ & F). rewrite F; [f_equal; cbn [length]; lia|].
        exists a, b. repeat split; [exact E'|]. intros K. apply N. right. exact K.
Qed.
Lemma find_none x t : find x t 1 = None <-> ~ In x t.
Proof.
  split.
  - intros F K. apply in_split in K. destruct K as (a & b & ->).
    revert F. induction a as [|y a IH]; cbn [find app]; [rewrite Z.eqb_refl; discriminate|].
    destruct (y =? x); [discriminate|]. rewrite find_spec. destruct (find x (a ++ x :: b) 1); [discriminate|]. auto.
  - intros N. destruct (find x t 1) as [n|] eqn:F; [|reflexivity]. apply find_some in F. destruct F as (a & b & -> & _).
    exfalso. apply N, in_or_app. right. left. reflexivity.
Qed.
Lemma first_at_inj t x y n : first_at t x n -> first_at t y n -> x = y.
Proof.
  intros (a & b & E & _ & L) (a' & b' & E' & _ & L').
  assert (length a = length a') by lia. rewrite E' in E.
  clear L L'. revert a' H t E' E. induction a as [|u a IH]; intros [|u' a'] H t E' E; try discriminate H; cbn in *.
  - injection E as -> _. reflexivity.
  - injection E as -> E. apply (IH a' ltac:(lia) (a ++ x :: b)); congruence.
Qed.
Lemma first_at_pos t x n : first_at t x n -> 1 <= n.
Proof. intros (a & b & _ & _ & ->). lia. Qed.
Lemma place_new t x n : 1 <= n -> place x t 0 = n -> first_at t x n.
Proof. unfold place. destruct (find x t 1) as [m|] eqn:F; intros P H; [subst m; apply find_some, F|lia]. Qed.
Lemma sequence_separate t : separate (sequence t wiol).
Proof.
  split.
  - intros l l' (D & _) E. cbn [ch sequence wiol] in *. pose proof (place_new _ _ _ D eq_refl) as A. rewrite E in A at 1.
    assert (B : first_at t (letter l') (place (letter l') t 0)).
    { apply place_new; [rewrite <- E; exact D|reflexivity]. }
    assert (X : first_at t (letter l) (place (letter l') t 0)) by (apply place_new; [rewrite <- E; exact D|exact E]).
    pose proof (first_at_inj _ _ _ _ X B) as K. destruct l, l'; try reflexivity; discriminate K.
  - intros l (D & _) E. cbn [ch sch sequence wiol] in *.
    assert (A : first_at t 65 (place 65 t 0)) by (apply place_new; [exact D|reflexivity]).
    assert (B : first_at t (letter l) (place 65 t 0)) by (apply place_new; [exact D|exact E]).
    pose proof (first_at_inj _ _ _ _ A B) as K. destruct l; discriminate K.
Qed.
Lemma discrete_separate n : separate (wdisc n).
Proof.
  split.
  - intros l l' (D & _) E. destruct l, l'; cbn in *; try reflexivity; lia.
  - intros l _ E. destruct l; cbn in E; lia.
Qed.
