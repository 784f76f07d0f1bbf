(** Proofs about the washing sequencer: the order of the steps. *)
From Coq Require Import ZArith List Bool Lia.
From Verif Require Import CipModel CipSpec.
Import ListNotations.
Open Scope Z_scope.

Lemma prog_set : forall x l, prog (set_state x l) = prog l. Proof. reflexivity. Qed.

(** * Stages *)

Fixpoint down (o : opts) (p : Z) (nr : bool) (n : nat) : list Z :=
  match n with
  | O => []
  | S i => if Z.testbit p (Z.of_nat i) then block o p nr (Z.of_nat i) ++ down o p nr i else down o p nr i
  end.
Lemma down_flat : forall o p nr n,
  flat_map (block o p nr) (filter (Z.testbit p) (rev (map Z.of_nat (seq 0 n)))) = down o p nr n.
Proof.
  intros o p nr n. induction n as [|i IH]; [reflexivity|].
  rewrite seq_S, map_app, rev_app_distr. cbn [map rev app filter down Nat.add].
  destruct (Z.testbit p (Z.of_nat i)); cbn [flat_map]; rewrite IH; reflexivity.
Qed.
Lemma plan_down : forall o p nr, plan o p nr = if existsb (Z.testbit p) [15; 14; 13; 12] then [] else down o p nr 12.
Proof.
  intros. unfold plan. destruct (existsb _ _); [reflexivity|].
  rewrite <- down_flat. reflexivity.
Qed.
Lemma scan_cases : forall o p nr n,
  (scan n p = -1 /\ down o p nr n = [])
  \/ exists i, (i < n)%nat /\ scan n p = Z.of_nat i /\ Z.testbit p (Z.of_nat i) = true
               /\ down o p nr n = block o p nr (Z.of_nat i) ++ down o p nr i.
Proof.
  intros o p nr n. induction n as [|i IH]; [left; split; reflexivity|].
  cbn [scan down]. destruct (Z.testbit p (Z.of_nat i)) eqn:B.
  - right. exists i. repeat split; auto.
  - destruct IH as [H|(j & J & H)]; [left; exact H|right; exists j; split; [lia|exact H]].
Qed.
Lemma scan16 : forall p,
  if existsb (Z.testbit p) [15; 14; 13; 12] then 12 <= scan 16 p < 16 else scan 16 p = scan 12 p.
Proof.
  intros p. cbn [existsb]. change (scan 16 p) with
    (if Z.testbit p 15 then 15 else if Z.testbit p 14 then 14 else if Z.testbit p 13 then 13 else if Z.testbit p 12 then 12 else scan 12 p).
  destruct (Z.testbit p 15), (Z.testbit p 14), (Z.testbit p 13), (Z.testbit p 12); cbn [orb]; lia.
Qed.

Lemma ks_mask : forall p, negb (Z.land p 56 =? 0) = Z.testbit p 3 || Z.testbit p 4 || Z.testbit p 5.
Proof.
  intros p. destruct (Z.land p 56 =? 0) eqn:E; cbn [negb].
  - apply Z.eqb_eq in E. assert (T : forall k, Z.testbit (Z.land p 56) k = false) by (intros; rewrite E; apply Z.bits_0).
    pose proof (T 3) as A. pose proof (T 4) as B. pose proof (T 5) as C. rewrite Z.land_spec in A, B, C.
    change (Z.testbit 56 3) with true in A. change (Z.testbit 56 4) with true in B. change (Z.testbit 56 5) with true in C.
    rewrite andb_true_r in A, B, C. rewrite A, B, C. reflexivity.
  - apply Z.eqb_neq in E. symmetry. destruct (Z.testbit p 3) eqn:A; [reflexivity|].
    destruct (Z.testbit p 4) eqn:B; [reflexivity|]. destruct (Z.testbit p 5) eqn:C; [reflexivity|]. exfalso. apply E.
    apply Z.bits_inj_0. intros k. rewrite Z.land_spec.
    destruct (Z.ltb_spec k 0) as [K|K]; [rewrite Z.testbit_neg_r by lia; reflexivity|].
    destruct (Z.ltb_spec k 6) as [K6|K6].
    + assert (k = 0 \/ k = 1 \/ k = 2 \/ k = 3 \/ k = 4 \/ k = 5) as Q by lia.
      destruct Q as [->|[->|[->|[->|[->| ->]]]]]; rewrite ?A, ?B, ?C; try reflexivity; apply andb_false_r.
    + rewrite (Z.bits_above_log2 56 k) by (try lia; change (Z.log2 56) with 5; lia). apply andb_false_r.
Qed.

Fixpoint after (x : Z) (L : list Z) : list Z :=
  match L with [] => [] | y :: t => if x =? y then t else after x t end.

Lemma twelve : forall b, 0 <= b < 12 -> b = 0 \/ b = 1 \/ b = 2 \/ b = 3 \/ b = 4 \/ b = 5 \/ b = 6 \/ b = 7 \/ b = 8 \/ b = 9 \/ b = 10 \/ b = 11.
Proof. intros. lia. Qed.

Lemma first_block : forall l b o, 0 <= b < 12 ->
  block o (prog l) (norinse l) b = first_step l b :: after (first_step l b) (block o (prog l) (norinse l) b)
  /\ first_step l b <> 0 /\ first_step l b <> 555 /\ first_step l b <> 109 /\ first_step l b <> 119.
Proof.
  intros l b o H. apply twelve in H.
  destruct H as [->|[->|[->|[->|[->|[->|[->|[->|[->|[->|[->| ->]]]]]]]]]]]; cbn;
    try (destruct (norinse l)); try (destruct (prog l =? 1)); cbn; repeat split; try reflexivity; lia.
Qed.
Lemma first_high : forall l b, b = -1 \/ 12 <= b -> first_step l b = 555.
Proof.
  intros l b H. unfold first_step.
  repeat match goal with |- context [b =? ?k] => replace (b =? k) with false by (symmetry; apply Z.eqb_neq; lia) end. reflexivity.
Qed.

Lemma succ_block : forall o p nr b cur param, 0 <= b < 12 -> In cur (block o p nr b) ->
  match succ_step o p cur param with
  | None => after cur (block o p nr b) = []
  | Some n => (cur = 108 /\ n = 109 /\ param <> 1) \/ (cur = 118 /\ n = 119 /\ param <> 1)
              \/ (after cur (block o p nr b) = n :: after n (block o p nr b) /\ In n (block o p nr b)
                  /\ n <> 0 /\ n <> 555 /\ n <> 109 /\ n <> 119)
  end.
Proof.
  intros o p nr b cur param H I. apply twelve in H.
  assert (K := ks_mask p). destruct o as [cs ck vs vk vw].
  destruct H as [->|[->|[->|[->|[->|[->|[->|[->|[->|[->|[->| ->]]]]]]]]]]]; cbn [block circ_s circ_k vol_s vol_k vol_w] in *;
    repeat match goal with
    | I : context [if ?x then _ else _] |- _ => let E := fresh "E" in destruct x eqn:E; cbn [app] in *
    end;
    cbn [app] in I; cbn [In] in I; repeat (destruct I as [<-|I]); try contradiction;
    cbn -[Z.land Z.testbit]; rewrite ?K, ?E; cbn -[Z.land Z.testbit];
    repeat match goal with |- context [if ?x =? 1 then _ else _] => destruct (Z.eqb_spec x 1) end;
    try reflexivity; try (right; right; split; [reflexivity|split; [repeat (try (left; reflexivity); right)|lia]]); try (left; repeat split; auto; lia); try (right; left; repeat split; auto; lia).
Qed.

(** * The place of a line in its program *)

Definition same_place (cur st : Z) (skip : bool) : Prop :=
  (cur = st /\ skip = false) \/ (cur = 108 /\ (st = 109 \/ st = 106) /\ skip = true)
  \/ (cur = 118 /\ (st = 119 \/ st = 116) /\ skip = true).
Definition inside (o : opts) (p : Z) (nr : bool) (l : line) (k : bool * list Z) : Prop :=
  exists b cur, (b < 12)%nat /\ stage l = Z.of_nat b /\ In cur (block o p nr (Z.of_nat b))
    /\ snd k ++ after cur (block o p nr (Z.of_nat b)) ++ down o p nr b ++ [555] = plan o p nr ++ [555]
    /\ same_place cur (step l) (fst k).
Definition begun (o : opts) (p : Z) (nr : bool) (l : line) (k : bool * list Z) : Prop :=
  (step l = 0 /\ stage l = -1 /\ k = (false, []))
  \/ (step l = 555 /\ k = (false, plan o p nr ++ [555])) \/ inside o p nr l k.
Definition loc (o : opts) (p : Z) (nr : bool) (l : line) (k : bool * list Z) : Prop :=
  (prog l = p /\ norinse l = nr /\ begun o p nr l k /\ (state l = 0 -> step l = 0))
  \/ (step l = 0 /\ prog l = 0 /\ (locked l = true \/ state l = 0) /\ k = (false, plan o p nr ++ [555])).

Lemma visit_plain : forall kept n, n <> 109 -> n <> 119 -> visit (false, kept) n = (false, kept ++ [n]).
Proof.
  intros. unfold visit. replace (n =? 109) with false by (symmetry; apply Z.eqb_neq; lia).
  replace (n =? 119) with false by (symmetry; apply Z.eqb_neq; lia). reflexivity.
Qed.

Lemma load_begun : forall o p nr l kept, prog l = p -> norinse l = nr ->
  (stage l = -1 /\ kept = []) \/ (exists b, (b < 12)%nat /\ stage l = Z.of_nat b /\ kept ++ down o p nr b ++ [555] = plan o p nr ++ [555]) ->
  begun o p nr (load_program l) (visit (false, kept) (step (load_program l))) /\ step (load_program l) <> 0.
Proof.
  intros o p nr l kept P N H. unfold load_program. cbn [step set_step].
  assert (G : (next_prg (stage l) (prog l) = -1 \/ 12 <= next_prg (stage l) (prog l)) /\ kept = plan o p nr
              \/ exists i, (i < 12)%nat /\ next_prg (stage l) (prog l) = Z.of_nat i
                   /\ kept ++ block o p nr (Z.of_nat i) ++ down o p nr i ++ [555] = plan o p nr ++ [555]).
  { rewrite P. destruct H as [[-> ->]|(b & B & -> & E)].
    - change (next_prg (-1) p) with (scan 16 p).
      pose proof (scan16 p) as S. rewrite plan_down. destruct (existsb (Z.testbit p) [15; 14; 13; 12]).
      + left. split; [right; lia|reflexivity].
      + rewrite S. destruct (scan_cases o p nr 12) as [[A D]|(i & I & A & _ & D)].
        * left. rewrite D. split; [left; exact A|reflexivity].
        * right. exists i. rewrite D, <- app_assoc. repeat split; assumption.
    - unfold next_prg. replace (Z.of_nat b <? 0) with false by (symmetry; apply Z.ltb_ge; lia).
      destruct b as [|b].
      + cbn. left. split; [left; reflexivity|]. cbn in E. apply app_inj_tail in E. apply E.
      + replace ((0 <=? Z.of_nat (S b) - 1) && (Z.of_nat (S b) - 1 <? 16)) with true.
        2: { symmetry. apply andb_true_intro. split; [apply Z.leb_le|apply Z.ltb_lt]; lia. }
        replace (Z.to_nat (Z.of_nat (S b) - 1 + 1)) with (S b) by lia.
        destruct (scan_cases o p nr (S b)) as [[A D]|(i & I & A & _ & D)].
        * left. rewrite D in E. cbn in E. apply app_inj_tail in E. split; [left; exact A|apply E].
        * right. exists i. rewrite D in E. rewrite <- !app_assoc in E. repeat split; [lia|exact A|exact E]. }
  destruct G as [[G ->]|(i & I & G & E)].
  - rewrite (first_high l _ G). split; [|lia]. right; left. split; [reflexivity|]. apply visit_plain; lia.
  - destruct (first_block l (Z.of_nat i) o) as (F & F0 & F5 & F1 & F2); [lia|]. rewrite G.
    split; [|exact F0]. right; right. exists i, (first_step l (Z.of_nat i)).
    rewrite visit_plain by assumption. cbn [fst snd]. rewrite P, N in F. repeat split.
    + lia.
    + rewrite F. left; reflexivity.
    + rewrite F in E. cbn [app] in E. rewrite <- app_assoc. cbn [app]. exact E.
    + left. split; reflexivity.
Qed.

Lemma goto_begun : forall o p nr l k a, prog l = p -> norinse l = nr -> begun o p nr l k -> step l <> 555 ->
  begun o p nr (goto_step o a l) (visit k (step (goto_step o a l))) /\ step (goto_step o a l) <> 0.
Proof.
  intros o p nr l [skip kept] a P N [(Z0 & S0 & K)|[(Z5 & _)|(b & cur & B & SB & I & E & PL)]] NE; [|congruence|].
  - unfold goto_step. rewrite Z0. cbn. inversion K; subst skip kept. apply load_begun; auto.
  - pose proof (succ_block o p nr (Z.of_nat b) cur a ltac:(lia) I) as S. unfold goto_step. rewrite P.
    cbn [fst snd] in PL, E.
    destruct PL as [[-> ->]|[(-> & st & ->)|(-> & st & ->)]].
    + destruct (succ_step o p (step l) a) as [n|].
      * cbn [step set_step stage]. destruct S as [(C & -> & _)|[(C & -> & _)|(A & IN & n0 & n5 & n9 & n19)]].
        -- split; [|lia]. right; right. exists b, 108. cbn [fst snd]. rewrite C in *. repeat split; auto.
           right; left. repeat split; auto.
        -- split; [|lia]. right; right. exists b, 118. cbn [fst snd]. rewrite C in *. repeat split; auto.
           right; right. repeat split; auto.
        -- split; [|exact n0]. right; right. exists b, n. rewrite visit_plain by assumption. cbn [fst snd].
           repeat split; auto.
           ++ rewrite A in E. cbn [app] in E. rewrite <- app_assoc. exact E.
           ++ left. split; reflexivity.
      * apply load_begun; auto. right. exists b. rewrite S in E. repeat split; auto.
    + destruct st as [st|st]; rewrite st; cbn -[plan block down]; (split; [|lia]); right; right; exists b, 108; cbn [fst snd];
        repeat split; auto; [right; left; repeat split; auto|left; split; reflexivity].
    + destruct st as [st|st]; rewrite st; cbn -[plan block down]; (split; [|lia]); right; right; exists b, 118; cbn [fst snd];
        repeat split; auto; [right; right; repeat split; auto|left; split; reflexivity].
Qed.

Lemma goto_prog : forall o a l, prog (goto_step o a l) = prog l /\ norinse (goto_step o a l) = norinse l
  /\ state (goto_step o a l) = state l /\ locked (goto_step o a l) = locked l /\ selprg (goto_step o a l) = selprg l /\ cmd (goto_step o a l) = cmd l
  /\ recipe (goto_step o a l) = recipe l /\ conflict (goto_step o a l) = conflict l /\ selrec (goto_step o a l) = selrec l
  /\ aborted (goto_step o a l) = aborted l /\ isreset (goto_step o a l) = isreset l.
Proof. intros. unfold goto_step, load_program. destruct (succ_step _ _ _ _); repeat split; reflexivity. Qed.
