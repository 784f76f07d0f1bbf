(** Recipes: what a step of the program does to the storages. *)
From Coq Require Import ZArith List Bool Lia QArith String.
From Verif Require Import Base TimeModel FTextModel FTextSpec FTextProofs FTextProofs2 RecModel RecSpec RecProofs.
Import ListNotations.
Open Scope list_scope.
Open Scope Z_scope.

(** * Reading a file into a storage *)

Lemma with_recs_id s : with_recs s (s_recs s) = s.
Proof. destruct s. reflexivity. Qed.
Lemma overlay_nil {A} (l : list A) : overlay l [] = l.
Proof. destruct l; reflexivity. Qed.
Lemma fill_len n : forall l v, fill n l = Some v -> List.length v = n.
Proof.
  induction n as [|n IH]; intros l v H; cbn [fill] in H.
  - assert (v = []) by congruence. subst. reflexivity.
  - destruct l as [|[x|] l]; [|destruct (fill n l) as [q|] eqn:E; [|discriminate]|discriminate].
    + assert (v = repeat 0 (S n)) by congruence. subst. apply repeat_length.
    + cbn [option_map] in H. assert (v = x :: q) by congruence. subst. cbn. f_equal. eapply IH. exact E.
Qed.
Lemma fill_all_len n : forall l v, fill_all n l = Some v -> Forall (fun r => List.length (r_par r) = n) v.
Proof.
  induction l as [|[name ps] l IH]; intros v H; cbn [fill_all] in H.
  - assert (v = []) by congruence. subst. constructor.
  - destruct (fill n ps) as [p|] eqn:E1; [|discriminate]. destruct (fill_all n l) as [q|] eqn:E2; [|discriminate].
    assert (v = mkR name p :: q) by congruence. subst. constructor; [eapply fill_len; exact E1|apply IH; reflexivity].
Qed.
Lemma deserialize_form s f s1 : deserialize s f = Some s1 ->
  exists new, s1 = with_recs s (overlay (s_recs s) new) /\
    Forall (fun r => List.length (r_par r) = Z.to_nat (s_pcnt s)) new /\
    (forall s2, s_pcnt s2 = s_pcnt s -> deserialize s2 f = Some (with_recs s2 (overlay (s_recs s2) new))).
Proof.
  destruct f as [text|]; unfold deserialize.
  - destruct (get_int (open_in text)) as [rc st1]. destruct (get_int st1) as [pc st2].
    destruct rc as [rc|]; [|discriminate]. destruct pc as [pc|]; [|discriminate].
    destruct (fill_all (Z.to_nat (s_pcnt s)) (read_recipes (Z.to_nat rc) (Z.to_nat pc) st2)) as [new|] eqn:E; [|discriminate].
    intros H. exists new. split; [congruence|]. split; [eapply fill_all_len; exact E|].
    intros s2 P. rewrite P, E. reflexivity.
  - intros H. exists []. split; [rewrite overlay_nil, with_recs_id; congruence|]. split; [constructor|].
    intros s2 _. rewrite overlay_nil, with_recs_id. reflexivity.
Qed.
Lemma overlay_len {A} (o n : list A) : List.length (overlay o n) = List.length o.
Proof. revert n. induction o as [|a o IH]; intros [|b n]; cbn; auto. Qed.
Lemma overlay_Forall {A} (P : A -> Prop) o n : Forall P o -> Forall P n -> Forall P (overlay o n).
Proof. intros H. revert n. induction H; intros [|b n] N; cbn; auto. inversion N; subst. auto. Qed.
Lemma overlay_Forall2 {A} (P : A -> Prop) : forall o1 o2 n, List.length o1 = List.length o2 -> Forall P o1 -> Forall P (overlay o2 n) -> Forall P (overlay o1 n).
Proof.
  induction o1 as [|a o1 IH]; intros [|b o2] n L H1 H2; try discriminate; [constructor|].
  destruct n as [|c n]; [exact H1|]. cbn [overlay] in *. inversion H2; subst. inversion H1; subst.
  constructor; [assumption|]. eapply IH; [|assumption|eassumption]. cbn in L. lia.
Qed.
Lemma overlay_rel {A} (R : A -> A -> Prop) : forall o1 o2 n, (forall x, In x (overlay o2 n) -> R x x) ->
  Forall2 R o1 (overlay o2 n) -> Forall2 R (overlay o1 n) (overlay o2 n).
Proof.
  induction o1 as [|a o1 IH]; intros [|b o2] n RF H; cbn [overlay] in *; try exact H.
  - destruct n; inversion H.
  - destruct n as [|c n]; [exact H|]. inversion H; subst. constructor; [apply RF; left; reflexivity|].
    apply IH; [|assumption]. intros x X. apply RF. right. exact X.
Qed.

(** * One storage *)

(** What a call can do to a storage with the given file. *)
Inductive touch (vok : Z -> Prop) (nok : list Z -> Prop) (f : option (list Z)) (s : storage) : storage -> Prop :=
| T_same : touch vok nok f s s
| T_put i j v s1 : vok v -> put s i j v = Some s1 -> touch vok nok f s s1
| T_name i r str : nok str -> nth_error (s_recs s) i = Some r ->
    touch vok nok f s (mkS (s_cnt s) (s_pcnt s) (s_act s) true (upd (s_recs s) i (mkR str (r_par r))))
| T_act v : touch vok nok f s (fst (setActiveRecipe s v))
| T_load s1 : deserialize s f = Some s1 -> touch vok nok f s s1.

Lemma touch_sized vok nok f s s1 : touch vok nok f s s1 -> sized s ->
  sized s1 /\ s_cnt s1 = s_cnt s /\ s_pcnt s1 = s_pcnt s.
Proof.
  intros T S. destruct T as [|i j v s1 _ H|i r str _ H|v|s1 H].
  - auto.
  - destruct (put_sized _ _ _ _ _ S H) as (A & B & C & _). auto.
  - cbn [s_cnt s_pcnt]. split; [|auto]. destruct S as (C & P & L & LP & A). unfold sized. cbn [s_cnt s_pcnt s_act s_recs].
    split; [exact C|]. split; [exact P|]. rewrite upd_len. split; [exact L|]. split; [|exact A].
    apply upd_Forall; [exact LP|]. exact (Forall_nth _ _ _ _ LP H).
  - unfold setActiveRecipe. destruct ((v - 1 <? s_cnt s) && (0 <? v)) eqn:E; [|cbn; auto].
    destruct (negb (s_act s =? v - 1)); cbn [fst]; [|auto]. unfold with_act. cbn [s_cnt s_pcnt]. split; [|auto].
    destruct S as (C & P & L & LP & A). unfold sized. cbn [s_cnt s_pcnt s_act s_recs]. repeat split; try assumption; lia.
  - destruct (deserialize_form _ _ _ H) as (new & -> & LN & _). unfold with_recs. cbn [s_cnt s_pcnt]. split; [|auto].
    destruct S as (C & P & L & LP & A). unfold sized. cbn [s_cnt s_pcnt s_act s_recs].
    split; [exact C|]. split; [exact P|]. rewrite overlay_len. split; [exact L|]. split; [|exact A].
    apply overlay_Forall; [exact LP|]. eapply Forall_impl; [|exact LN]. cbn. intros r R. lia.
Qed.

(** Storage and file belong together: the file can be read, and the storage is
    marked or its content is in the file. *)
Definition paired (s : storage) (f : option (list Z)) : Prop :=
  sized s /\ writable s /\ 0 < s_pcnt s /\
  exists s', create (s_cnt s) (s_pcnt s) f = Some s' /\ writable s' /\
    (s_changed s = true \/ Forall2 same_recipe (s_recs s) (s_recs s')).

Lemma same_recipe_refl r : Forall number (r_par r) -> same_recipe r r.
Proof. intros H. split; [reflexivity|]. induction H; constructor; [apply same_value_refl; assumption|assumption]. Qed.

Lemma touch_paired f s s1 : touch number one_line f s s1 -> paired s f -> paired s1 f.
Proof.
  intros T (S & W & P & s' & C & W' & D). destruct (touch_sized _ _ _ _ _ T S) as (S1 & EC & EP).
  split; [exact S1|].
  assert (K : writable s1 /\ (s_changed s1 = true \/ Forall2 same_recipe (s_recs s1) (s_recs s'))).
  { destruct T as [|i j v s1 V H|i r str NS H|v|s1 H].
    - auto.
    - split; [exact (put_writable _ _ _ _ _ W V H)|]. destruct (put_marks _ _ _ _ _ H) as [->|M]; auto.
    - split; [|left; reflexivity]. unfold writable. cbn [s_recs]. apply upd_Forall; [exact W|]. cbn [r_name r_par].
      split; [exact NS|]. exact (proj2 (Forall_nth _ _ _ _ W H)).
    - unfold setActiveRecipe. destruct ((v - 1 <? s_cnt s) && (0 <? v)); [|auto]. destruct (negb (s_act s =? v - 1)); auto.
    - destruct (deserialize_form _ _ _ H) as (new & -> & LN & ALL). unfold create in C.
      rewrite (ALL (fresh (s_cnt s) (s_pcnt s)) eq_refl) in C.
      assert (E : s' = with_recs (fresh (s_cnt s) (s_pcnt s)) (overlay (s_recs (fresh (s_cnt s) (s_pcnt s))) new)) by congruence.
      subst s'. unfold with_recs, writable in *. cbn [s_recs s_changed] in *. split.
      + eapply overlay_Forall2; [|exact W|exact W']. rewrite fresh_len. destruct S as (_ & _ & L & _). lia.
      + destruct D as [D|D]; [left; exact D|right]. apply overlay_rel; [|exact D].
        intros x X. rewrite Forall_forall in W'. apply same_recipe_refl. apply (W' x X). }
  destruct K as [K1 K2]. split; [exact K1|]. rewrite EC, EP. split; [exact P|]. exists s'. auto.
Qed.

Lemma paired_saved s : sized s -> writable s -> 0 < s_pcnt s -> paired (with_changed s false) (Some (serialize s)).
Proof.
  intros S W P. split; [exact S|]. split; [exact W|]. split; [exact P|].
  exists (mkS (s_cnt s) (s_pcnt s) 0 false (shorten s)). cbn [with_changed s_cnt s_pcnt s_recs s_changed].
  split; [apply create_serialize; assumption|]. split; [|right; apply same_shorten; exact W].
  unfold writable, shorten. cbn [s_recs]. unfold writable in W. induction W as [|r l [H1 H2] _ IH]; cbn [map]; constructor; [|exact IH].
  cbn [r_name r_par]. split; [exact H1|]. clear - H2. induction H2 as [|b l [B F] _ IH]; cbn [map]; constructor; [|exact IH].
  apply short_finite; assumption.
Qed.

(** * Commands *)

Lemma rne_nonneg x : (0 <= x)%Q -> 0 <= rne x.
Proof.
  intros H. unfold rne. assert (F : 0 <= Qround.Qfloor x).
  { change 0 with (Qround.Qfloor 0). apply Qround.Qfloor_resp_le. exact H. }
  destruct (Qcompare _ _); [destruct (Z.even _)| |]; lia.
Qed.
Lemma nearest_nonneg x : (0 <= x)%Q -> 0 <= nearest x.
Proof.
  intros H. unfold nearest. set (e := if _ <? -149 then -149 else _).
  assert (E : -149 <= e) by (unfold e; destruct (Z.ltb_spec (lg 2 300 127 x - 23) (-149)); lia).
  assert (R : 0 <= rne (x * p2 (- e))%Q).
  { apply rne_nonneg. apply Qmult_le_0_compat; [exact H|]. apply Qlt_le_weak, p2_pos. }
  nia.
Qed.
Lemma bits_number m : 0 <= m < 255 * 2 ^ 23 -> number m.
Proof.
  intros H. split; [unfold is_float; lia|]. unfold f_finite, f_mag. rewrite Z.mod_small by lia. lia.
Qed.
Lemma eat_nonneg l : forall n v, alld (fst (span isdigit l)) -> 0 <= v -> 0 <= snd (fst (eat l n v)).
Proof.
  induction l as [|c l IH]; intros n v A H; cbn [eat fst snd]; [exact H|].
  cbn [span] in A. destruct (isdigit c) eqn:E; [|exact H]. unfold isdigit in E. destruct (span isdigit l) as [a b] eqn:S. cbn [fst] in A.
  apply IH; [inversion A; assumption|lia].
Qed.
Lemma span_all p l : Forall (fun c => p c = true) (fst (span p l)).
Proof.
  induction l as [|c l IH]; cbn [span]; [constructor|]. destruct (p c) eqn:E; [|constructor].
  destruct (span p l) as [a b]. cbn [fst] in *. constructor; assumption.
Qed.
Lemma stof_number l m : stof l = Some m -> number m.
Proof.
  unfold stof. pose proof (eat_nonneg l 0 0 (span_all isdigit l) ltac:(lia)) as H1. destruct (eat l 0 0) as [[n1 v1] r1]. cbn [fst snd] in H1.
  assert (H2 : 0 <= snd (fst (match r1 with 46 :: r => eat r 0 v1 | _ => (0, v1, r1) end))).
  { assert (G : forall r, 0 <= snd (fst (eat r 0 v1))) by (intros r; apply eat_nonneg; [apply span_all|exact H1]).
    destruct r1 as [|[|p|p] r1]; cbn [fst snd]; try exact H1.
    repeat (destruct p as [p|p|]; cbn [fst snd]; try exact H1; try apply G). }
  destruct (match r1 with 46 :: r => eat r 0 v1 | _ => (0, v1, r1) end) as [[n2 v2] r2]. cbn [fst snd] in H2.
  destruct (n1 + n2 =? 0); [discriminate|]. destruct (v2 =? 0) eqn:V.
  { intros H. assert (m = 0) by congruence. subst. apply bits_number. lia. }
  assert (N : 0 <= nearest (inject_Z v2 * p10 (- n2))%Q).
  { apply nearest_nonneg. apply Qmult_le_0_compat; [change 0%Q with (inject_Z 0); rewrite <- Zle_Qle; lia|apply Qlt_le_weak, p10_pos]. }
  destruct (Z.leb_spec (255 * 2 ^ 23) (nearest (inject_Z v2 * p10 (- n2))%Q)); [discriminate|].
  destruct ((_ <? _) && _); [discriminate|]. intros E. assert (m = nearest (inject_Z v2 * p10 (- n2))%Q) by congruence. subst.
  apply bits_number. lia.
Qed.
Lemma quoted_line l s : quoted l = Some s -> one_line s.
Proof.
  revert s. induction l as [|c l IH]; intros s H; cbn [quoted] in H; [discriminate|].
  destruct (eqtext (c :: l) [34; 32; 41]).
  - assert (s = []) by congruence. subst. intros [].
  - destruct (any c) eqn:A; [|discriminate]. destruct (quoted l) as [q|]; [|discriminate].
    cbn [option_map] in H. assert (s = c :: q) by congruence. subst. intros [X|X]; [|exact (IH q eq_refl X)].
    subst c. discriminate.
Qed.
Lemma parse_ok l n v i f s : parse_cmd l = Call n v i f s -> number f /\ one_line s.
Proof.
  unfold parse_cmd. destruct (rm_match l) as [[[[n' v'] i'] x]|] eqn:M; [|discriminate].
  destruct (stoi n') as [a|]; [|discriminate]. destruct (stoi i') as [b|]; [|discriminate].
  destruct x as [q|d].
  - intros H. assert (f = 0 /\ s = q) as [-> ->] by (split; congruence). split; [apply bits_number; lia|].
    unfold rm_match in M.
    destruct (prefix (codes "__RECMAN[") l) as [l1|]; [|discriminate]. destruct (span isdigit l1) as [n1 l2]. destruct n1; [discriminate|].
    destruct (prefix (codes "]:set_cmd( """) l2) as [l3|]; [|discriminate]. destruct (span wordchar l3) as [v1 l4]. destruct v1; [discriminate|].
    destruct (prefix (codes """, ") l4) as [l5|]; [|discriminate]. destruct (span isdigit l5) as [i1 l6]. destruct i1; [discriminate|].
    destruct (prefix (codes ", ") l6) as [l7|]; [|discriminate].
    destruct l7 as [|c l7]; [discriminate|]. destruct (c =? quote).
    + destruct (quoted l7) as [q1|] eqn:Q; [|discriminate]. assert (q = q1) by congruence. subst. eapply quoted_line. exact Q.
    + destruct (span (fun c => isdigit c || (c =? 46)) (c :: l7)) as [d r].
      destruct (negb (eqtext d []) && eqtext r (codes " )")); discriminate.
  - destruct (stof d) as [y|] eqn:F; [|discriminate]. intros H. assert (f = y /\ s = []) as [-> ->] by (split; congruence).
    split; [eapply stof_number; exact F|intros []].
Qed.
