(** Recipes: saving in time, loading into objects, lists, commands, other files. *)
From Coq Require Import ZArith List Bool Lia String.
From Verif Require Import Base TimeModel FTextModel FTextSpec FTextProofs FTextProofs2 RecModel RecSpec RecProofs RecProofs2 RecProofs3.
Import ListNotations.
Open Scope list_scope.
Open Scope Z_scope.

(** * An evaluation always succeeds *)

Lemma refresh_total : forall rs act i sep l ls, List.length act = List.length rs -> exists x, refresh_loop i act rs sep l ls = Some x.
Proof.
  induction rs as [|r rs IH]; intros [|f act] i sep l ls L; try discriminate; cbn [refresh_loop]; [eauto|].
  destruct (negb (f =? 0)); [destruct (negb sep)|]; apply IH; cbn in L; lia.
Qed.
Lemma refresh_some a s : sized s -> List.length (a_active a) = Z.to_nat (s_cnt s) -> exists b, refreshRecipeList a s = Some b.
Proof.
  intros (C & _ & L & _) E. unfold refreshRecipeList.
  destruct (refresh_total (firstn (Z.to_nat (s_cnt s)) (s_recs s)) (a_active a) 0 (a_sep a) [] (a_lists a)) as [[l ls] ->]; [|eauto].
  rewrite firstn_length, E. lia.
Qed.
Lemma adok_at sts a : Forall sized sts -> adok (map s_cnt sts) a ->
  exists s, nth_error sts (a_st a) = Some s /\ sized s /\ List.length (a_active a) = Z.to_nat (s_cnt s).
Proof.
  intros S (c & C & L). rewrite nth_error_map in C. destruct (nth_error sts (a_st a)) as [s|] eqn:E; [|discriminate].
  exists s. split; [reflexivity|]. split; [exact (Forall_nth _ _ _ _ S E)|]. cbn in C. congruence.
Qed.
Lemma eval_ads_total da dt ok sts : Forall sized sts -> forall l fs, Forall (adok (map s_cnt sts)) l ->
  exists x, eval_ads da dt ok sts l fs = Some x.
Proof.
  intros S. induction l as [|a l IH]; intros fs H; cbn [eval_ads]; [eauto|]. destruct fs as [|f fs]; [eauto|]. inversion H; subst.
  destruct (a_changed a && da); [eauto|].
  assert (R : exists a1, (if a_refresh a then match nth_error sts (a_st a) with Some s => refreshRecipeList (a_with_refresh a false) s | None => None end else Some a) = Some a1).
  { destruct (a_refresh a); [|eauto]. destruct (adok_at sts a S H2) as (s & E & SS & L). rewrite E. apply refresh_some; assumption. }
  destruct R as [a1 ->]. destruct (IH fs H3) as [[[[r1 fr1] sv1] w1] ->]. eauto.
Qed.
Lemma evaluate_total w now ok g : shape g -> exists g1, evaluate w now ok g = Some g1.
Proof.
  intros (S1 & S2 & S3 & S4). unfold evaluate.
  destruct (eval_ads_total (MIN_SAVE_INTERVAL_MS <? get_delta_millisec w now (t_ad g)) (MIN_SAVE_INTERVAL_MS <? get_delta_millisec w now (t_obj g)) ok
    (g_st g) S1 (g_ad g) (f_ad g) S4) as [[[[ads fad] sv] ld] ->].
  destruct (eval_sts _ ok (g_st g) (f_rec g)) as [[sts frec] sr]. eauto.
Qed.

(** * Every marked storage is written in the end *)

Fixpoint marked (l : list storage) : nat :=
  match l with [] => O | s :: r => ((if s_changed s then 1 else 0) + marked r)%nat end.

Lemma eval_sts_progress ok l : forall fs l1 fs1 sv, List.length fs = List.length l -> eval_sts true ok l fs = (l1, fs1, sv) ->
  sv = negb (Nat.eqb (marked l) 0) /\
  forall i, marked (firstn i l1) = (marked (firstn i l) - 1)%nat.
Proof.
  induction l as [|s l IH]; intros [|f fs] l1 fs1 sv L H; try discriminate; cbn [eval_sts] in H.
  - assert (l1 = [] /\ sv = false) as [-> ->] by (split; congruence). split; [reflexivity|]. intros [|i]; reflexivity.
  - rewrite andb_true_r in H. destruct (s_changed s) eqn:E.
    + assert (l1 = with_changed s false :: l /\ sv = true) as [-> ->] by (split; congruence). cbn [marked]. rewrite E. split; [reflexivity|].
      intros [|i]; cbn [firstn marked]; [reflexivity|]. cbn [with_changed s_changed]. rewrite E. lia.
    + destruct (eval_sts true ok l fs) as [[r1 fr1] sv1] eqn:R.
      assert (l1 = s :: r1 /\ sv = sv1) as [-> ->] by (split; congruence).
      destruct (IH fs r1 fr1 sv1 ltac:(cbn in L; lia) R) as [A B]. cbn [marked]. rewrite E. split; [exact A|].
      intros [|i]; cbn [firstn marked]; [reflexivity|]. rewrite E. cbn [Nat.add]. apply B.
Qed.

Lemma eval_sts_idle due ok l : forall fs l1 fs1 sv, eval_sts due ok l fs = (l1, fs1, sv) -> sv = false -> marked l1 = marked l /\ l1 = l /\ fs1 = fs.
Proof.
  induction l as [|s l IH]; intros [|f fs] l1 fs1 sv H V; cbn [eval_sts] in H;
    try (assert (l1 = [] /\ fs1 = []) as [-> ->] by (split; congruence); auto; fail).
  - assert (l1 = [] /\ fs1 = f :: fs) as [-> ->] by (split; congruence). auto.
  - assert (l1 = s :: l /\ fs1 = []) as [-> ->] by (split; congruence). auto.
  - destruct (s_changed s && due); [congruence|]. destruct (eval_sts due ok l fs) as [[r1 fr1] sv1] eqn:R.
    assert (l1 = s :: r1 /\ fs1 = f :: fr1 /\ sv = sv1) as (-> & -> & ->) by (repeat split; congruence).
    destruct (IH _ _ _ _ R V) as (A & B & C). subst. auto.
Qed.

Lemma ticks_progress w ok : forall nows g, shape g -> spaced w (t_rec g) nows ->
  exists g1, rrun w g (map (fun n => Tick n ok) nows) = Some g1 /\ shape g1 /\
    forall i, marked (firstn i (g_st g1)) = (marked (firstn i (g_st g)) - List.length nows)%nat.
Proof.
  intros nows. remember (List.length nows) as len eqn:EL. revert nows EL. induction len as [|len IH]; intros nows EL g S SP.
  - destruct nows; [|discriminate]. exists g. cbn. split; [reflexivity|]. split; [exact S|]. intros. lia.
  - destruct nows as [|n nows]; [discriminate|]. cbn [map rrun rstep]. cbn [spaced] in SP. destruct SP as [SP1 SP2].
    destruct (evaluate_total w n ok g S) as [g2 E]. rewrite E.
    assert (S2 : shape g2) by (apply (shape_step w g (Tick n ok) g2 S E)).
    assert (X : (forall i, marked (firstn i (g_st g2)) = (marked (firstn i (g_st g)) - 1)%nat) /\ (t_rec g2 = n \/ (t_rec g2 = t_rec g /\ marked (g_st g2) = O))).
    { unfold evaluate in E. destruct (eval_ads _ _ ok (g_st g) (g_ad g) (f_ad g)) as [[[[ads fad] sv] ld]|]; [|discriminate].
      assert (D : MIN_SAVE_INTERVAL_MS <? get_delta_millisec w n (t_rec g) = true) by (unfold MIN_SAVE_INTERVAL_MS; lia). rewrite D in E.
      destruct (eval_sts true ok (g_st g) (f_rec g)) as [[sts frec] sr] eqn:ES. destruct S as (_ & LF & _).
      destruct (eval_sts_progress _ _ _ _ _ _ LF ES) as [A B]. injection E as E. subst g2. cbn [g_st t_rec]. split; [exact B|].
      destruct sr; [left; reflexivity|right]. split; [reflexivity|].
      destruct (eval_sts_idle _ _ _ _ _ _ _ ES eq_refl) as [C _]. rewrite C. destruct (marked (g_st g)); [reflexivity|discriminate]. }
    destruct X as [X1 X2]. cbn in EL.
    destruct X2 as [X2|[X2 X3]].
    + rewrite <- X2 in SP2. destruct (IH nows ltac:(congruence) g2 S2 SP2) as (g1 & R & S1 & M). exists g1. split; [exact R|]. split; [exact S1|].
      intros i. rewrite M, X1. lia.
    + (* nothing is marked any more *)
      assert (G : forall nows g, shape g -> marked (g_st g) = O -> exists g1, rrun w g (map (fun n => Tick n ok) nows) = Some g1 /\ shape g1 /\ g_st g1 = g_st g).
      { clear. induction nows as [|n nows IH]; intros g S M; [exists g; cbn; auto|]. cbn [map rrun rstep].
        destruct (evaluate_total w n ok g S) as [g2 E]. rewrite E. assert (S2 : shape g2) by (apply (shape_step w g (Tick n ok) g2 S E)).
        assert (EQ : g_st g2 = g_st g).
        { unfold evaluate in E. destruct (eval_ads _ _ ok (g_st g) (g_ad g) (f_ad g)) as [[[[ads fad] sv] ld]|]; [|discriminate].
          destruct (eval_sts (MIN_SAVE_INTERVAL_MS <? get_delta_millisec w n (t_rec g)) ok (g_st g) (f_rec g)) as [[sts frec] sr] eqn:ES.
          injection E as E. subst g2. cbn [g_st]. clear - ES M. revert ES. generalize (f_rec g) sts frec sr. revert M. generalize (g_st g).
          induction l as [|s l IH]; intros M [|f fs] sts1 frec1 sr1 ES; cbn [eval_sts marked] in *; try congruence.
          assert (s_changed s = false) by (destruct (s_changed s); [discriminate|reflexivity]). rewrite H in *. cbn [andb Nat.add] in *.
          destruct (eval_sts _ ok l fs) as [[r1 fr1] sv1] eqn:R. apply IH in R; [|exact M]. congruence. }
        destruct (IH g2 S2) as (g1 & R & S1 & Q); [rewrite EQ; exact M|]. exists g1. rewrite Q, EQ. auto. }
      destruct (G nows g2 S2 X3) as (g1 & R & S1 & Q). exists g1. split; [exact R|]. split; [exact S1|]. intros i. rewrite Q, X1.
      assert (Z : forall i l, marked l = O -> marked (firstn i l) = O).
      { clear. induction i as [|i IH]; intros [|s l] M; cbn [firstn marked] in *; try reflexivity. destruct (s_changed s); [discriminate|]. apply IH. exact M. }
      specialize (Z i (g_st g2) X3). rewrite X1 in Z. lia.
Qed.

Lemma marked_at l i s : nth_error l i = Some s -> marked (firstn (Datatypes.S i) l) = O -> s_changed s = false.
Proof.
  revert i. induction l as [|a l IH]; intros [|i] H M; cbn [nth_error firstn marked] in *; try discriminate.
  - assert (a = s) by congruence. subst. destruct (s_changed s); [discriminate|reflexivity].
  - destruct (s_changed a); [discriminate|]. eapply IH; [exact H|exact M].
Qed.
