(** Recipes: runs of the manager. *)
From Coq Require Import ZArith List Bool Lia.
From Verif Require Import Base TimeModel FTextModel FTextSpec FTextProofs2 RecModel RecSpec RecProofs RecProofs2.
Import ListNotations.
Open Scope list_scope.
Open Scope Z_scope.

Definition like (a b : adapter) : Prop := a_st b = a_st a /\ List.length (a_active b) = List.length (a_active a).
Definition adok (cnts : list Z) (a : adapter) : Prop :=
  exists c, nth_error cnts (a_st a) = Some c /\ List.length (a_active a) = Z.to_nat c.
Definition shape (g : mgr) : Prop :=
  Forall sized (g_st g) /\ List.length (f_rec g) = List.length (g_st g) /\
  List.length (f_ad g) = List.length (g_ad g) /\ Forall (adok (map s_cnt (g_st g))) (g_ad g).

Lemma like_refl a : like a a.
Proof. split; reflexivity. Qed.
Lemma like_trans a b c : like a b -> like b c -> like a c.
Proof. intros [A1 A2] [B1 B2]. split; congruence. Qed.
Lemma all_like l : Forall2 like l l.
Proof. induction l; constructor; [apply like_refl|assumption]. Qed.
Lemma upd_id {A} (l : list A) k a : nth_error l k = Some a -> upd l k a = l.
Proof. revert k. induction l as [|x l IH]; intros [|k] H; cbn in *; try congruence. rewrite IH by exact H. reflexivity. Qed.
Lemma upd_like l k a a1 : nth_error l k = Some a -> like a a1 -> Forall2 like l (upd l k a1).
Proof.
  revert k. induction l as [|x l IH]; intros [|k] H L; cbn in *; try congruence.
  - assert (x = a) by congruence. subst. constructor; [exact L|apply all_like].
  - constructor; [apply like_refl|eapply IH; eassumption].
Qed.
Lemma like_len l m : Forall2 like l m -> List.length m = List.length l.
Proof. induction 1; cbn; congruence. Qed.
Lemma like_adok cnts l m : Forall2 like l m -> Forall (adok cnts) l -> Forall (adok cnts) m.
Proof.
  induction 1 as [|a b l m [L1 L2] _ IH]; intros H; constructor; inversion H; subst; [|auto].
  destruct H2 as (c & C1 & C2). exists c. rewrite L1, L2. auto.
Qed.

Lemma refresh_like a s b : refreshRecipeList a s = Some b -> like a b.
Proof.
  unfold refreshRecipeList. destruct (refresh_loop _ _ _ _ _ _) as [[l ls]|]; [|discriminate].
  intros H. assert (b = mkA (a_st a) (a_maps a) (a_active a) (a_changed a) (a_loaded a) (a_refresh a) l ls (a_sep a)) by congruence.
  subst. split; reflexivity.
Qed.

Section Steps.
  Context (vok : Z -> Prop) (nok : list Z -> Prop).
  Context (Hv : forall v, number v -> vok v) (Hn : forall l, one_line l -> nok l).

  Definition ev_ok (e : rev) : Prop :=
    match e with
    | SetPar _ _ _ v => vok v
    | Cmd _ _ _ v str => vok v /\ nok str
    | _ => True
    end.

  Lemma set_cmd_effect g k var i v str g1 : vok v -> nok str -> set_cmd g k var i v str = Some g1 ->
    f_rec g1 = f_rec g /\ f_ad g1 = f_ad g /\
    exists a a1 s s1, nth_error (g_ad g) k = Some a /\ nth_error (g_st g) (a_st a) = Some s /\
      g_st g1 = upd (g_st g) (a_st a) s1 /\ g_ad g1 = upd (g_ad g) k a1 /\ like a a1 /\
      touch vok nok (nth (a_st a) (f_rec g) None) s s1.
  Proof.
    intros V N H. unfold set_cmd in H. destruct (nth_error (g_ad g) k) as [a|] eqn:EA; [|discriminate].
    destruct (nth_error (g_st g) (a_st a)) as [s|] eqn:ES; [|discriminate].
    assert (SAME : f_rec g = f_rec g /\ f_ad g = f_ad g /\ exists a0 a1 s0 s1, Some a = Some a0 /\ nth_error (g_st g) (a_st a0) = Some s0 /\
      g_st g = upd (g_st g) (a_st a0) s1 /\ g_ad g = upd (g_ad g) k a1 /\ like a0 a1 /\ touch vok nok (nth (a_st a0) (f_rec g) None) s0 s1).
    { split; [reflexivity|]. split; [reflexivity|]. exists a, a, s, s. split; [reflexivity|]. split; [exact ES|].
      rewrite !upd_id by assumption. split; [reflexivity|]. split; [reflexivity|]. split; [apply like_refl|apply T_same]. }
    destruct (eqtext var _).
    { destruct (to_int v) as [z|]; [|discriminate]. destruct (setActiveState a s z) as [a1|] eqn:E; [|discriminate].
      assert (g1 = with_ad g (upd (g_ad g) k (a_with_refresh a1 true))) by congruence. subst g1. clear H SAME.
      split; [reflexivity|]. split; [reflexivity|]. exists a, (a_with_refresh a1 true), s, s. split; [reflexivity|]. split; [exact ES|].
      cbn [with_ad g_st g_ad]. rewrite upd_id by assumption. split; [reflexivity|]. split; [reflexivity|]. split; [|apply T_same].
      unfold setActiveState in E. destruct (_ <? _); [|discriminate].
      injection E as E. subst a1. split; [reflexivity|]. cbn [a_with_refresh a_active]. apply upd_len. }
    destruct (eqtext var _).
    { destruct (to_int v) as [z|]; [|discriminate]. destruct (z =? 789).
      - destruct (deserialize s (nth (a_st a) (f_rec g) None)) as [s1|] eqn:E; [|discriminate].
        assert (g1 = with_st g (upd (g_st g) (a_st a) s1)) by congruence. subst g1. clear H SAME.
        split; [reflexivity|]. split; [reflexivity|]. exists a, a, s, s1. split; [reflexivity|]. split; [exact ES|].
        cbn [with_st g_st g_ad]. rewrite (upd_id (g_ad g)) by assumption. split; [reflexivity|]. split; [reflexivity|].
        split; [apply like_refl|apply T_load; exact E].
      - destruct (1000 <? z); [|assert (g1 = g) by congruence; subst; exact SAME].
        destruct (loadParams a s (g_obj g) (z / 1000) (z mod 1000)) as [[os ld]|]; [|discriminate].
        destruct ld.
        + assert (g1 = with_ad (with_obj g os) (upd (g_ad g) k (a_with_loaded a true))) by congruence. subst g1. clear H SAME.
          split; [reflexivity|]. split; [reflexivity|]. exists a, (a_with_loaded a true), s, s. split; [reflexivity|]. split; [exact ES|].
          cbn [with_ad with_obj g_st g_ad]. rewrite upd_id by assumption. split; [reflexivity|]. split; [reflexivity|].
          split; [split; reflexivity|apply T_same].
        + assert (g1 = with_obj g os) by congruence. subst g1. exact SAME. }
    destruct (eqtext var _).
    { destruct (nth_error (s_recs s) (activeIndex s)) as [r|] eqn:ER; [|discriminate].
      set (s1 := mkS (s_cnt s) (s_pcnt s) (s_act s) true (upd (s_recs s) (activeIndex s) (mkR str (r_par r)))) in *.
      assert (g1 = with_ad (with_st g (upd (g_st g) (a_st a) s1)) (upd (g_ad g) k (a_with_refresh a true))) by congruence. subst g1. clear H SAME.
      split; [reflexivity|]. split; [reflexivity|]. exists a, (a_with_refresh a true), s, s1. split; [reflexivity|]. split; [exact ES|].
      cbn [with_ad with_st g_st g_ad]. split; [reflexivity|]. split; [reflexivity|].
      split; [split; reflexivity|]. unfold s1. apply T_name; assumption. }
    destruct (eqtext var _).
    { destruct (to_int v) as [z|]; [|discriminate].
      assert (g1 = with_st g (upd (g_st g) (a_st a) (fst (setActiveRecipe s z)))) by congruence. subst g1. clear H SAME.
      split; [reflexivity|]. split; [reflexivity|]. exists a, a, s, (fst (setActiveRecipe s z)). split; [reflexivity|]. split; [exact ES|].
      cbn [with_st g_st g_ad]. rewrite (upd_id (g_ad g)) by assumption. split; [reflexivity|]. split; [reflexivity|].
      split; [apply like_refl|apply T_act]. }
    destruct (eqtext var _); [|assert (g1 = g) by congruence; subst; exact SAME].
    destruct ((i <=? s_pcnt s) && (0 <? i)); [|assert (g1 = g) by congruence; subst; exact SAME].
    destruct (put s (activeIndex s) (Z.to_nat (i - 1)) v) as [s1|] eqn:E; [|discriminate].
    assert (g1 = with_st g (upd (g_st g) (a_st a) s1)) by congruence. subst g1. clear H SAME.
    split; [reflexivity|]. split; [reflexivity|]. exists a, a, s, s1. split; [reflexivity|]. split; [exact ES|].
    cbn [with_st g_st g_ad]. rewrite (upd_id (g_ad g)) by assumption. split; [reflexivity|]. split; [reflexivity|].
    split; [apply like_refl|eapply T_put; eassumption].
  Qed.

  (** A step that is not an evaluation. *)
  Definition quiet (e : rev) : Prop := match e with Tick _ _ => False | _ => True end.
  Definition moved (g g1 : mgr) : Prop :=
    f_rec g1 = f_rec g /\ f_ad g1 = f_ad g /\ List.length (g_st g1) = List.length (g_st g) /\
    Forall2 like (g_ad g) (g_ad g1) /\
    forall i s, nth_error (g_st g) i = Some s ->
      exists s1, nth_error (g_st g1) i = Some s1 /\ touch vok nok (nth i (f_rec g) None) s s1.

  Lemma moved_refl g g1 : f_rec g1 = f_rec g -> f_ad g1 = f_ad g -> g_st g1 = g_st g -> Forall2 like (g_ad g) (g_ad g1) -> moved g g1.
  Proof.
    intros A B C D. split; [exact A|]. split; [exact B|]. rewrite C. split; [reflexivity|]. split; [exact D|].
    intros i s S. exists s. split; [exact S|apply T_same].
  Qed.
  Lemma moved_upd g g1 j s0 s1 : f_rec g1 = f_rec g -> f_ad g1 = f_ad g -> nth_error (g_st g) j = Some s0 ->
    g_st g1 = upd (g_st g) j s1 -> Forall2 like (g_ad g) (g_ad g1) -> touch vok nok (nth j (f_rec g) None) s0 s1 -> moved g g1.
  Proof.
    intros A B C D E F. split; [exact A|]. split; [exact B|]. rewrite D. split; [apply upd_len|]. split; [exact E|].
    intros i s S. destruct (Nat.eq_dec j i) as [->|NE].
    - exists s1. assert (s0 = s) by congruence. subst s0. split; [apply upd_same; apply nth_error_Some; congruence|exact F].
    - exists s. rewrite upd_other by exact NE. split; [exact S|apply T_same].
  Qed.
  Lemma set_cmd_moved g k var i v str g1 : vok v -> nok str -> set_cmd g k var i v str = Some g1 -> moved g g1.
  Proof.
    intros V N H. destruct (set_cmd_effect _ _ _ _ _ _ _ V N H) as (A & B & a & a1 & s & s1 & EA & ES & E1 & E2 & L & T).
    eapply moved_upd; try eassumption. rewrite E2. eapply upd_like; eassumption.
  Qed.

  Lemma step_moved w g e g1 : ev_ok e -> quiet e -> rstep w g e = Some g1 -> moved g g1.
  Proof.
    intros O Q H. destruct e as [now ok|st r p v|st r|k var i v str|k obj r|l]; cbn [rstep ev_ok quiet] in *; [contradiction| | | | |].
    - unfold on_storage in H. destruct (nth_error (g_st g) st) as [s|] eqn:S.
      + destruct (setRecPar s r p v) as [s1|] eqn:E; [|discriminate].
        assert (g1 = with_st g (upd (g_st g) st s1)) by congruence. subst g1.
        eapply moved_upd; try reflexivity; [exact S|apply all_like|].
        unfold setRecPar in E. destruct ((r <=? s_cnt s) && (p <=? s_pcnt s) && (0 <? r) && (0 <? p)).
        * eapply T_put; eassumption.
        * assert (s1 = s) by congruence. subst. apply T_same.
      + assert (g1 = g) by congruence. subst. apply moved_refl; try reflexivity. apply all_like.
    - unfold on_storage in H. destruct (nth_error (g_st g) st) as [s|] eqn:S.
      + assert (g1 = with_st g (upd (g_st g) st (fst (setActiveRecipe s r)))) by congruence. subst g1.
        eapply moved_upd; try reflexivity; [exact S|apply all_like|apply T_act].
      + assert (g1 = g) by congruence. subst. apply moved_refl; try reflexivity. apply all_like.
    - destruct (Nat.ltb k (List.length (g_ad g))).
      + destruct O as [O1 O2]. eapply set_cmd_moved; eassumption.
      + assert (g1 = g) by congruence. subst. apply moved_refl; try reflexivity. apply all_like.
    - destruct (nth_error (g_ad g) k) as [a|] eqn:EA.
      + destruct (nth_error (g_st g) (a_st a)) as [s|]; [|discriminate].
        destruct (loadParams a s (g_obj g) obj r) as [[os ld]|]; [|discriminate]. destruct ld.
        * assert (g1 = with_ad (with_obj g os) (upd (g_ad g) k (a_with_loaded a true))) by congruence. subst g1.
          apply moved_refl; try reflexivity. eapply upd_like; [exact EA|split; reflexivity].
        * assert (g1 = with_obj g os) by congruence. subst g1. apply moved_refl; try reflexivity. apply all_like.
      + assert (g1 = g) by congruence. subst. apply moved_refl; try reflexivity. apply all_like.
    - unfold parseDriverCmd in H. destruct (parse_cmd l) as [|n v i f s|] eqn:P; cbn [fst] in H; [| |discriminate].
      + assert (g1 = g) by congruence. subst. apply moved_refl; try reflexivity. apply all_like.
      + destruct (parse_ok _ _ _ _ _ _ P) as [P1 P2]. destruct (n - 1 <? Z.of_nat (List.length (g_ad g))).
        * destruct (n =? 0); [discriminate|]. eapply set_cmd_moved; [apply Hv, P1|apply Hn, P2|exact H].
        * assert (g1 = g) by congruence. subst. apply moved_refl; try reflexivity. apply all_like.
  Qed.
End Steps.

(** * Evaluations *)

Lemma eval_sts_at due ok l : forall fs l1 fs1 sv, eval_sts due ok l fs = (l1, fs1, sv) ->
  List.length fs = List.length l ->
  List.length l1 = List.length l /\ List.length fs1 = List.length fs /\
  forall i s, nth_error l i = Some s ->
    (nth_error l1 i = Some s /\ nth i fs1 None = nth i fs None) \/
    (s_changed s = true /\ due = true /\ nth_error l1 i = Some (with_changed s false) /\
     nth i fs1 None = if ok then Some (serialize s) else nth i fs None).
Proof.
  induction l as [|s l IH]; intros [|f fs] l1 fs1 sv H L; try discriminate; cbn [eval_sts] in H.
  - assert (l1 = [] /\ fs1 = []) as [-> ->] by (split; congruence). split; [reflexivity|]. split; [reflexivity|]. intros [|i] s S; discriminate.
  - destruct (s_changed s && due) eqn:E.
    + assert (l1 = with_changed s false :: l /\ fs1 = (if ok then Some (serialize s) else f) :: fs) as [-> ->] by (split; congruence).
      split; [reflexivity|]. split; [reflexivity|]. apply andb_true_iff in E. destruct E as [E1 E2].
      intros [|i] s0 S; cbn [nth_error nth] in *.
      * assert (s0 = s) by congruence. subst. right. auto.
      * left. auto.
    + destruct (eval_sts due ok l fs) as [[r1 fr1] sv1] eqn:R.
      assert (l1 = s :: r1 /\ fs1 = f :: fr1) as [-> ->] by (split; congruence).
      destruct (IH fs r1 fr1 sv1 R) as (L1 & L2 & X); [cbn in L; lia|]. cbn [List.length]. split; [congruence|]. split; [congruence|].
      intros [|i] s0 S; cbn [nth_error nth] in *; [left; auto|]. apply X. exact S.
Qed.

Lemma eval_ads_like da dt ok sts l : forall fs l1 fs1 sv w, eval_ads da dt ok sts l fs = Some (l1, fs1, sv, w) ->
  Forall2 like l l1 /\ List.length fs1 = List.length fs.
Proof.
  induction l as [|a l IH]; intros fs l1 fs1 sv w H; cbn [eval_ads] in H.
  - assert (l1 = [] /\ fs1 = fs) as [-> ->] by (split; congruence). split; [constructor|reflexivity].
  - destruct fs as [|f fs].
    { assert (l1 = a :: l /\ fs1 = []) as [-> ->] by (split; congruence). split; [apply all_like|reflexivity]. }
    destruct (a_changed a && da).
    + assert (l1 = a_with_changed a false :: l /\ fs1 = (if ok then Some (ser_adapter (a_active a)) else f) :: fs) as [-> ->] by (split; congruence).
      split; [constructor; [split; reflexivity|apply all_like]|reflexivity].
    + assert (R : forall a1, (if a_refresh a then match nth_error sts (a_st a) with Some s => refreshRecipeList (a_with_refresh a false) s | None => None end else Some a) = Some a1 -> like a a1).
      { intros a1 E. destruct (a_refresh a).
        - destruct (nth_error sts (a_st a)) as [s|]; [|discriminate]. apply refresh_like in E. destruct E as [E1 E2]. split; assumption.
        - assert (a1 = a) by congruence. subst. apply like_refl. }
      destruct (if a_refresh a then match nth_error sts (a_st a) with Some s => refreshRecipeList (a_with_refresh a false) s | None => None end else Some a) as [a1|]; [|discriminate].
      specialize (R a1 eq_refl). destruct (eval_ads da dt ok sts l fs) as [[[[r1 fr1] sv1] w1]|] eqn:E; [|discriminate].
      assert (l1 = (if a_loaded a1 && dt then a_with_loaded a1 false else a1) :: r1 /\ fs1 = f :: fr1) as [-> ->] by (split; congruence).
      destruct (IH _ _ _ _ _ E) as [F1 F2]. split; [|cbn; congruence]. constructor; [|exact F1].
      destruct (a_loaded a1 && dt); [|exact R]. eapply like_trans; [exact R|split; reflexivity].
Qed.

(** What an evaluation does to storages and their files. *)
Lemma tick_at w now ok g g1 : shape g -> evaluate w now ok g = Some g1 ->
  Forall2 like (g_ad g) (g_ad g1) /\ List.length (f_ad g1) = List.length (f_ad g) /\
  List.length (g_st g1) = List.length (g_st g) /\ List.length (f_rec g1) = List.length (f_rec g) /\
  forall i s, nth_error (g_st g) i = Some s ->
    (nth_error (g_st g1) i = Some s /\ nth i (f_rec g1) None = nth i (f_rec g) None) \/
    (s_changed s = true /\ nth_error (g_st g1) i = Some (with_changed s false) /\
     nth i (f_rec g1) None = if ok then Some (serialize s) else nth i (f_rec g) None).
Proof.
  intros (_ & LF & _ & _) H. unfold evaluate in H.
  destruct (eval_ads _ _ ok (g_st g) (g_ad g) (f_ad g)) as [[[[ads fad] sv] ld]|] eqn:EA; [|discriminate].
  destruct (eval_sts _ ok (g_st g) (f_rec g)) as [[sts frec] sr] eqn:ES.
  destruct (eval_ads_like _ _ _ _ _ _ _ _ _ _ EA) as [L1 L2]. destruct (eval_sts_at _ _ _ _ _ _ _ ES LF) as (L3 & L4 & X).
  injection H as H. subst g1. cbn [g_ad f_ad g_st f_rec]. split; [exact L1|]. split; [exact L2|]. split; [exact L3|]. split; [exact L4|].
  intros i s S. destruct (X i s S) as [Y|(Y1 & _ & Y2 & Y3)]; [left; exact Y|right; auto].
Qed.

(** * Invariants of runs *)

Lemma forall_at {A} (P : A -> Prop) l : (forall i x, nth_error l i = Some x -> P x) -> Forall P l.
Proof. intros H. rewrite Forall_forall. intros x X. apply In_nth_error in X. destruct X as [i X]. eapply H. exact X. Qed.
Lemma map_cnt_eq l m : List.length m = List.length l ->
  (forall i s, nth_error l i = Some s -> exists s1, nth_error m i = Some s1 /\ s_cnt s1 = s_cnt s) -> map s_cnt m = map s_cnt l.
Proof.
  revert m. induction l as [|a l IH]; intros [|b m] L H; try discriminate; [reflexivity|]. cbn [map]. f_equal.
  - destruct (H O a eq_refl) as (s1 & E & C). cbn in E. congruence.
  - apply IH; [cbn in L; lia|]. intros i s X. exact (H (Datatypes.S i) s X).
Qed.
Lemma back_at {A} (l m : list A) i x : List.length m = List.length l -> nth_error m i = Some x -> exists y, nth_error l i = Some y.
Proof. intros L H. apply nth_len. rewrite <- L. apply nth_error_Some. congruence. Qed.

Lemma shape_build g g1 : shape g -> List.length (g_st g1) = List.length (g_st g) -> List.length (f_rec g1) = List.length (f_rec g) ->
  List.length (f_ad g1) = List.length (f_ad g) -> Forall2 like (g_ad g) (g_ad g1) ->
  (forall i s, nth_error (g_st g) i = Some s -> exists s1, nth_error (g_st g1) i = Some s1 /\ sized s1 /\ s_cnt s1 = s_cnt s) -> shape g1.
Proof.
  intros (S1 & S2 & S3 & S4) L1 L2 L3 F X. split.
  - apply forall_at. intros i s E. destruct (back_at _ _ _ _ L1 E) as [y Y]. destruct (X i y Y) as (s1 & E1 & Z & _). assert (s = s1) by congruence. subst. exact Z.
  - split; [lia|]. split; [rewrite (like_len _ _ F); lia|].
    rewrite (map_cnt_eq (g_st g)); [eapply like_adok; eassumption|exact L1|]. intros i s E. destruct (X i s E) as (s1 & A & _ & B). eauto.
Qed.

(** A call, whatever its arguments. *)
Lemma any_moved w g e g1 : rstep w g e = Some g1 -> quiet e -> moved (fun _ => True) (fun _ => True) g g1.
Proof.
  intros H Q. apply (step_moved (fun _ => True) (fun _ => True) (fun _ _ => I) (fun _ _ => I) w g e g1); [|exact Q|exact H].
  destruct e; cbn; auto.
Qed.

Lemma shape_step w g e g1 : shape g -> rstep w g e = Some g1 -> shape g1.
Proof.
  intros S H. destruct e as [now ok|st r p v|st r|k var i v str|k obj r|l].
  1: { cbn [rstep] in H. destruct (tick_at _ _ _ _ _ S H) as (F & L1 & L2 & L3 & X).
       apply (shape_build g); auto. intros i s E. assert (sized s) by (destruct S as [S _]; exact (Forall_nth _ _ _ _ S E)).
       destruct (X i s E) as [[A _]|(_ & A & _)]; eexists; split; try exact A; auto. }
  all: destruct (any_moved w g _ g1 H I) as (F1 & F2 & L & F & X);
    (apply (shape_build g); auto; [rewrite F1; reflexivity|rewrite F2; reflexivity|];
     intros i0 s E; destruct (X i0 s E) as (s1 & A & T); exists s1; split; [exact A|];
     assert (sized s) by (destruct S as [S _]; exact (Forall_nth _ _ _ _ S E));
     destruct (touch_sized _ _ _ _ _ T H0) as (Z1 & Z2 & _); auto).
Qed.
Lemma shape_run w l : forall g g1, shape g -> rrun w g l = Some g1 -> shape g1.
Proof.
  induction l as [|e l IH]; intros g g1 S H; cbn [rrun] in H; [congruence|].
  destruct (rstep w g e) as [g2|] eqn:E; [|discriminate]. eapply IH; [|exact H]. eapply shape_step; eassumption.
Qed.

(** Sizes of the storages never change. *)
Lemma sizes_step w g e g1 i s : shape g -> rstep w g e = Some g1 -> nth_error (g_st g) i = Some s ->
  exists s1, nth_error (g_st g1) i = Some s1 /\ s_cnt s1 = s_cnt s /\ s_pcnt s1 = s_pcnt s.
Proof.
  intros S H E. assert (SS : sized s) by (destruct S as [S _]; exact (Forall_nth _ _ _ _ S E)).
  destruct e as [now ok|st r p v|st r|k var i0 v str|k obj r|l].
  1: { cbn [rstep] in H. destruct (tick_at _ _ _ _ _ S H) as (F & L1 & L2 & L3 & X).
       destruct (X i s E) as [[A _]|(_ & A & _)]; eexists; split; try exact A; auto. }
  all: destruct (any_moved w g _ g1 H I) as (F1 & F2 & L & F & X); destruct (X i s E) as (s1 & A & T); exists s1; split; try exact A;
    destruct (touch_sized _ _ _ _ _ T SS) as (Z1 & Z2 & Z3); auto.
Qed.

(** Every storage belongs to its file. *)
Definition files_ok (g : mgr) : Prop := forall i s, nth_error (g_st g) i = Some s -> paired s (nth i (f_rec g) None).
(** Calls with numbers and one-line names, and files that can be written. *)
Definition calm (e : rev) : Prop :=
  match e with Tick _ ok => ok = true | _ => ev_ok number one_line e end.

Lemma calm_moved w g e g1 : rstep w g e = Some g1 -> quiet e -> calm e -> moved number one_line g g1.
Proof.
  intros H Q C. apply (step_moved number one_line (fun _ x => x) (fun _ x => x) w g e g1); [|exact Q|exact H].
  destruct e; cbn in *; auto.
Qed.

Lemma files_step w g e g1 : shape g -> files_ok g -> calm e -> rstep w g e = Some g1 -> files_ok g1.
Proof.
  intros S F C H. destruct e as [now ok|st r p v|st r|k var i v str|k obj r|l].
  1: { cbn [rstep calm] in *. subst ok. destruct (tick_at _ _ _ _ _ S H) as (_ & _ & L & _ & X).
       intros i s E. destruct (back_at _ _ _ _ L E) as [y Y]. destruct (X i y Y) as [[A B]|(M & A & B)].
       - assert (s = y) by congruence. subst. rewrite B. apply F. exact Y.
       - assert (s = with_changed y false) by congruence. subst. rewrite B. destruct (F i y Y) as (P1 & P2 & P3 & _). apply paired_saved; assumption. }
  all: destruct (calm_moved w g _ g1 H I C) as (F1 & F2 & L & _ & X);
    (intros i0 s E; destruct (back_at _ _ _ _ L E) as [y Y]; destruct (X i0 y Y) as (s1 & A & T);
     assert (s = s1) by congruence; subst s; rewrite F1; eapply touch_paired; [exact T|apply F; exact Y]).
Qed.
Lemma files_run w l : forall g g1, shape g -> files_ok g -> Forall calm l -> rrun w g l = Some g1 -> files_ok g1.
Proof.
  induction l as [|e l IH]; intros g g1 S F C H; cbn [rrun] in H; [assert (g1 = g) by congruence; subst; exact F|].
  destruct (rstep w g e) as [g2|] eqn:E; [|discriminate]. inversion C; subst.
  eapply IH; [|eapply files_step; eassumption|assumption|exact H]. eapply shape_step; eassumption.
Qed.
