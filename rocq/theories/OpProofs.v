(** Proofs about operations: one state. *)
From Coq Require Import ZArith List Bool Lia.
From Verif Require Import Base TimeModel OpModel OpSpec.
Import ListNotations.
Open Scope Z_scope.

(** * Events *)

Definition about (s : Z) (x : event) : Prop := owner x = s.

Lemma engaged_cons x t s k :
  engaged (x :: t) s k = if (owner x =? s) && (stepno x =? k) then negb (ends x) else engaged t s k.
Proof. reflexivity. Qed.

Lemma engaged_other new t s s' k : Forall (about s) new -> s' <> s ->
  engaged (new ++ t) s' k = engaged t s' k.
Proof.
  intros F H. induction F as [|x l E F IH]; [reflexivity|].
  cbn [app engaged]. unfold about in E. rewrite E.
  replace (s =? s') with false by lia. exact IH.
Qed.

Lemma exclusive_app free s : forall new t, Forall (about s) new -> exclusive free t ->
  (forall s' k, engaged t s' k = true -> s' = s \/ s' = free) -> exclusive free (new ++ t).
Proof.
  intros new t F E Q. induction F as [|x l Hx F IH]; [exact E|].
  cbn [app exclusive]. split; [|exact IH]. intros _ s' k H. unfold about in Hx. rewrite Hx.
  destruct (Z.eq_dec s' s) as [->|N]; [auto|]. rewrite (engaged_other l t s s' k F N) in H. eauto.
Qed.

(** * The extension relation: functions on a state only add its own events *)

Definition ext (s : Z) (c c' : ctx) : Prop := exists new, tr c' = new ++ tr c /\ Forall (about s) new.

Lemma ext_refl s c : ext s c c.
Proof. exists []. auto. Qed.
Lemma ext_trans s a b c : ext s a b -> ext s b c -> ext s a c.
Proof.
  intros (n1 & E1 & F1) (n2 & E2 & F2). exists (n2 ++ n1). rewrite E2, E1, app_assoc. split; [reflexivity|].
  apply Forall_app. auto.
Qed.
Lemma ext_same s c c' : tr c' = tr c -> ext s c c'.
Proof. intros E. exists []. auto. Qed.
Lemma ext_upd s f c : ext s c (upd f c).
Proof. apply ext_same. reflexivity. Qed.
Lemma ext_wild s c : ext s c (wild c).
Proof. apply ext_same. reflexivity. Qed.
Lemma ext_init s e k c : ext s c (step_init s e k c).
Proof. exists [Init s k]. repeat constructor. Qed.
Lemma ext_eval s k c : ext s c (step_evaluate s k c).
Proof. exists [Eval s k]. repeat constructor. Qed.
Lemma ext_fin s k c : ext s c (step_finalize s k c).
Proof. exists [Fin s k]. repeat constructor. Qed.
Lemma ext_on s cf k f c : (forall c, ext s c (f k c)) -> ext s c (on_step cf k f c).
Proof. intros H. unfold on_step. destruct (in_range cf k); auto. apply ext_same. reflexivity. Qed.

Ltac ext1 :=
  match goal with
  | |- ext _ ?c ?c => apply ext_refl
  | |- ext _ _ (upd _ _) => eapply ext_trans; [|apply ext_upd]
  | |- ext _ _ (step_init _ _ _ _) => eapply ext_trans; [|apply ext_init]
  | |- ext _ _ (step_evaluate _ _ _) => eapply ext_trans; [|apply ext_eval]
  | |- ext _ _ (step_finalize _ _ _) => eapply ext_trans; [|apply ext_fin]
  | |- ext _ _ (on_step _ _ _ _) =>
      eapply ext_trans; [|apply ext_on; intros; first [apply ext_init|apply ext_eval|apply ext_fin]]
  | |- ext _ _ (wild _) => eapply ext_trans; [|apply ext_wild]
  | |- ext _ _ (if ?b then _ else _) => destruct b
  | |- ext _ _ (let _ := _ in _) => cbv zeta
  end.

Lemma existsb_In k l : existsb (Z.eqb k) l = true <-> In k l.
Proof.
  rewrite existsb_exists. split.
  - intros (x & H & E). apply Z.eqb_eq in E. subst. exact H.
  - intros H. exists k. rewrite Z.eqb_refl. auto.
Qed.

Lemma in_remove_first j k l : In j (remove_first k l) -> In j l.
Proof.
  induction l as [|x r IH]; cbn; [auto|]. destruct (x =? k); cbn; tauto.
Qed.
Lemma in_remove_other j k l : In j l -> j <> k -> In j (remove_first k l).
Proof.
  intros H N. induction l as [|x r IH]; cbn in *; [auto|]. destruct (Z.eqb_spec x k); cbn; intuition (subst; auto; congruence).
Qed.

Lemma in_replace j k v l : In j (replace_first k v l) -> j = v \/ In j l.
Proof.
  induction l as [|x r IH]; cbn; [auto|]. destruct (x =? k); cbn; intuition.
Qed.
Lemma in_replace_other j k v l : In j l -> j <> k -> In j (replace_first k v l).
Proof.
  intros H N. induction l as [|x r IH]; cbn in *; [auto|]. destruct (Z.eqb_spec x k); cbn; intuition (subst; auto; congruence).
Qed.
Lemma in_replace_new k v l : In k l -> In v (replace_first k v l).
Proof.
  intros H. induction l as [|x r IH]; cbn in *; [auto|]. destruct (Z.eqb_spec x k); cbn; intuition.
Qed.

Section State.
  (** [B]: steps that may be left engaged although they are not shown as active. *)
  Context (s : Z) (cf : sconf) (B : Z -> Prop).

  Lemma ext_to_step e new c : ext s c (to_step s cf e new c).
  Proof. unfold to_step. cbv zeta. repeat ext1. Qed.
  Lemma ext_on_extra e k c : ext s c (on_extra_step s cf e k c).
  Proof. unfold on_extra_step. cbv zeta. repeat ext1. Qed.
  Lemma ext_off_extra k c : ext s c (off_extra_step s cf k c).
  Proof. unfold off_extra_step. cbv zeta. repeat ext1. Qed.
  Lemma ext_switch e a b c : ext s c (switch_active_extra_step s cf e a b c).
  Proof. unfold switch_active_extra_step. cbv zeta. repeat ext1. Qed.
  Lemma ext_to_next e c : ext s c (to_next_step s cf e c).
  Proof. unfold to_next_step. cbv zeta. repeat ext1; apply ext_to_step. Qed.
  Lemma ext_turn_off c : ext s c (turn_off_active_step s cf c).
  Proof. unfold turn_off_active_step. cbv zeta. repeat ext1. Qed.
  Lemma ext_fold {A} (f : ctx -> A -> ctx) (H : forall c x, ext s c (f c x)) : forall l c, ext s c (fold_left f l c).
  Proof.
    induction l as [|x l IH]; intros c; cbn [fold_left]; [apply ext_refl|].
    eapply ext_trans; [apply H|apply IH].
  Qed.
  Lemma ext_state_init e first c : ext s c (state_init s cf e first c).
  Proof.
    unfold state_init. cbv zeta. ext1; [repeat ext1|].
    eapply ext_trans; [|apply ext_fold; intros; repeat ext1].
    eapply ext_trans; [|apply ext_to_step]. repeat ext1.
  Qed.
  Lemma ext_state_finalize e c : ext s c (state_finalize s cf e c).
  Proof.
    unfold state_finalize. cbv zeta. ext1.
    eapply ext_trans; [|apply ext_fold; intros; repeat ext1]. repeat ext1.
  Qed.
  Lemma ext_extra_loop e : forall fuel idx c, ext s c (extra_loop s cf e fuel idx c).
  Proof.
    induction fuel as [|f IH]; intros idx c; cbn [extra_loop]; [apply ext_refl|].
    destruct (nth_error _ idx) as [k|]; [|apply ext_refl].
    eapply ext_trans; [|apply IH]. ext1; [|ext1]. cbv zeta. ext1.
    - eapply ext_trans; [|apply ext_off_extra]. repeat ext1.
    - repeat ext1.
  Qed.
  Lemma ext_enable e c : ext s c (enable_loop s cf e c).
  Proof.
    unfold enable_loop. apply ext_fold. intros c0 i. cbv zeta. repeat ext1. apply ext_on_extra.
  Qed.
  Lemma ext_jump e c : ext s c (jump_part s cf e c).
  Proof.
    unfold jump_part. cbv zeta. ext1. destruct (jump e (act (dy c))); [|ext1].
    ext1; [apply ext_to_step|ext1].
  Qed.
  Lemma ext_state_evaluate e n c : ext s c (fst (state_evaluate s cf e n c)).
  Proof.
    unfold state_evaluate. cbv zeta.
    set (c1 := step_evaluate s 0 c). set (c2 := extra_loop s cf e _ 0 c1). set (c3 := enable_loop s cf e c2).
    assert (X : ext s c c3).
    { unfold c3. eapply ext_trans; [|apply ext_enable]. unfold c2. eapply ext_trans; [|apply ext_extra_loop].
      unfold c1. repeat ext1. }
    destruct (act (dy c3) <=? 0); [exact X|].
    destruct (0 <? dur_par cf (act (dy c3))).
    - destruct (_ || _).
      + destruct (_ =? -1).
        * destruct (0 <? n); cbn [fst]; [repeat ext1; exact X|].
          eapply ext_trans; [|apply ext_state_finalize]. repeat ext1. exact X.
        * cbn [fst]. eapply ext_trans; [|apply ext_to_step]. repeat ext1. exact X.
      + cbn [fst]. eapply ext_trans; [|apply ext_jump]. repeat ext1. exact X.
    - cbn [fst]. eapply ext_trans; [|apply ext_jump]. repeat ext1. exact X.
  Qed.

  (** * Ranges *)

  Definition rng (d : sdyn) : Prop :=
    (act d = 0 \/ in_range cf (act d) = true) /\
    Forall (fun k => in_range cf k = true) (extra d) /\ Forall (fun k => in_range cf k = true) (saved d).

  (** Every engaged step is shown as active. *)
  Definition listed (c : ctx) : Prop :=
    forall k, engaged (tr c) s k = true -> k = 0 \/ k = act (dy c) \/ In k (extra (dy c)) \/ B k.

  Definition inv (c : ctx) : Prop := rng (dy c) /\ listed c.

  Lemma in_range_spec k : in_range cf k = true <-> 1 <= k <= n_steps cf.
  Proof. unfold in_range. rewrite andb_true_iff. lia. Qed.

  Lemma eng_init c e k j : engaged (tr (step_init s e k c)) s j = if k =? j then true else engaged (tr c) s j.
  Proof. cbn [step_init emit tr upd engaged owner stepno ends]. rewrite Z.eqb_refl. reflexivity. Qed.
  Lemma eng_eval c k j : engaged (tr (step_evaluate s k c)) s j = if k =? j then true else engaged (tr c) s j.
  Proof. cbn [step_evaluate emit tr upd engaged owner stepno ends]. rewrite Z.eqb_refl. reflexivity. Qed.
  Lemma eng_fin c k j : engaged (tr (step_finalize s k c)) s j = if k =? j then false else engaged (tr c) s j.
  Proof. cbn [step_finalize emit tr upd engaged owner stepno ends]. rewrite Z.eqb_refl. reflexivity. Qed.
  Lemma dy_fin k c : act (dy (step_finalize s k c)) = act (dy c) /\ extra (dy (step_finalize s k c)) = extra (dy c) /\
    saved (dy (step_finalize s k c)) = saved (dy c).
  Proof. auto. Qed.

  Lemma to_step_spec e new c : rng (dy c) ->
    let c' := to_step s cf e new c in
    extra (dy c') = extra (dy c) /\ saved (dy c') = saved (dy c) /\
    act (dy c') = (if in_range cf new then new else act (dy c)) /\
    ub c' = ub c /\
    (in_range cf new = false -> c' = c) /\
    (in_range cf new = true -> forall j, engaged (tr c') s j = true ->
       j = new \/ (engaged (tr c) s j = true /\ (0 < act (dy c) -> j <> act (dy c)))).
  Proof.
    intros (Ha & _ & _) c'. unfold c', to_step. destruct (in_range cf new) eqn:R; cbn [negb];
      [|repeat split; auto; discriminate].
    cbv zeta. set (c1 := upd _ c).
    remember (if 0 <? act (dy c1) then on_step cf (act (dy c1)) (step_finalize s) c1 else c1) as c2 eqn:D2.
    assert (E2 : extra (dy c2) = extra (dy c) /\ saved (dy c2) = saved (dy c) /\ ub c2 = ub c /\
      forall j, engaged (tr c2) s j = true -> engaged (tr c) s j = true /\ (0 < act (dy c) -> j <> act (dy c))).
    { rewrite D2. change (act (dy c1)) with (act (dy c)). destruct (Z.ltb_spec 0 (act (dy c))) as [P|P].
      - unfold on_step. destruct Ha as [Ha|Ha]; [lia|]. rewrite Ha.
        repeat split; auto; rewrite eng_fin in H; destruct (Z.eqb_spec (act (dy c)) j); try discriminate; auto.
      - repeat split; auto. lia. }
    destruct E2 as (E2 & S2 & U2 & G2). clear D2.
    set (c3 := upd _ c2).
    remember (if 0 <? dur_par cf new then upd (set_time (s32 (par e (dur_par cf new)))) c3 else c3) as c4 eqn:D4.
    assert (E4 : extra (dy c4) = extra (dy c) /\ saved (dy c4) = saved (dy c) /\ act (dy c4) = new /\ ub c4 = ub c /\ tr c4 = tr c2).
    { rewrite D4. destruct (0 <? dur_par cf new); cbn; auto 10. }
    destruct E4 as (E4 & S4 & A4 & U4 & T4). clear D4.
    unfold on_step. rewrite R.
    assert (G : forall j, engaged (tr c4) s j = true -> j = new \/ (engaged (tr c) s j = true /\ (0 < act (dy c) -> j <> act (dy c)))).
    { intros j H. rewrite T4 in H. right. exact (G2 j H). }
    destruct (_ || _).
    - repeat split; auto; try discriminate. intros _ j H. rewrite eng_eval, eng_init in H.
      destruct (Z.eqb_spec new j); auto.
    - repeat split; auto; discriminate.
  Qed.

  Lemma inv_to_step e new c : inv c -> inv (to_step s cf e new c) /\ ub (to_step s cf e new c) = ub c.
  Proof.
    intros [R L]. destruct (to_step_spec e new c R) as (E & S & A & U & N & G).
    destruct R as (R1 & R2 & R3). split; [|exact U]. split.
    - repeat split; [|rewrite E; auto|rewrite S; auto]. rewrite A. destruct (in_range cf new) eqn:I; auto.
    - intros k H. destruct (in_range cf new) eqn:I; [|rewrite N in H |- * by reflexivity; auto].
      rewrite A, E. destruct (G eq_refl k H) as [->|[H1 H2]]; [auto|].
      destruct (L k H1) as [->|[->|[X|X]]]; auto.
      destruct R1 as [R1|R1]; [auto|]. apply in_range_spec in R1. exfalso. apply H2; lia.
  Qed.

  (** Changes of a state that keep the invariant and stay inside the list of steps. *)
  Definition keeps (f : ctx -> ctx) : Prop := forall c, inv c -> inv (f c) /\ ub (f c) = ub c.

  Lemma keeps_comp f g : keeps f -> keeps g -> keeps (fun c => g (f c)).
  Proof. intros F G c I. destruct (F c I) as [I1 U1]. destruct (G _ I1) as [I2 U2]. split; congruence. Qed.

  (** Fields that do not matter. *)
  Lemma inv_same c c' : inv c -> tr c' = tr c -> act (dy c') = act (dy c) -> extra (dy c') = extra (dy c) ->
    saved (dy c') = saved (dy c) -> inv c'.
  Proof.
    intros [R L] T A E S. split.
    - unfold rng. rewrite A, E, S. exact R.
    - intros k H. rewrite T in H. rewrite A, E. auto.
  Qed.

  Lemma inv_fin k c : inv c -> inv (step_finalize s k c).
  Proof.
    intros [R L]. split; [exact R|]. intros j H. rewrite eng_fin in H.
    destruct (k =? j); [discriminate|]. exact (L j H).
  Qed.
  Lemma inv_init e k c : inv c -> k = 0 \/ k = act (dy c) \/ In k (extra (dy c)) -> inv (step_init s e k c).
  Proof.
    intros [R L] K. split; [exact R|]. intros j H. rewrite eng_init in H.
    destruct (Z.eqb_spec k j) as [D|D]; [subst k; tauto|exact (L j H)].
  Qed.
  Lemma inv_eval k c : inv c -> k = 0 \/ k = act (dy c) \/ In k (extra (dy c)) -> inv (step_evaluate s k c).
  Proof.
    intros [R L] K. split; [exact R|]. intros j H. rewrite eng_eval in H.
    destruct (Z.eqb_spec k j) as [D|D]; [subst k; tauto|exact (L j H)].
  Qed.

  Lemma inv_to_next e c : inv c -> inv (to_next_step s cf e c) /\ ub (to_next_step s cf e c) = ub c.
  Proof.
    intros I. unfold to_next_step. cbv zeta. destruct (0 <? act (dy c)); [|auto].
    destruct (next_n cf (act (dy c)) =? -1); apply inv_to_step; exact I.
  Qed.

  Lemma act_range c : inv c -> 0 < act (dy c) -> in_range cf (act (dy c)) = true.
  Proof. intros [(A & _ & _) _] P. destruct A; [lia|assumption]. Qed.
  Lemma extra_range c k : inv c -> In k (extra (dy c)) -> in_range cf k = true.
  Proof. intros [(_ & F & _) _] H. rewrite Forall_forall in F. auto. Qed.

  Lemma inv_turn_off c : inv c -> inv (turn_off_active_step s cf c) /\ ub (turn_off_active_step s cf c) = ub c.
  Proof.
    intros I. unfold turn_off_active_step. destruct (Z.ltb_spec 0 (act (dy c))) as [P|P]; [|auto].
    unfold on_step. rewrite (act_range c I P). split; [|reflexivity].
    destruct I as [(R1 & R2 & R3) L]. split; [repeat split; auto|].
    intros j H. cbn [upd tr] in H. rewrite eng_fin in H. destruct (Z.eqb_spec (act (dy c)) j); [discriminate|].
    destruct (L j H) as [->|[->|[X|X]]]; auto; congruence.
  Qed.

  Lemma range_of k : k <> 0 -> (k <? 0) || (n_steps cf <? k) = false -> in_range cf k = true.
  Proof. intros N H. apply in_range_spec. lia. Qed.

  Lemma inv_app k c : inv c -> in_range cf k = true -> inv (upd (fun d => set_extra (extra d ++ [k]) d) c).
  Proof.
    intros [(R1 & R2 & R3) L] K. split.
    - repeat split; auto. cbn. apply Forall_app. auto.
    - intros j H. cbn in *. destruct (L j H) as [|[|[|]]]; auto. right. right. left. apply in_or_app. auto.
  Qed.

  Lemma inv_on_extra e k c : k <> 0 -> inv c ->
    inv (on_extra_step s cf e k c) /\ ub (on_extra_step s cf e k c) = ub c.
  Proof.
    intros K I. unfold on_extra_step. destruct (_ || _) eqn:E1; [auto|].
    destruct (act (dy c) =? k); [auto|]. destruct (existsb _ _) eqn:E2; [auto|]. cbv zeta.
    pose proof (range_of k K E1) as R. rewrite R. pose proof (inv_app k c I R) as I1.
    destruct (ok e k); [|auto]. split; [|reflexivity].
    apply inv_eval; [apply inv_init; [exact I1|]|]; right; right; cbn; apply in_or_app; cbn; auto.
  Qed.

  Lemma inv_off_extra k c : inv c -> inv (off_extra_step s cf k c) /\ ub (off_extra_step s cf k c) = ub c.
  Proof.
    intros I. unfold off_extra_step. destruct (_ || _) eqn:E1; [auto|].
    destruct (existsb _ _) eqn:E2; [|auto]. apply existsb_In in E2.
    pose proof (extra_range c k I E2) as R. unfold on_step. rewrite R. split; [|reflexivity].
    destruct I as [(R1 & R2 & R3) L]. split.
    - repeat split; auto. cbn. rewrite Forall_forall in *. intros j H. apply R2. eapply in_remove_first; eauto.
    - intros j H. cbn [upd tr] in H. rewrite eng_fin in H. destruct (Z.eqb_spec k j); [discriminate|].
      destruct (L j H) as [|[|[|]]]; auto. right. right. left. cbn. apply in_remove_other; auto.
  Qed.

  Lemma inv_switch e off on c : on <> 0 -> inv c ->
    inv (switch_active_extra_step s cf e off on c) /\ ub (switch_active_extra_step s cf e off on c) = ub c.
  Proof.
    intros N I. unfold switch_active_extra_step. destruct (_ || _) eqn:E1; [auto|].
    destruct (act (dy c) =? on); [auto|].
    destruct (existsb _ _) eqn:E2; [|auto]. apply existsb_In in E2. cbv zeta.
    pose proof (extra_range c off I E2) as R. pose proof (range_of on N E1) as R'. unfold on_step. rewrite R, R'.
    split; [|reflexivity].
    destruct I as [(R1 & R2 & R3) L]. split.
    - repeat split; auto. cbn. rewrite Forall_forall in *. intros j H. apply in_replace in H as [->|H]; auto.
    - intros j H. cbn [upd tr] in H. rewrite eng_eval, eng_init, eng_fin in H.
      change (act (dy _)) with (act (dy c)). change (extra (dy (upd _ _))) with (replace_first off on (extra (dy c))).
      destruct (Z.eqb_spec on j) as [D|D]; [subst on; right; right; left; apply in_replace_new; auto|].
      destruct (Z.eqb_spec off j) as [D'|D']; [discriminate|].
      destruct (L j H) as [|[|[|]]]; auto. right. right. left. apply in_replace_other; auto.
  Qed.

  Lemma inv_extra_loop e : forall fuel idx c, inv c ->
    inv (extra_loop s cf e fuel idx c) /\ ub (extra_loop s cf e fuel idx c) = ub c.
  Proof.
    induction fuel as [|f IH]; intros idx c I; cbn [extra_loop]; [auto|].
    destruct (nth_error _ idx) as [k|] eqn:E; [|auto]. apply nth_error_In in E.
    rewrite (extra_range c k I E). cbv zeta.
    assert (I1 : inv (step_evaluate s k c)) by (apply inv_eval; auto).
    destruct (auto_off e k && negb (signal1 e k)).
    - destruct (inv_off_extra k _ I1) as [I2 U2]. destruct (IH (S idx) _ I2) as [I3 U3]. split; [exact I3|].
      rewrite U3, U2. reflexivity.
    - destruct (IH (S idx) _ I1) as [I3 U3]. split; [exact I3|]. rewrite U3. reflexivity.
  Qed.

  Lemma inv_fold {A} (f : ctx -> A -> ctx) (P : A -> Prop)
    (H : forall c x, P x -> inv c -> inv (f c x) /\ ub (f c x) = ub c) :
    forall l c, Forall P l -> inv c -> inv (fold_left f l c) /\ ub (fold_left f l c) = ub c.
  Proof.
    induction l as [|x l IH]; intros c F I; cbn [fold_left]; [auto|]. inversion F; subst.
    destruct (H c x) as [I1 U1]; auto. destruct (IH _ ltac:(eassumption) I1) as [I2 U2]. split; congruence.
  Qed.

  Lemma inv_enable e c : inv c -> inv (enable_loop s cf e c) /\ ub (enable_loop s cf e c) = ub c.
  Proof.
    intros I. unfold enable_loop. apply (inv_fold _ (fun i => i <> 0%nat)); [| |exact I].
    - intros c0 i Hi I0. cbv zeta. destruct (existsb _ _); [auto|]. destruct (signal2 e _); [|auto].
      apply inv_on_extra; [lia|exact I0].
    - rewrite Forall_forall. intros i H. apply in_seq in H. lia.
  Qed.

  Lemma inv_jump e c : inv c -> 0 < act (dy c) -> inv (jump_part s cf e c) /\ ub (jump_part s cf e c) = ub c.
  Proof.
    intros I P. unfold jump_part. cbv zeta.
    set (c1 := match jump e (act (dy c)) with Some _ => _ | None => _ end).
    assert (X : inv c1 /\ ub c1 = ub c /\ 0 < act (dy c1)).
    { unfold c1. destruct (jump e (act (dy c))) as [nx|]; [|auto]. destruct (0 <=? nx); [|auto].
      destruct (inv_to_step e nx c I) as [I1 U1]. split; [exact I1|]. split; [exact U1|].
      destruct (to_step_spec e nx c (proj1 I)) as (_ & _ & A & _). rewrite A.
      destruct (in_range cf nx) eqn:R; [apply in_range_spec in R; lia|exact P]. }
    destruct X as (I1 & U1 & P1). unfold on_step. rewrite (act_range c1 I1 P1). split; [|exact U1].
    apply inv_eval; auto.
  Qed.

  (** Switching a state off leaves nothing engaged, and nothing listed. *)
  Lemma fold_fin : forall l c, Forall (fun k => in_range cf k = true) l ->
    let c' := fold_left (fun c k => if in_range cf k then step_finalize s k c else c) l c in
    act (dy c') = act (dy c) /\ extra (dy c') = extra (dy c) /\ saved (dy c') = saved (dy c) /\ ub c' = ub c /\
    start_time (dy c') = start_time (dy c) /\
    forall j, engaged (tr c') s j = true -> engaged (tr c) s j = true /\ ~ In j l.
  Proof.
    induction l as [|x l IH]; intros c F; cbn [fold_left]; [cbn; auto 10|].
    inversion F; subst. rewrite H1. destruct (IH (step_finalize s x c) H2) as (A & E & S & U & T & G).
    cbv zeta. rewrite A, E, S, U, T. repeat split; auto; destruct (G j H) as [G1 G2]; rewrite eng_fin in G1;
      destruct (Z.eqb_spec x j); try discriminate; auto. cbn. tauto.
  Qed.

  Lemma state_finalize_spec e c : rng (dy c) ->
    let c' := state_finalize s cf e c in
    act (dy c') = 0 /\ extra (dy c') = [] /\ saved (dy c') = saved (dy c) /\ ub c' = ub c /\
    start_time (dy c') = now e /\
    (forall j, engaged (tr c') s j = true ->
       engaged (tr c) s j = true /\ j <> 0 /\ j <> act (dy c) /\ ~ In j (extra (dy c))).
  Proof.
    intros (R1 & R2 & R3). unfold state_finalize. cbv zeta. set (c1 := upd _ (step_finalize s 0 c)).
    remember (if 0 <? act (dy c1) then _ else c1) as c2 eqn:D2.
    assert (X : act (dy c2) = 0 /\ extra (dy c2) = extra (dy c) /\ saved (dy c2) = saved (dy c) /\ ub c2 = ub c /\
      start_time (dy c2) = now e /\
      forall j, engaged (tr c2) s j = true -> engaged (tr c) s j = true /\ j <> 0 /\ j <> act (dy c)).
    { rewrite D2. change (act (dy c1)) with (act (dy c)). destruct (Z.ltb_spec 0 (act (dy c))) as [P|P].
      - unfold on_step. change (act (dy (upd _ c1))) with (act (dy c)).
        destruct R1 as [R1|R1]; [lia|]. rewrite R1.
        repeat split; auto; cbn [upd tr] in H; rewrite eng_fin in H; destruct (Z.eqb_spec (act (dy c)) j); try discriminate;
          cbn [upd tr] in H; unfold c1 in H; cbn [upd tr] in H; rewrite eng_fin in H; destruct (Z.eqb_spec 0 j); try discriminate; auto.
      - assert (A0 : act (dy c) = 0) by (destruct R1 as [R1|R1]; [auto|apply in_range_spec in R1; lia]).
        repeat split; auto; unfold c1 in H; cbn [upd tr] in H; rewrite eng_fin in H; destruct (Z.eqb_spec 0 j); try discriminate; auto.
        congruence. }
    destruct X as (A & E & S & U & T & G). clear D2.
    rewrite <- E in R2. destruct (fold_fin (extra (dy c2)) c2 R2) as (A' & E' & S' & U' & T' & G'). cbv zeta in *.
    cbn [upd dy set_extra act extra saved start_time tr ub]. rewrite A', S', U', T'.
    split; [exact A|]. split; [reflexivity|]. split; [exact S|]. split; [exact U|]. split; [exact T|].
    intros j H. destruct (G' j H) as [H1 H2]. destruct (G j H1) as (H3 & H4 & H5). rewrite E in H2. auto.
  Qed.

  Lemma fin_clears e c : inv c -> forall j, engaged (tr (state_finalize s cf e c)) s j = true -> B j.
  Proof.
    intros [R L] j E.
    destruct (state_finalize_spec e c R) as (_ & _ & _ & _ & _ & G). destruct (G j E) as (H & N1 & N2 & N3).
    destruct (L j H) as [|[|[|]]]; tauto.
  Qed.

  Lemma inv_finalize e c : inv c -> inv (state_finalize s cf e c) /\ ub (state_finalize s cf e c) = ub c.
  Proof.
    intros I. destruct (state_finalize_spec e c (proj1 I)) as (A & E & S & U & _ & G). split; [|exact U].
    split.
    - destruct I as [(R1 & R2 & R3) _]. unfold rng. rewrite A, E, S. auto.
    - intros k H. apply (fin_clears e c I) in H. auto.
  Qed.

  Lemma inv_evaluate e n c : inv c ->
    inv (fst (state_evaluate s cf e n c)) /\ ub (fst (state_evaluate s cf e n c)) = ub c.
  Proof.
    intros I. unfold state_evaluate. cbv zeta.
    set (c1 := step_evaluate s 0 c). set (c2 := extra_loop s cf e _ 0 c1). set (c3 := enable_loop s cf e c2).
    assert (I1 : inv c1) by (apply inv_eval; auto).
    destruct (inv_extra_loop e (length (extra (dy c1))) 0 c1 I1) as [I2 U2]. fold c2 in I2, U2.
    destruct (inv_enable e c2 I2) as [I3 U3]. fold c3 in I3, U3.
    assert (U : ub c3 = ub c) by (rewrite U3, U2; reflexivity).
    destruct (Z.leb_spec (act (dy c3)) 0) as [P|P]; [auto|].
    assert (J : forall x y, inv (upd (set_time x) (upd (set_max y) c3)) /\ inv (upd (set_max y) c3)).
    { intros x y. split; (eapply inv_same; [exact I3|reflexivity..]). }
    assert (K : forall x c', inv x /\ ub x = ub c' -> ub c' = ub c -> inv x /\ ub x = ub c) by (intuition congruence).
    destruct (0 <? dur_par cf (act (dy c3))).
    - destruct (_ || _).
      + destruct (_ =? -1).
        * destruct (0 <? n); cbn [fst]; [split; [exact (proj1 (J _ _))|exact U]|].
          eapply K; [apply inv_finalize; exact (proj1 (J _ _))|exact U].
        * cbn [fst]. eapply K; [apply inv_to_step; exact (proj1 (J _ _))|exact U].
      + cbn [fst]. eapply K; [apply inv_jump; [exact (proj1 (J _ _))|exact P]|exact U].
    - cbn [fst]. eapply K; [apply inv_jump; [exact (proj2 (J 0 _))|exact P]|exact U].
  Qed.

  (** Switching a state on when none of its steps is engaged. *)
  Lemma inv_state_init e first c : rng (dy c) -> (forall j, engaged (tr c) s j = true -> j = 0 \/ In j (extra (dy c)) \/ B j) ->
    inv (state_init s cf e first c) /\ ub (state_init s cf e first c) = ub c.
  Proof.
    intros (R1 & R2 & R3) L. unfold state_init. cbv zeta. set (c1 := upd _ _).
    assert (I1 : inv c1).
    { split; [repeat split; auto|]. intros j H. unfold c1 in *. cbn [upd tr] in H. rewrite eng_init in H.
      destruct (Z.eqb_spec 0 j); [auto|]. cbn. destruct (L j H) as [|[|]]; auto. }
    destruct (n_steps cf <=? 0); [auto|].
    destruct (inv_to_step e first c1 I1) as [I2 U2].
    cut (forall l c, inv c -> (forall k, In k l -> In k (extra (dy c))) ->
      inv (fold_left (fun c k => if in_range cf k then step_init s e k c else c) l c) /\
      ub (fold_left (fun c k => if in_range cf k then step_init s e k c else c) l c) = ub c).
    { intros H. destruct (H (extra (dy (to_step s cf e first c1))) (to_step s cf e first c1)) as [H1 H2]; auto.
      split; [exact H1|]. rewrite H2, U2. reflexivity. }
    induction l as [|x l IH]; intros c0 I0 K; cbn [fold_left]; [auto|].
    destruct (in_range cf x).
    - destruct (IH (step_init s e x c0)) as [H1 H2].
      + apply inv_init; [exact I0|]. right. right. apply K. cbn. auto.
      + intros k H. apply K. cbn. auto.
      + split; [exact H1|]. rewrite H2. reflexivity.
    - apply IH; [exact I0|]. intros k H. apply K. cbn. auto.
  Qed.
End State.
