From Coq Require Import ZArith List Bool Lia Permutation.
From Verif Require Import Base TimeModel ErrModel ErrSpec ErrProofs.
Import ListNotations.
Open Scope Z_scope.

(** * C47 *)

Lemma view_quiet m0 fl m : em_ok m ->
  Forall2 quiet (em_entries m0) (em_entries m) ->
  em_id (em_evaluate fl m) = em_id m ->
  em_entries (em_evaluate fl m) = em_entries m0.
Proof.
  intros Hok HQ Hid.
  pose proof (quiet_step m (OEval fl) Hok Hid) as [_ Hq].
  rewrite em_evaluate_eq. cbn [em_entries].
  assert (G : forall j, nth_error (next_entries fl 0 (em_entries m)) j = nth_error (em_entries m0) j).
  { intros j. rewrite nth_next_entries. rewrite Forall2_nth in HQ. specialize (HQ j).
    destruct (nth_error (em_entries m0) j) as [e0|], (nth_error (em_entries m) j) as [e|] eqn:Ej;
      cbn [option_map]; auto; try contradiction.
    cbn [Nat.add]. f_equal. apply entry_eval_quiet; auto. }
  revert G. generalize (next_entries fl 0 (em_entries m)) (em_entries m0). clear.
  intros l l'. revert l'. induction l as [|x l IH]; intros [|y l'] G.
  - reflexivity.
  - specialize (G 0%nat). discriminate.
  - specialize (G 0%nat). discriminate.
  - pose proof (G 0%nat) as G0. injection G0 as ->. f_equal. apply IH. intros j. apply (G (S j)).
Qed.

Lemma counter_detects m f0 ops f1 : em_ok m ->
  Z.of_nat (length ops) < 65535 ->
  let m0 := em_run m [OEval f0] in
  let m1 := em_run m0 (ops ++ [OEval f1]) in
  em_id m1 = em_id m0 -> view m1 = view m0.
Proof.
  cbn zeta. intros Hok Hlen Hid.
  set (m0 := em_run m [OEval f0]) in *.
  assert (Hok0 : em_ok m0) by (apply em_ok_step; exact Hok).
  pose proof (counter_monotone_prefix (ops ++ [OEval f1]) m0 Hok0) as Hpre.
  rewrite app_length in Hpre. cbn [length] in Hpre.
  specialize (Hpre ltac:(lia) Hid).
  assert (Hpre' : forall k, em_id (em_run m0 (firstn k ops)) = em_id m0).
  { intros k. destruct (Nat.le_gt_cases k (length ops)).
    - specialize (Hpre k). rewrite firstn_app in Hpre.
      replace (k - length ops)%nat with 0%nat in Hpre by lia.
      rewrite app_nil_r in Hpre. exact Hpre.
    - specialize (Hpre (length ops)). rewrite firstn_app, Nat.sub_diag in Hpre.
      rewrite app_nil_r, firstn_all in Hpre.
      rewrite firstn_all2 by lia. exact Hpre. }
  assert (HQ0 : Forall2 quiet (em_entries m0) (em_entries m0)).
  { apply Forall2_nth. intros j. unfold m0, em_run. cbn [fold_left em_step].
    rewrite em_evaluate_eq. cbn [em_entries]. rewrite nth_next_entries.
    destruct (nth_error (em_entries m) j); cbn [option_map]; auto.
    split; [apply settled_next|apply entry_since_refl]. }
  pose proof (quiet_run ops m0 m0 Hok0 HQ0 Hpre') as HQ.
  assert (Hokr : em_ok (em_run m0 ops)).
  { specialize (Hpre' (length ops)). rewrite firstn_all in Hpre'. unfold em_ok in *. lia. }
  rewrite run_snoc in *. cbn [em_step] in *.
  unfold view. rewrite (view_quiet m0 f1 (em_run m0 ops) Hokr HQ); auto.
  rewrite Hid. specialize (Hpre' (length ops)). rewrite firstn_all in Hpre'. congruence.
Qed.

(** * C48 *)

Definition entry_msgs (e : entry) : list msg :=
  match e with EDev _ => [] | EObj o => oe_msgs o end.
Definition all_msgs (es : list entry) : list msg := flat_map entry_msgs es.

Lemma erase_msg_filter n l : NoDup (map m_n l) ->
  erase_msg n l = filter (fun x => negb (m_n x =? n)) l.
Proof.
  induction l as [|x l IH]; cbn [map erase_msg filter]; auto.
  intros H. apply NoDup_cons_iff in H as [Hn Hd].
  destruct (Z.eqb_spec (m_n x) n) as [E|E]; cbn [negb].
  - clear IH Hd. symmetry. subst n. induction l as [|y l IH]; cbn [filter]; auto.
    destruct (Z.eqb_spec (m_n y) (m_n x)) as [E|E]; cbn [negb].
    + exfalso. apply Hn. left. auto.
    + f_equal. apply IH. intros H. apply Hn. right. auto.
  - f_equal. auto.
Qed.

Lemma filter_id {A} (p : A -> bool) l : (forall x, In x l -> p x = true) -> filter p l = l.
Proof.
  induction l as [|x l IH]; intros H; cbn [filter]; auto.
  rewrite H by (left; auto). f_equal. apply IH. intros. apply H. right; auto.
Qed.

Lemma obj_cmd_filter a o : NoDup (map m_n (oe_msgs o)) ->
  oe_msgs (fst (obj_set_cmd a o)) = filter (fun x => negb (m_n x =? a)) (oe_msgs o).
Proof.
  intros H. unfold obj_set_cmd.
  destruct (existsb (fun x => m_n x =? a) (oe_msgs o)) eqn:E; cbn [fst oe_msgs].
  - apply erase_msg_filter. auto.
  - symmetry. apply filter_id. intros x Hx. apply negb_true_iff.
    apply not_true_is_false. intros Hc. apply not_true_iff_false in E. apply E.
    apply existsb_exists. exists x. auto.
Qed.

Lemma NoDup_app_inv {A} (l l' : list A) : NoDup (l ++ l') -> NoDup l /\ NoDup l'.
Proof.
  induction l as [|x l IH]; cbn [app]; intros H; [split; [constructor|auto]|].
  apply NoDup_cons_iff in H as [Hn Hd]. apply IH in Hd as [H1 H2]. split; auto.
  constructor; auto. intros Hx. apply Hn. apply in_or_app. auto.
Qed.

Lemma all_msgs_nth es i o : nth_error es i = Some (EObj o) ->
  NoDup (map m_n (all_msgs es)) -> NoDup (map m_n (oe_msgs o)).
Proof.
  intros Hn Hd. apply nth_error_split in Hn as (l1 & l2 & -> & _).
  unfold all_msgs in Hd. rewrite flat_map_app in Hd. cbn [flat_map entry_msgs] in Hd.
  rewrite !map_app in Hd. apply NoDup_app_inv in Hd as [_ Hd].
  apply NoDup_app_inv in Hd as [Hd _]. exact Hd.
Qed.

Definition fresh (m : emgr) : Prop :=
  NoDup (map m_n (all_msgs (em_entries m))) /\
  (forall x, In x (all_msgs (em_entries m)) -> m_n x <= em_counter m).

(** The messages after a command are the old ones without at most one. *)
Lemma cmd_msgs c t k a es : NoDup (map m_n (all_msgs es)) ->
  exists p, all_msgs (fst (cmd_entries c t k a es)) = filter p (all_msgs es)
         \/ exists l1 e l2 q, es = l1 ++ e :: l2 /\
            all_msgs (fst (cmd_entries c t k a es)) =
            all_msgs l1 ++ filter q (entry_msgs e) ++ all_msgs l2.
Proof.
  intros Hd. exists (fun _ => true).
  induction es as [|e es IH].
  - left. reflexivity.
  - cbn [cmd_entries]. destruct ((entry_type e =? t) && (entry_n e =? k)).
    + right. exists [], e, es.
      destruct e as [d|o].
      * exists (fun _ => true). destruct (dev_set_cmd c d). cbn. auto.
      * exists (fun x => negb (m_n x =? a)). split; auto.
        pose proof (obj_cmd_filter a o) as Ho.
        destruct (obj_set_cmd a o) as [o' r]. cbn [fst] in *. cbn [app all_msgs flat_map entry_msgs].
        rewrite Ho; auto.
        apply (all_msgs_nth (EObj o :: es) 0 o); auto.
    + cbn [all_msgs flat_map] in Hd. rewrite map_app in Hd.
      apply NoDup_app_inv in Hd as [_ Hd]. specialize (IH Hd).
      destruct (cmd_entries c t k a es) as [r' res]. cbn [fst] in *.
      destruct IH as [IH|(l1 & e1 & l2 & q & He & IH)].
      * left. cbn [all_msgs flat_map]. fold (all_msgs r'). fold (all_msgs es).
        rewrite filter_id by auto. rewrite IH, filter_id by auto. reflexivity.
      * right. exists (e :: l1), e1, l2, q. subst es. split; auto.
        cbn [all_msgs flat_map]. fold (all_msgs r'). fold (all_msgs l1).
        rewrite IH, app_assoc. reflexivity.
Qed.

Lemma NoDup_map_sub {A B} (f : A -> B) l1 l2 q l3 :
  NoDup (map f (l1 ++ l2 ++ l3)) -> NoDup (map f (l1 ++ filter q l2 ++ l3)).
Proof.
  assert (P : forall (l : list A), NoDup (map f (l ++ l2)) -> NoDup (map f (l ++ filter q l2))).
  { clear. intros l. induction l2 as [|x l2 IH] in l |- *; cbn [filter]; auto.
    intros H. destruct (q x).
    - specialize (IH (l ++ [x])). rewrite <- !app_assoc in IH. auto.
    - apply IH. clear IH. rewrite map_app in *. cbn [map] in H.
      apply NoDup_remove_1 in H. exact H. }
  intros H. assert (Hp : Permutation (l1 ++ l2 ++ l3) ((l3 ++ l1) ++ l2)).
  { rewrite !app_assoc. apply Permutation_app_tail with (tl := []) || idtac.
    rewrite <- (app_assoc l3 l1 l2). apply Permutation_app_comm. }
  assert (Hp' : Permutation (l1 ++ filter q l2 ++ l3) ((l3 ++ l1) ++ filter q l2)).
  { rewrite <- (app_assoc l3 l1 _). rewrite app_assoc. apply Permutation_app_comm. }
  apply (Permutation_NoDup (Permutation_map f (Permutation_sym Hp'))).
  apply P. apply (Permutation_NoDup (Permutation_map f Hp)). exact H.
Qed.

Lemma all_msgs_next fl es : forall i, all_msgs (next_entries fl i es) = all_msgs es.
Proof.
  induction es as [|e es IH]; intros i; cbn [next_entries all_msgs flat_map]; auto.
  fold (all_msgs (next_entries fl (S i) es)). rewrite IH. destruct e; reflexivity.
Qed.

Lemma counter_cmd c t k a m : em_counter (em_set_cmd c t k a m) = em_counter m.
Proof. unfold em_set_cmd. destruct (cmd_entries _ _ _ _ _). reflexivity. Qed.

Lemma fresh_step m o : fresh m -> fresh (em_step m o).
Proof.
  intros [Hd Hb]. destruct o as [fl|c t k a|i t x]; cbn [em_step].
  - rewrite em_evaluate_eq. unfold fresh. cbn [em_entries em_counter].
    rewrite all_msgs_next. auto.
  - unfold fresh. rewrite counter_cmd.
    assert (He : em_entries (em_set_cmd c t k a m) = fst (cmd_entries c t k a (em_entries m))).
    { unfold em_set_cmd. destruct (cmd_entries _ _ _ _ _). reflexivity. }
    rewrite He. destruct (cmd_msgs c t k a (em_entries m) Hd) as (p & [E|(l1 & e & l2 & q & E1 & E2)]).
    + rewrite E. split.
      * pose proof (NoDup_map_sub m_n [] (all_msgs (em_entries m)) p []) as G.
        cbn [app] in G. rewrite !app_nil_r in G. auto.
      * intros y Hy. apply filter_In in Hy. apply Hb. tauto.
    + rewrite E2. assert (Ea : all_msgs (em_entries m) = all_msgs l1 ++ entry_msgs e ++ all_msgs l2).
      { rewrite E1. unfold all_msgs. rewrite flat_map_app. reflexivity. }
      rewrite Ea in *. split.
      * apply NoDup_map_sub. auto.
      * intros y Hy. apply Hb. rewrite !in_app_iff in *. rewrite filter_In in Hy. tauto.
  - unfold em_message. destruct (nth_error (em_entries m) i) as [[d|o]|] eqn:E; [split; auto| |split; auto].
    destruct (set_err_msg (em_counter m) o t x) as [c o'] eqn:Es.
    unfold fresh. cbn [em_entries em_counter].
    apply nth_error_split in E as (l1 & l2 & E & Hl). rewrite E in *.
    rewrite firstn_app, skipn_app. subst i.
    rewrite Nat.sub_diag, firstn_all. cbn [firstn]. rewrite app_nil_r.
    rewrite skipn_all2 by lia. replace (S (length l1) - length l1)%nat with 1%nat by lia.
    cbn [skipn app].
    unfold all_msgs in *. rewrite flat_map_app in *. cbn [flat_map entry_msgs] in *.
    fold (all_msgs l1) in *. fold (all_msgs l2) in *.
    unfold set_err_msg in Es. injection Es as <- Eo.
    destruct (length (oe_msgs o) <? E_MAX_ERRORS_SIZE)%nat; subst o'; cbn [oe_msgs].
    + set (nm := {| m_n := em_counter m + 1; m_type := t; m_text := x |}).
      assert (Hp : Permutation (all_msgs l1 ++ (oe_msgs o ++ [nm]) ++ all_msgs l2)
                     (nm :: all_msgs l1 ++ oe_msgs o ++ all_msgs l2)).
      { symmetry. rewrite <- !app_assoc. cbn [app].
        rewrite (app_assoc (all_msgs l1) (oe_msgs o) (all_msgs l2)).
        rewrite (app_assoc (all_msgs l1) (oe_msgs o) (nm :: all_msgs l2)).
        apply Permutation_middle. }
      split.
      * apply (Permutation_NoDup (Permutation_map m_n (Permutation_sym Hp))).
        cbn [map]. constructor; auto. rewrite in_map_iff. intros (y & Hy & Hin).
        apply Hb in Hin. cbn [m_n nm] in Hy. lia.
      * intros y Hy. apply (Permutation_in _ Hp) in Hy. destruct Hy as [<-|Hy].
        -- cbn. lia.
        -- apply Hb in Hy. lia.
    + split; auto. intros y Hy. apply Hb in Hy. lia.
Qed.

Lemma fresh_run ops : forall m, fresh m -> fresh (em_run m ops).
Proof.
  induction ops as [|o ops IH]; intros m H; auto. unfold em_run. cbn [fold_left].
  apply IH. apply fresh_step. auto.
Qed.

Lemma is_obj_step m o j : is_obj (em_entries (em_step m o)) j = is_obj (em_entries m) j.
Proof.
  unfold is_obj. destruct o as [fl|c t k a|i t x]; cbn [em_step].
  - rewrite em_evaluate_eq. cbn [em_entries]. rewrite nth_next_entries.
    destruct (nth_error (em_entries m) j) as [[]|]; reflexivity.
  - rewrite set_cmd_nth. destruct (nth_error (em_entries m) j) as [[]|]; auto;
      destruct (_ && _); reflexivity.
  - rewrite message_nth. destruct (nth_error (em_entries m) j) as [[]|]; reflexivity.
Qed.

Lemma q_events_ext f g i ty n ops : (forall j, f j = g j) -> forall c,
  q_events f i ty n c ops = q_events g i ty n c ops.
Proof.
  intros H. induction ops as [|[]]; intros c; cbn [q_events]; auto.
  - rewrite IHops. auto.
  - rewrite H. rewrite !IHops. auto.
Qed.

Lemma counter_step m o : em_counter (em_step m o) =
  match o with OMsg j _ _ => if is_obj (em_entries m) j then em_counter m + 1 else em_counter m
             | _ => em_counter m end.
Proof.
  destruct o; cbn [em_step].
  - rewrite em_evaluate_eq. reflexivity.
  - apply counter_cmd.
  - unfold em_message, is_obj. destruct (nth_error _ _) as [[]|]; reflexivity.
Qed.

Lemma queue_refines ops : forall m i o ty n,
  fresh m -> nth_error (em_entries m) i = Some (EObj o) ->
  first_at (em_entries m) i ty n ->
  exists o', nth_error (em_entries (em_run m ops)) i = Some (EObj o') /\
    oe_msgs o' = fold_left q_step
      (q_events (is_obj (em_entries m)) i ty n (em_counter m) ops) (oe_msgs o).
Proof.
  intros m i o ty n Hfr Ho Hf.
  destruct (first_at_bool _ _ _ _ Hf) as (Ha & Hp). clear Hf.
  revert m o Hfr Ho Ha Hp.
  induction ops as [|op ops IH]; intros m o Hfr Ho Ha Hp.
  - exists o. split; auto.
  - assert (Hfr' := fresh_step m op Hfr).
    assert (Ha' : option_map (addr ty n) (nth_error (em_entries (em_step m op)) i) = Some true).
    { rewrite step_addr. auto. }
    assert (Hp' : existsb (addr ty n) (firstn i (em_entries (em_step m op))) = false).
    { rewrite <- Hp. apply existsb_firstn_ext. intros. apply step_addr. }
    assert (Hnd : NoDup (map m_n (oe_msgs o))).
    { destruct Hfr. eapply all_msgs_nth; eauto. }
    assert (Hex : exists o1, nth_error (em_entries (em_step m op)) i = Some (EObj o1) /\
      forall q, q = oe_msgs o ->
      fold_left q_step (q_events (is_obj (em_entries m)) i ty n (em_counter m) (op :: ops)) q =
      fold_left q_step (q_events (is_obj (em_entries (em_step m op))) i ty n
                          (em_counter (em_step m op)) ops) (oe_msgs o1)).
    { assert (Hadd : addr ty n (EObj o) = true).
      { rewrite Ho in Ha. cbn [option_map] in Ha. congruence. }
      destruct op as [fl|c t k a|j t x].
      - cbn [em_step]. rewrite em_evaluate_eq. cbn [em_entries em_counter]. rewrite nth_next_entries, Ho.
        cbn [option_map entry_next]. eexists; split; [reflexivity|]. intros q ->.
        cbn [q_events obj_next oe_msgs]. f_equal. apply q_events_ext. intros j.
        pose proof (is_obj_step m (OEval fl) j) as Hj. cbn [em_step] in Hj.
        rewrite em_evaluate_eq in Hj. cbn [em_entries] in Hj. auto.
      - rewrite counter_step. cbn [q_events].
        rewrite (q_events_ext _ (is_obj (em_entries (em_step m (OCmd c t k a))))) by
          (intros; symmetry; apply is_obj_step).
        cbn [em_step]. rewrite set_cmd_nth, Ho.
        destruct ((t =? ty) && (k =? n)) eqn:E.
        + assert (t = ty /\ k = n) as [-> ->] by lia.
          rewrite Hadd, Hp. cbn [andb negb entry_cmd]. eexists; split; [reflexivity|].
          intros q ->. cbn [app fold_left q_step]. rewrite obj_cmd_filter by auto. reflexivity.
        + assert (addr t k (EObj o) = false) as ->.
          { unfold addr in *. lia. }
          cbn [andb app]. eexists; split; [reflexivity|]. intros q ->. reflexivity.
      - rewrite counter_step. cbn [q_events].
        rewrite (q_events_ext _ (is_obj (em_entries (em_step m (OMsg j t x)))) i ty n ops
          ltac:(intros; symmetry; apply is_obj_step)).
        rewrite (q_events_ext _ (is_obj (em_entries (em_step m (OMsg j t x)))) i ty n ops
          ltac:(intros; symmetry; apply is_obj_step)).
        cbn [em_step]. rewrite message_nth, Ho.
        destruct (Nat.eqb_spec i j) as [<-|Hne].
        + assert (Hi : is_obj (em_entries m) i = true) by (unfold is_obj; rewrite Ho; auto).
          rewrite Hi, Nat.eqb_refl. eexists; split; [reflexivity|]. intros q ->.
          cbn [app fold_left q_step]. unfold post, set_err_msg, E_MAX_ERRORS_SIZE. cbn [snd].
          destruct (_ <? _)%nat; reflexivity.
        + eexists; split; [reflexivity|]. intros q ->.
          destruct (is_obj (em_entries m) j); auto.
          destruct (Nat.eqb_spec j i); [congruence|]. reflexivity. }
    destruct Hex as (o1 & Ho1 & Hq).
    destruct (IH (em_step m op) o1 Hfr' Ho1 Ha' Hp') as (o' & Ho' & Hq').
    exists o'. split; [exact Ho'|]. rewrite Hq', (Hq (oe_msgs o) eq_refl). reflexivity.
Qed.

(** * C10 *)

Definition siren_active (s : siren) : Prop := s_present s = true /\ s_manual s = 0.

Lemma siren_eval_const s i : siren_active s ->
  siren_active (siren_eval s i) /\ s_st_time (siren_eval s i) = s_st_time s /\
  s_builtin (siren_eval s i) = s_builtin s /\
  s_crit_n (siren_eval s i) = cm_id (i_crit i).
Proof.
  intros [Hp Hm]. unfold siren_eval, siren_active. rewrite Hp. cbn [negb].
  destruct (_ || _); [cbn; auto|].
  destruct (if _ || _ then _ else _) as [r rb]. destruct (if f_msg _ then _ else _) as [y yb].
  cbn. auto.
Qed.

Lemma siren_eval_srn s i : siren_active s ->
  s_srn (siren_eval s i) =
  if ready (s_st_time s) i
  then alarm_now i && (f_new (i_flags i) || negb (cm_id (i_crit i) =? s_crit_n s) || s_srn s)
  else s_srn s.
Proof.
  intros [Hp Hm]. unfold siren_eval, ready, alarm_now. rewrite Hp, Hm.
  change (0 =? 0) with true. cbn [negb]. rewrite orb_false_r.
  destruct (Z.ltb_spec (i_delta i (s_st_time s)) 5000).
  - replace (5000 <=? i_delta i (s_st_time s)) with false by lia. reflexivity.
  - replace (5000 <=? i_delta i (s_st_time s)) with true by lia.
    destruct (if _ || _ then _ else _) as [r rb]. destruct (if f_msg _ then _ else _) as [y yb].
    cbn [s_srn].
    destruct (crit_any (i_crit i)), (f_noack (i_flags i)), (f_new (i_flags i)),
      (cm_id (i_crit i) =? s_crit_n s), (s_srn s); reflexivity.
Qed.

Lemma siren_run_const l : forall s, siren_active s ->
  siren_active (siren_run s l) /\ s_st_time (siren_run s l) = s_st_time s /\
  s_builtin (siren_run s l) = s_builtin s /\
  s_crit_n (siren_run s l) = prev_id (s_crit_n s) l (length l).
Proof.
  induction l as [|i l IH] using rev_ind; intros s Hs.
  - cbn. repeat split; auto; apply Hs.
  - unfold siren_run in *. rewrite fold_left_app. cbn [fold_left].
    destruct (IH s Hs) as (H1 & H2 & H3 & H4).
    destruct (siren_eval_const _ i H1) as (K1 & K2 & K3 & K4).
    split; [auto|]. split; [congruence|]. split; [congruence|].
    rewrite K4, app_length. cbn [length]. rewrite Nat.add_1_r. unfold prev_id.
    rewrite nth_error_app2, Nat.sub_diag by lia. reflexivity.
Qed.

Lemma prev_id_app n0 l l' k : (k <= length l)%nat -> prev_id n0 (l ++ l') k = prev_id n0 l k.
Proof.
  intros H. unfold prev_id. destruct k; auto. rewrite nth_error_app1 by lia. reflexivity.
Qed.

Lemma trigger_app n0 l i k : (k < length l)%nat ->
  trigger n0 (l ++ [i]) k <-> trigger n0 l k.
Proof.
  intros H. unfold trigger. rewrite nth_error_app1 by auto. rewrite prev_id_app by lia. tauto.
Qed.

Lemma alarm_since_app st l i k : (k <= length l)%nat ->
  alarm_since st (l ++ [i]) k <->
  alarm_since st l k /\ (ready st i = true -> alarm_now i = true).
Proof.
  intros Hk. unfold alarm_since. split.
  - intros H. split.
    + intros j x Hj Hn. apply (H j); auto. rewrite nth_error_app1; auto.
      apply nth_error_Some. congruence.
    + apply (H (length l)); auto. rewrite nth_error_app2, Nat.sub_diag; auto.
  - intros [H1 H2] j x Hj Hn Hr. destruct (Nat.lt_ge_cases j (length l)).
    + rewrite nth_error_app1 in Hn by auto. eauto.
    + rewrite nth_error_app2 in Hn by auto.
      destruct (j - length l)%nat as [|j']; [|destruct j'; discriminate].
      injection Hn as <-. auto.
Qed.

Lemma siren_sounds l : forall s, siren_active s ->
  s_srn (siren_run s l) = true <->
  (exists k i, nth_error l k = Some i /\ ready (s_st_time s) i = true /\
      trigger (s_crit_n s) l k /\ alarm_since (s_st_time s) l k)
  \/ (s_srn s = true /\ alarm_since (s_st_time s) l 0).
Proof.
  induction l as [|i l IH] using rev_ind; intros s Hs.
  - cbn. split.
    + intros H. right. split; auto. intros [|j] x _ Hn; discriminate.
    + intros [(k & x & Hn & _)|[H _]]; auto. destruct k; discriminate.
  - destruct (siren_run_const l s Hs) as (H1 & H2 & H3 & H4).
    assert (Er : siren_run s (l ++ [i]) = siren_eval (siren_run s l) i).
    { unfold siren_run. rewrite fold_left_app. reflexivity. }
    rewrite Er, (siren_eval_srn _ i H1), H2, H4. clear Er.
    assert (Htr : trigger (s_crit_n s) (l ++ [i]) (length l) <->
              f_new (i_flags i) || negb (cm_id (i_crit i) =? prev_id (s_crit_n s) l (length l)) = true).
    { unfold trigger. rewrite nth_error_app2, Nat.sub_diag by auto. cbn [nth_error].
      rewrite prev_id_app by auto. rewrite orb_true_iff, negb_true_iff, Z.eqb_neq. split.
      - intros (x & E & H). injection E as <-. exact H.
      - intros H. exists i. auto. }
    assert (Hlast : nth_error (l ++ [i]) (length l) = Some i).
    { rewrite nth_error_app2, Nat.sub_diag by auto. reflexivity. }
    assert (Hsl : alarm_since (s_st_time s) (l ++ [i]) (length l) <->
                  (ready (s_st_time s) i = true -> alarm_now i = true)).
    { rewrite alarm_since_app by auto. split; [tauto|]. intros H. split; auto.
      intros j x Hj Hn. exfalso. assert (j < length l)%nat by (apply nth_error_Some; congruence). lia. }
    destruct (ready (s_st_time s) i) eqn:Hr.
    + rewrite andb_true_iff, orb_true_iff, (IH s Hs), <- Htr. split.
      * intros [Ha [Ht|[(k & x & Hn & Hrx & Htk & Hak)|[Hs0 Ha0]]]].
        -- left. exists (length l), i. rewrite Hsl. auto.
        -- assert (k < length l)%nat by (apply nth_error_Some; congruence).
           left. exists k, x. rewrite nth_error_app1, trigger_app, alarm_since_app by lia. auto.
        -- right. rewrite alarm_since_app by lia. auto.
      * intros [(k & x & Hn & Hrx & Htk & Hak)|[Hs0 Ha0]].
        -- destruct (Nat.lt_ge_cases k (length l)) as [Hk|Hk].
           ++ rewrite nth_error_app1 in Hn by auto. rewrite trigger_app in Htk by auto.
              rewrite alarm_since_app in Hak by lia. destruct Hak as [Hak Hi].
              split; [auto|]. right. left. exists k, x. auto.
           ++ assert (k = length l).
              { assert (k < length (l ++ [i]))%nat by (apply nth_error_Some; congruence).
                rewrite app_length in *. cbn in *. lia. }
              subst k. rewrite Hsl in Hak. auto.
        -- rewrite alarm_since_app in Ha0 by lia. destruct Ha0. auto.
    + rewrite (IH s Hs). split.
      * intros [(k & x & Hn & Hrx & Htk & Hak)|[Hs0 Ha0]].
        -- assert (k < length l)%nat by (apply nth_error_Some; congruence).
           left. exists k, x. rewrite nth_error_app1, trigger_app, alarm_since_app by lia.
           repeat split; auto. congruence.
        -- right. rewrite alarm_since_app by lia. repeat split; auto. congruence.
      * intros [(k & x & Hn & Hrx & Htk & Hak)|[Hs0 Ha0]].
        -- destruct (Nat.lt_ge_cases k (length l)) as [Hk|Hk].
           ++ rewrite nth_error_app1 in Hn by auto. rewrite trigger_app in Htk by auto.
              rewrite alarm_since_app in Hak by lia. left. exists k, x. tauto.
           ++ assert (k = length l).
              { assert (k < length (l ++ [i]))%nat by (apply nth_error_Some; congruence).
                rewrite app_length in *. cbn in *. lia. }
              subst k. rewrite Hlast in Hn. congruence.
        -- rewrite alarm_since_app in Ha0 by lia. right. tauto.
Qed.

Lemma lamps s i : siren_active s -> ready (s_st_time s) i = true ->
  let s' := siren_eval s i in
  s_green s' = i_important i /\
  (s_red s' = true -> crit_any (i_crit i) || f_any (i_flags i) = true) /\
  (s_yellow s' = true -> f_msg (i_flags i) = true) /\
  (s_builtin s <> 0 -> s_red s' = (crit_any (i_crit i) || f_any (i_flags i))).
Proof.
  intros [Hp Hm] Hr. cbn zeta. unfold siren_eval, ready in *. rewrite Hp, Hm.
  change (0 =? 0) with true. cbn [negb]. rewrite orb_false_r.
  replace (i_delta i (s_st_time s) <? 5000) with false by lia.
  destruct (crit_any (i_crit i) || f_any (i_flags i)).
  - destruct (Z.eqb_spec (s_builtin s) 0); cbn [negb].
    + destruct (blink_step _ _ _ (s_rb s)). destruct (f_msg (i_flags i)).
      * destruct (blink_step _ _ _ (s_yb s)). cbn. repeat split; auto; try contradiction.
      * cbn. repeat split; auto; try discriminate; try contradiction.
    + destruct (f_msg (i_flags i)).
      * destruct (blink_step _ _ _ (s_yb s)). cbn. repeat split; auto.
      * cbn. repeat split; auto; discriminate.
  - destruct (f_msg (i_flags i)).
    + destruct (blink_step _ _ _ (s_yb s)). cbn. repeat split; auto; discriminate.
    + cbn. repeat split; auto; discriminate.
Qed.

(** Blinking: while an error is present the red lamp is lit at least once in
    any three consecutive evaluations more than 250 ms apart. *)
Definition rb_ok (now : Z) (s : siren) : Prop :=
  (b_step (s_rb s) = 0 \/ b_step (s_rb s) = 1) /\ b_wait (s_rb s) <= now.

Lemma red_step s i : siren_active s -> s_builtin s = 0 -> ready (s_st_time s) i = true ->
  crit_any (i_crit i) || f_any (i_flags i) = true ->
  (forall t, t <= i_now i -> i_delta i t = i_now i - t) ->
  rb_ok (i_now i) s ->
  let s' := siren_eval s i in
  rb_ok (i_now i) s' /\
  (b_step (s_rb s) = 0 -> s_red s' = true) /\
  (b_step (s_rb s) = 1 ->
     (b_step (s_rb s') = 0 \/
      b_step (s_rb s') = 1 /\ b_wait (s_rb s') = b_wait (s_rb s)) /\
     (i_now i - b_wait (s_rb s) > 250 -> b_step (s_rb s') = 0)).
Proof.
  intros [Hp Hm] Hb Hr He Hd [Hst Hw]. cbn zeta. unfold siren_eval, ready in *.
  rewrite Hp, Hm, Hb, He. change (0 =? 0) with true. cbn [negb]. rewrite orb_false_r.
  replace (i_delta i (s_st_time s) <? 5000) with false by lia.
  destruct (if f_msg (i_flags i) then _ else _) as [y yb].
  unfold blink_step, rb_ok.
  destruct Hst as [Hst|Hst]; rewrite Hst; cbn [Z.eqb].
  - destruct (i_delta i (b_blink (s_rb s)) >? 250); cbn [s_rb s_red b_step b_wait];
      repeat split; auto; lia.
  - cbn [Pos.eqb]. rewrite (Hd (b_wait (s_rb s)) Hw).
    destruct (Z.gtb_spec (i_now i - b_wait (s_rb s)) 250);
      cbn [s_rb s_red b_step b_wait]; repeat split; auto; lia.
Qed.

Lemma red_blinks s i1 i2 i3 : siren_active s -> s_builtin s = 0 ->
  (forall i, In i [i1; i2; i3] -> ready (s_st_time s) i = true /\
     crit_any (i_crit i) || f_any (i_flags i) = true /\
     (forall t, t <= i_now i -> i_delta i t = i_now i - t)) ->
  rb_ok (i_now i1) s -> i_now i1 + 250 < i_now i2 -> i_now i2 <= i_now i3 ->
  s_red (siren_run s [i1]) = true \/ s_red (siren_run s [i1; i2]) = true \/
  s_red (siren_run s [i1; i2; i3]) = true.
Proof.
  intros Ha Hb Hi Hok H12 H23. unfold siren_run. cbn [fold_left].
  destruct (Hi i1) as (R1 & E1 & D1); [cbn; auto|].
  destruct (Hi i2) as (R2 & E2 & D2); [cbn; auto|].
  destruct (Hi i3) as (R3 & E3 & D3); [cbn; auto|]. clear Hi.
  destruct (red_step s i1 Ha Hb R1 E1 D1 Hok) as (Hok1 & Z1 & O1).
  destruct (siren_eval_const s i1 Ha) as (Ha1 & T1 & B1 & _).
  set (s1 := siren_eval s i1) in *.
  assert (Hok1' : rb_ok (i_now i2) s1) by (destruct Hok1; split; auto; lia).
  destruct (red_step s1 i2 Ha1 ltac:(congruence) ltac:(congruence) E2 D2 Hok1') as (Hok2 & Z2 & O2).
  destruct (siren_eval_const s1 i2 Ha1) as (Ha2 & T2 & B2 & _).
  set (s2 := siren_eval s1 i2) in *.
  assert (Hok2' : rb_ok (i_now i3) s2) by (destruct Hok2; split; auto; lia).
  destruct (red_step s2 i3 Ha2 ltac:(congruence) ltac:(congruence) E3 D3 Hok2') as (_ & Z3 & _).
  destruct Hok as [[Hs|Hs] Hw]; [auto|].
  destruct (O1 Hs) as [[Hs1|[Hs1 Hw1]] _]; [auto|].
  destruct (O2 Hs1) as [_ Hs2]. right. right. apply Z3. apply Hs2. lia.
Qed.
