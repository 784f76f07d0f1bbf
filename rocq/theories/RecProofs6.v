(** Recipes: the program from its start, and the storage that is never written. *)
From Coq Require Import ZArith List Bool Lia String.
From Verif Require Import Base TimeModel FTextModel FTextSpec FTextProofs FTextProofs2 RecModel RecSpec RecProofs RecProofs2 RecProofs3 RecProofs4 RecProofs5.
Import ListNotations.
Open Scope list_scope.
Open Scope Z_scope.

Lemma fresh_sized cnt pcnt : 0 < cnt < 2 ^ 31 -> 0 < pcnt < 2 ^ 31 -> sized (fresh cnt pcnt).
Proof.
  intros C P. unfold sized, fresh. cbn [s_cnt s_pcnt s_recs s_act]. rewrite repeat_length.
  repeat split; try lia. apply Forall_forall. intros r R. apply repeat_spec in R. subst r. cbn [r_par]. rewrite repeat_length. lia.
Qed.
Lemma created cnt pcnt f s : 0 < cnt < 2 ^ 31 -> 0 < pcnt < 2 ^ 31 -> create cnt pcnt f = Some s ->
  sized s /\ s_cnt s = cnt /\ s_pcnt s = pcnt.
Proof.
  intros C P H. assert (T : touch (fun _ => True) (fun _ => True) f (fresh cnt pcnt) s) by (apply T_load; exact H).
  apply touch_sized in T; [|apply fresh_sized; assumption]. exact T.
Qed.
Lemma booted_at g i s : booted g -> nth_error (g_st g) i = Some s ->
  exists cnt pcnt, 0 < cnt < 2 ^ 31 /\ 0 < pcnt < 2 ^ 31 /\ create cnt pcnt (nth i (f_rec g) None) = Some s /\ writable s.
Proof.
  intros (B & _) H. revert i H. induction B as [|s0 f l fs X _ IH]; intros [|i] H; try discriminate; cbn [nth_error nth] in *.
  - assert (s0 = s) by congruence. subst. exact X.
  - apply IH. exact H.
Qed.
Lemma booted_shape g : booted g -> shape g.
Proof.
  intros B. pose proof (booted_at g) as AT. pose proof B as (B1 & B2 & B3). split; [|split; [|split]].
  - apply forall_at. intros i s H. destruct (AT i s B H) as (c & p & C & P & E & _). apply created in E; tauto.
  - symmetry. clear - B1. induction B1; cbn; congruence.
  - exact B2.
  - eapply Forall_impl; [|exact B3]. intros a (s & S & L). exists (s_cnt s). split; [|lia]. rewrite nth_error_map, S. reflexivity.
Qed.
Lemma booted_files g : booted g -> files_ok g.
Proof.
  intros B i s H. destruct (booted_at g i s B H) as (c & p & C & P & E & W). destruct (created c p _ s C P E) as (S & EC & EP).
  split; [exact S|]. split; [exact W|]. split; [lia|]. exists s. rewrite EC, EP. split; [exact E|]. split; [exact W|]. right.
  clear - W. unfold writable in W. induction W as [|r l [_ R] _ IH]; constructor; [apply same_recipe_refl; exact R|exact IH].
Qed.
Lemma orderly_calm e : orderly e <-> calm e.
Proof. destruct e; cbn; tauto. Qed.
Lemma orderly_all l : Forall orderly l -> Forall calm l.
Proof. apply Forall_impl. intros e. apply orderly_calm. Qed.
Lemma paired_disk s f : paired s f -> s_changed s = true \/ on_disk s f.
Proof. intros (_ & _ & _ & s' & E & _ & [C|C]); [left; exact C|right; exists s'; split; assumption]. Qed.

Lemma ticks_content w ok i s : forall nows g g1, shape g -> rrun w g (map (fun n => Tick n ok) nows) = Some g1 ->
  nth_error (g_st g) i = Some s -> exists s1, nth_error (g_st g1) i = Some s1 /\ s_recs s1 = s_recs s.
Proof.
  intros nows. revert s. induction nows as [|n nows IH]; intros s g g1 S R H; cbn [map rrun rstep] in R.
  - assert (g1 = g) by congruence. subst. eauto.
  - destruct (evaluate w n ok g) as [g2|] eqn:E; [|discriminate]. destruct (tick_at w n ok g g2 S E) as (_ & _ & _ & _ & X).
    assert (S2 : shape g2) by (apply (shape_step w g (Tick n ok) g2 S E)).
    destruct (X i s H) as [[Y _]|(_ & Y & _)].
    + exact (IH s g2 g1 S2 R Y).
    + destruct (IH _ g2 g1 S2 R Y) as (s1 & A & B). exists s1. split; [exact A|exact B].
Qed.

(** * A storage behind one that changes all the time *)

(** Before each evaluation the first storage gets a new value. *)
Fixpoint busy (b : bool) (nows : list Z) : list rev :=
  match nows with
  | [] => []
  | n :: r => SetPar 0 1 1 (if b then 1065353216 else 1073741824) :: Tick n true :: busy (negb b) r
  end.
Definition one_par (c : bool) (v : Z) : storage := mkS 1 1 0 c [mkR (codes "A") [v]].

Lemma busy_run w fa ft ob ta to s1 f1 : s_changed s1 = true ->
  forall nows (b : bool) t f0, spaced w t nows ->
  exists f0' t', rrun w (mkG [one_par false (if b then 1073741824 else 1065353216); s1] [] ob ta t to [f0; f1] fa ft) (busy b nows) =
    Some (mkG [one_par false (if xorb b (Nat.odd (List.length nows)) then 1073741824 else 1065353216); s1] [] ob ta t' to [f0'; f1] fa ft).
Proof.
  intros C. induction nows as [|n nows IH]; intros b t f0 SP.
  - exists f0, t. cbn. rewrite xorb_false_r. reflexivity.
  - cbn [spaced] in SP. destruct SP as [SP1 SP2].
    cbn [busy rrun rstep].
    assert (E : on_storage (mkG [one_par false (if b then 1073741824 else 1065353216); s1] [] ob ta t to [f0; f1] fa ft) 0
                  (fun s => setRecPar s 1 1 (if b then 1065353216 else 1073741824)) =
            Some (mkG [one_par true (if negb b then 1073741824 else 1065353216); s1] [] ob ta t to [f0; f1] fa ft))
      by (destruct b; reflexivity).
    rewrite E.
    unfold evaluate. cbn [t_rec t_ad t_obj g_ad f_ad g_st f_rec eval_ads]. unfold MIN_SAVE_INTERVAL_MS.
    repeat rewrite (proj2 (Z.ltb_lt 10000 (get_delta_millisec w n t))) by exact SP1.
    destruct (IH (negb b) n (Some (serialize (one_par true (if negb b then 1073741824 else 1065353216)))) SP2) as (f0' & t' & R).
    exists f0', t'.
    cbn [eval_sts one_par s_changed andb with_changed s_cnt s_pcnt s_act s_recs].

    destruct fa as [|fa0 fa]; cbn [g_obj f_tech andb]; (etransitivity; [exact R|]); cbn [List.length]; rewrite Nat.odd_succ, <- Nat.negb_odd, <- negb_xorb_l; f_equal; f_equal; f_equal; f_equal; destruct b, (Nat.odd (List.length nows)); reflexivity.
Qed.
