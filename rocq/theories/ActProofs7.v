(** Proofs about the actions of a step: jumps, names of devices, places of devices. *)
From Coq Require Import ZArith List Bool Lia.
From Verif Require Import Base OpModel OpSpec ActModel ActSpec ActProofs.
Import ListNotations.
Open Scope Z_scope.

(** * Jumps *)
Section Jump.
  Context (kind : Z -> Z) (active opened closed : Z -> bool).
  Lemma check_spec want l : jump_check kind active opened closed want l = true <->
    (forall d, In d l -> device_ok kind active opened closed want d).
  Proof.
    unfold jump_check. rewrite forallb_forall. split; intros H d I; specialize (H d I); revert H; unfold device_ok; change VALVE with DT_V;
      destruct (kind d =? DT_V), want; auto; destruct (active d); cbn; congruence.
  Qed.
  Lemma group_spec g : jump_check kind active opened closed true (sub 0 g) && jump_check kind active opened closed false (sub 1 g) = true
    <-> group_ok kind active opened closed g.
  Proof. rewrite andb_true_iff, !check_spec. reflexivity. Qed.

  Lemma last_default (l : list Z) d : last l d = match l with [] => d | _ => last l 0 end.
  Proof. induction l as [|x r IH]; [reflexivity|]. cbn. destruct r; [reflexivity|exact IH]. Qed.

  Lemma jump_spec g : forall next_n nx n,
    jump_groups kind active opened closed next_n nx g = Some n <->
    exists k x, nth_error g k = Some x /\ group_ok kind active opened closed x /\
                (forall j y, (j < k)%nat -> nth_error g j = Some y -> ~ group_ok kind active opened closed y) /\
                n = nth k next_n (last next_n nx).
  Proof.
    induction g as [|x r IH]; intros next_n nx n; cbn [jump_groups].
    - split; [discriminate|]. intros (k & x & H & _). destruct k; discriminate.
    - destruct (jump_check _ _ _ _ true _ && jump_check _ _ _ _ false _) eqn:G.
      + apply group_spec in G. split.
        * intros H. inversion H; subst n. exists 0%nat, x. split; [reflexivity|]. split; [exact G|]. split; [intros; lia|].
          destruct next_n; reflexivity.
        * intros (k & y & H & O & P & ->). destruct k as [|k].
          -- destruct next_n; reflexivity.
          -- exfalso. apply (P 0%nat x); [lia|reflexivity|exact G].
      + assert (G' : ~ group_ok kind active opened closed x) by (intros O; apply group_spec in O; congruence).
        rewrite IH. assert (E : forall k, nth k (tl next_n) (last (tl next_n) match next_n with [] => nx | n0 :: _ => n0 end) = nth (S k) next_n (last next_n nx)).
        { intros k. destruct next_n as [|a l]; [destruct k; reflexivity|]. cbn [tl nth].
          f_equal. rewrite (last_default (a :: l) nx), (last_default l a). destruct l; reflexivity. }
        split.
        * intros (k & y & H & O & P & ->). exists (S k), y. split; [exact H|]. split; [exact O|]. split; [|apply E].
          intros [|j] z J Z0; [cbn in Z0; inversion Z0; subst; exact G'|]. apply (P j); [lia|exact Z0].
        * intros (k & y & H & O & P & ->). destruct k as [|k]; [cbn in H; inversion H; subst; contradiction|].
          exists k, y. split; [exact H|]. split; [exact O|]. split; [|symmetry; apply E].
          intros j z J Z0. apply (P (S j)); [lia|exact Z0].
  Qed.
  Lemma jump_none g next_n nx : jump_groups kind active opened closed next_n nx g = None <->
    forall x, In x g -> ~ group_ok kind active opened closed x.
  Proof.
    revert next_n nx. induction g as [|x r IH]; intros next_n nx; cbn [jump_groups].
    - split; [intros _ x []|reflexivity].
    - destruct (jump_check _ _ _ _ true _ && jump_check _ _ _ _ false _) eqn:G.
      + apply group_spec in G. split; [discriminate|]. intros H. destruct (H x); [left; reflexivity|exact G].
      + rewrite IH. split; intros H; [intros y [<-|I]|intros y I; apply H; right; exact I].
        * intros O. apply group_spec in O. congruence.
        * apply H. exact I.
  Qed.
End Jump.

Lemma set_at_get z k l v j : nth j (set_at z k l v) z = if (j =? k)%nat then v else nth j l z.
Proof.
  revert j l. induction k as [|k IH]; intros [|j] [|x r]; cbn; try reflexivity; try (destruct j; reflexivity).
  - rewrite IH. destruct (j =? k)%nat; [reflexivity|]. destruct j; reflexivity.
  - apply IH.
Qed.
Lemma set_at_length z k l v : length (set_at z k l v) = Nat.max (length l) (S k).
Proof. revert l. induction k as [|k IH]; intros [|x r]; cbn [set_at length]; try rewrite IH; cbn [length]; lia. Qed.

(** * Places *)
Lemma app_at_get k l d j : nth j (app_at k l d) [] = nth j l [] ++ (if (j =? k)%nat then [d] else []).
Proof.
  revert j l. induction k as [|k IH]; intros [|j] [|x r]; cbn [app_at nth Nat.eqb]; rewrite ?app_nil_r; try reflexivity; try (destruct j; reflexivity).
  - rewrite IH. destruct j; reflexivity.
  - apply IH.
Qed.
Lemma cell_nil n k : cell [] n k = [].
Proof. unfold cell. destruct n; cbn; destruct k; reflexivity. Qed.
Lemma nth_repeat_nil j c : nth j (repeat ([] : list Z) c) [] = [].
Proof. revert j. induction c as [|c IH]; intros [|j]; cbn; auto. Qed.
Lemma add_dev_cell cnt g d G S n k : cell (add_dev cnt g d G S) n k = cell g n k ++ (if (n =? G)%nat && (k =? S)%nat then [d] else []).
Proof.
  unfold cell. revert n g. induction G as [|G IH]; intros [|n] [|x r]; cbn [add_dev nth Nat.eqb andb]; rewrite ?app_nil_r; try reflexivity.
  all: try (rewrite app_at_get; rewrite ?nth_repeat_nil; destruct k; reflexivity).
  all: try (rewrite nth_repeat_nil; destruct k; reflexivity).
  all: try (destruct n; destruct k; reflexivity).
  - rewrite IH. destruct n; destruct k; reflexivity.
  - apply IH.
Qed.
Lemma all_cells cnt l g n k :
  cell (fold_left (fun g x => add_dev cnt g (fst (fst x)) (snd (fst x)) (snd x)) l g) n k = cell g n k ++ placed n k l.
Proof.
  revert g. induction l as [|[[d G] S] r IH]; intros g; [cbn; rewrite app_nil_r; reflexivity|].
  cbn [fold_left]. rewrite IH, add_dev_cell. cbn [fst snd]. unfold placed. cbn [filter snd fst].
  rewrite <- app_assoc. f_equal. rewrite (Nat.eqb_sym G n), (Nat.eqb_sym S k). destruct (_ && _); reflexivity.
Qed.
Lemma add_to_get k l d j : (k < length l)%nat -> nth j (add_to k l d) [] = nth j l [] ++ (if (j =? k)%nat then [d] else []).
Proof.
  revert j l. induction k as [|k IH]; intros [|j] [|x r] H; cbn [length] in H; try lia; cbn [add_to nth Nat.eqb]; rewrite ?app_nil_r; try reflexivity.
  apply IH. lia.
Qed.
Lemma add_seat_get l d G n : (G <= length l)%nat -> nth n (add_seat l d G) [] = nth n l [] ++ (if (n =? G)%nat then [d] else []).
Proof.
  intros H. unfold add_seat. cbv zeta. destruct (Nat.leb_spec (length l) G).
  - assert (G = length l) by lia. subst G. rewrite app_length. cbn [length].
    replace (length l + 1 <=? length l)%nat with false by (symmetry; apply Nat.leb_gt; lia).
    rewrite add_to_get by (rewrite app_length; cbn; lia). f_equal.
    destruct (Nat.lt_ge_cases n (length l)).
    + apply app_nth1. assumption.
    + rewrite app_nth2 by assumption. rewrite (nth_overflow l) by assumption. destruct (n - length l)%nat as [|[|]]; reflexivity.
  - replace (length l <=? G)%nat with false by (symmetry; apply Nat.leb_gt; lia). apply add_to_get. lia.
Qed.
Lemma add_to_length k l d : length (add_to k l d) = length l.
Proof. revert l. induction k as [|k IH]; intros [|x r]; cbn; auto. Qed.
Lemma add_seat_length l d G : (G <= length l)%nat -> length (add_seat l d G) = Nat.max (length l) (S G).
Proof.
  intros H. unfold add_seat. cbv zeta. destruct (Nat.leb_spec (length l) G).
  - rewrite app_length. cbn [length]. replace (length l + 1 <=? G)%nat with false by (symmetry; apply Nat.leb_gt; lia).
    rewrite add_to_length, app_length. cbn. lia.
  - replace (length l <=? G)%nat with false by (symmetry; apply Nat.leb_gt; lia). rewrite add_to_length. lia.
Qed.
Lemma add_seat_gap l d G n : (length l < G)%nat -> nth n (add_seat l d G) [] = nth n l [].
Proof.
  intros H. unfold add_seat. cbv zeta. replace (length l <=? G)%nat with true by (symmetry; apply Nat.leb_le; lia).
  rewrite app_length. cbn [length]. replace (length l + 1 <=? G)%nat with true by (symmetry; apply Nat.leb_le; lia).
  destruct (Nat.lt_ge_cases n (length l)); [apply app_nth1; assumption|].
  rewrite app_nth2 by assumption. rewrite (nth_overflow l) by assumption. destruct (n - length l)%nat as [|[|]]; reflexivity.
Qed.

(** * Checks *)
Lemma check_first_spec kind types g : check_first kind types g = true <->
  forall l x r, In l (row g) -> l = x :: r -> In (kind x) types.
Proof.
  unfold check_first. destruct (is_empty g) eqn:E.
  - split; [|reflexivity]. intros _ l x r I ->. exfalso. unfold is_empty in E. rewrite forallb_forall in E.
    destruct g as [|y ys]; [destruct I|]. specialize (E y (or_introl eq_refl)). rewrite forallb_forall in E.
    specialize (E _ I). discriminate.
  - assert (M : main g = row g) by (destruct g; reflexivity). rewrite M, forallb_forall. split.
    + intros H l x r I ->. specialize (H _ I). cbn in H. apply existsb_exists in H as (t & T & Q). apply Z.eqb_eq in Q. congruence.
    + intros H l I. destruct l as [|x r]; [reflexivity|]. apply existsb_exists. exists (kind x). split; [eapply H; eauto|apply Z.eqb_refl].
Qed.
Lemma check_required_spec active g : check_required active g = true <-> forall d, In d (col 0 (row g)) -> active d = true.
Proof.
  unfold check_required. assert (M : sub 0 (main g) = col 0 (row g)) by (destruct g; reflexivity). rewrite <- M. destruct (is_empty g) eqn:E.
  - split; [|reflexivity]. intros _ d I. exfalso. unfold is_empty in E. rewrite forallb_forall in E.
    destruct g as [|y ys]; [destruct I|]. specialize (E y (or_introl eq_refl)). rewrite forallb_forall in E.
    unfold main, sub in I. cbn [nth] in I. destruct y as [|l ls]; [destruct I|]. specialize (E l (or_introl eq_refl)). cbn [nth] in I. destruct l; [destruct I|discriminate].
  - rewrite forallb_forall. reflexivity.
Qed.

(** * Names *)
Definition quoted (l : list (list Z)) : list Z := flat_map quote l.
Lemma joined_quoted l : l <> [] -> quoted l = joined l ++ [44; 32].
Proof.
  induction l as [|x r IH]; [congruence|]. intros _. unfold quoted in *. cbn [flat_map joined]. destruct r as [|y r].
  - cbn [flat_map]. unfold quote. rewrite app_nil_r. cbn [app]. f_equal. rewrite <- app_assoc. reflexivity.
  - rewrite IH by discriminate. unfold quote. cbn [app]. f_equal. rewrite <- !app_assoc. reflexivity.
Qed.
Lemma quoted_app l m : quoted (l ++ m) = quoted l ++ quoted m.
Proof. unfold quoted. apply flat_map_app. Qed.
Lemma bad_app l m : bad_names (l ++ m) = bad_names l ++ bad_names m.
Proof. unfold bad_names. rewrite filter_app, map_app. reflexivity. Qed.

Definition names_at (size : Z) (done : list (list Z)) (s : names) : Prop :=
  text s = quoted done /\ total s = Z.of_nat (length (quoted done)) /\ free s = size - 1 - total s.
Lemma sub_fit size l : forall done s, names_at size done s ->
  Z.of_nat (length (quoted (done ++ bad_names l))) <= size - 1 -> names_at size (done ++ bad_names l) (add_subgroup l s).
Proof.
  induction l as [|[nm bad] r IH]; intros done s N B; [unfold bad_names; cbn; rewrite app_nil_r; exact N|].
  cbn [add_subgroup]. destruct bad.
  - change (bad_names ((nm, true) :: r)) with ([nm] ++ bad_names r) in *. rewrite app_assoc in *.
    assert (Q : quoted (done ++ [nm]) = quoted done ++ quote nm) by (rewrite quoted_app; unfold quoted at 2; cbn [flat_map]; rewrite app_nil_r; reflexivity).
    assert (B1 : Z.of_nat (length (quoted done)) + Z.of_nat (length (quote nm)) <= size - 1).
    { rewrite quoted_app, Q, !app_length in B. lia. }
    destruct N as (N1 & N2 & N3).
    assert (N' : names_at size (done ++ [nm]) (add_name nm s)).
    { unfold names_at, add_name. cbn [text free total]. rewrite Q, app_length, N1, N2. split; [|lia]. f_equal.
      replace (free s <? 0) with false by lia. apply firstn_all2. lia. }
    destruct N' as (M1 & M2 & M3). cbv zeta. replace (free (add_name nm s) <? 0) with false.
    2: { symmetry. apply Z.ltb_ge. rewrite M3, M2, Q, app_length. lia. }
    apply IH; [split; auto|exact B].
  - change (bad_names ((nm, false) :: r)) with (bad_names r) in *. apply IH; assumption.
Qed.
Lemma subs_fit size x : forall done s, names_at size done s ->
  Z.of_nat (length (quoted (done ++ bad_names (concat x)))) <= size - 1 ->
  names_at size (done ++ bad_names (concat x)) (fold_left (fun s l => add_subgroup l s) x s).
Proof.
  induction x as [|l r IH]; intros done s N B; [unfold bad_names; cbn; rewrite app_nil_r; exact N|].
  cbn [fold_left concat] in *. rewrite bad_app in *. rewrite app_assoc in *. apply IH; [|exact B].
  apply sub_fit; [exact N|]. rewrite quoted_app, app_length in B. lia.
Qed.
Lemma fold_concat {A B} (f : B -> A -> B) g s : fold_left (fun s x => fold_left f x s) g s = fold_left f (concat g) s.
Proof. revert s. induction g as [|x r IH]; intros s; [reflexivity|]. cbn. rewrite IH, fold_left_app. reflexivity. Qed.
Lemma all_fit size g : 1 <= size ->
  let bad := bad_names (concat (concat g)) in
  Z.of_nat (length (quoted bad)) <= size - 1 -> names_at size bad (all_names size g).
Proof.
  intros S bad B. unfold all_names. rewrite fold_concat. apply (subs_fit size (concat g) []); [|exact B].
  unfold names_at. cbn. repeat split. lia.
Qed.
(** The list in which the buffer ends. *)
Lemma sub_over size l : forall done s, names_at size done s -> 0 <= free s ->
  size - 1 < Z.of_nat (length (quoted (done ++ bad_names l))) ->
  text (add_subgroup l s) = firstn (Z.to_nat (size - 1)) (quoted (done ++ bad_names l)) /\ free (add_subgroup l s) < 0 /\
  size - 1 < total (add_subgroup l s).
Proof.
  induction l as [|[nm bad] r IH]; intros done s N F B.
  { exfalso. destruct N as (N1 & N2 & N3). unfold bad_names in B. cbn in B. rewrite app_nil_r in B. lia. }
  cbn [add_subgroup]. destruct bad.
  - change (bad_names ((nm, true) :: r)) with ([nm] ++ bad_names r) in *. rewrite app_assoc in *.
    assert (Q : quoted (done ++ [nm]) = quoted done ++ quote nm) by (rewrite quoted_app; unfold quoted at 2; cbn [flat_map]; rewrite app_nil_r; reflexivity).
    destruct N as (N1 & N2 & N3). cbv zeta. destruct (Z.ltb_spec (free (add_name nm s)) 0) as [L|L].
    + unfold add_name in *. cbn [text free total] in *. split; [|lia].
      replace (free s <? 0) with false by lia. rewrite N1, quoted_app, Q, <- app_assoc, firstn_app.
      assert (FA : firstn (Z.to_nat (size - 1)) (quoted done) = quoted done) by (apply firstn_all2; lia). rewrite FA. f_equal. replace (Z.to_nat (size - 1) - length (quoted done))%nat with (Z.to_nat (free s)) by lia.
      rewrite firstn_app. replace (Z.to_nat (free s) - length (quote nm))%nat with 0%nat by lia. rewrite app_nil_r. reflexivity.
    + apply IH; [|exact L|exact B]. unfold names_at, add_name in *. cbn [text free total] in *.
      rewrite Q, app_length, N1, N2. split; [|lia]. f_equal. replace (free s <? 0) with false by lia. apply firstn_all2. lia.
  - change (bad_names ((nm, false) :: r)) with (bad_names r) in *. apply IH; assumption.
Qed.
Lemma sub_none l s : bad_names l = [] -> add_subgroup l s = s.
Proof.
  induction l as [|[nm bad] r IH]; [reflexivity|]. destruct bad; [discriminate|]. exact IH.
Qed.
Lemma subs_none x s : bad_names (concat x) = [] -> fold_left (fun s l => add_subgroup l s) x s = s.
Proof.
  revert s. induction x as [|l r IH]; intros s H; [reflexivity|]. cbn [concat fold_left] in *. rewrite bad_app in H.
  apply app_eq_nil in H as [H1 H2]. rewrite (sub_none l s H1). apply IH. exact H2.
Qed.
