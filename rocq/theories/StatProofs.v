(** Proofs about the washing statistics. *)
From Coq Require Import ZArith List Bool Lia.
From Verif Require Import Base FTextModel FTextProofs FTextProofs2 StatModel StatSpec.
Import ListNotations.
Open Scope Z_scope.

(** * Texts *)

Lemma c_str_text t : forall b, Forall (fun c => c <> 0) t ->
  c_str (map Some t ++ Some 0 :: b) = Some t.
Proof.
  induction t as [|c t IH]; intros b F; cbn [map app c_str]; [reflexivity|].
  inversion F; subst. destruct (Z.eqb_spec c 0); [contradiction|]. rewrite IH by assumption. reflexivity.
Qed.

Lemma put_at_end t : forall x b, put_at (map Some t ++ x :: b) (length t) 0 = map Some t ++ Some 0 :: b.
Proof. induction t as [|c t IH]; intros x b; cbn [map app put_at length]; [reflexivity|]. rewrite IH. reflexivity. Qed.

Lemma get_text_put b sl t r : (length t < length b)%nat -> (length b < 1000)%nat ->
  Forall (fun c => c <> 0) t ->
  exists b', get_text b sl (open_in (put_text t ++ r)) =
    Some (b', Some (Z.of_nat (length t)), open_in r) /\ c_str b' = Some t.
Proof.
  intros L B F. unfold get_text, put_text. cbn [app].
  change (get_char (open_in (35 :: (show_int (Z.of_nat (length t)) ++ 35 :: t) ++ r)))
    with (open_in ((show_int (Z.of_nat (length t)) ++ 35 :: t) ++ r)).
  rewrite <- app_assoc. cbn [app].
  rewrite get_int_show; [|lia|reflexivity].
  change (get_char {| left := 35 :: t ++ r; fail := false; eof := at_end (35 :: t ++ r) |})
    with (open_in (t ++ r)).
  unfold read_bytes. cbn [good open_in fail eof negb andb left].
  rewrite Nat2Z.id, firstn_app, Nat.sub_diag, firstn_O, app_nil_r, firstn_all.
  replace (length b <? length t)%nat with false by (symmetry; apply Nat.ltb_ge; lia).
  rewrite Z.eqb_refl. cbn [negb].
  replace (0 <=? Z.of_nat (length t)) with true by lia.
  replace (Z.of_nat (length t) <? Z.of_nat (length b)) with true by lia. cbn [andb].
  rewrite skipn_app, skipn_all, Nat.sub_diag, skipn_O. cbn [app].
  assert (E : exists x y, skipn (length t) b = x :: y).
  { destruct (skipn (length t) b) eqn:S; [|eauto].
    apply (f_equal (@length _)) in S. rewrite skipn_length in S. cbn in S. lia. }
  destruct E as (x & y & E). rewrite E, put_at_end.
  eexists. split; [reflexivity|]. apply c_str_text. exact F.
Qed.

Lemma get_rec_put r rest : ok_rec r ->
  get_rec (open_in (put_rec r ++ rest)) = Some (r, open_in (10 :: rest)).
Proof.
  intros (N & (I1 & I2) & (W1 & W2) & (P1 & P2) & (A1 & A2)).
  unfold get_rec, put_rec. rewrite <- !app_assoc. cbn [app].
  rewrite get_int_show; [|exact N|reflexivity].
  change {| left := put_text (r_id r) ++ ?x; fail := false; eof := _ |} with (open_in (put_text (r_id r) ++ x)).
  change (at_end (put_text (r_id r) ++ put_text (r_wash r) ++ put_text (r_prog r) ++ put_text (r_acid r) ++ 10 :: rest)) with false.
  change {| left := ?l; fail := false; eof := false |} with (open_in l).
  destruct (get_text_put (fresh ID_SIZE [116; 109; 112]) None (r_id r)
    (put_text (r_wash r) ++ put_text (r_prog r) ++ put_text (r_acid r) ++ 10 :: rest)) as (b1 & -> & C1);
    [change (length (fresh ID_SIZE [116; 109; 112])) with 96%nat; lia
    |change (length (fresh ID_SIZE [116; 109; 112])) with 96%nat; lia|exact I2|].
  destruct (get_text_put (fresh FIELD_SIZE UNKNOWN) (Some (Z.of_nat (length (r_id r)))) (r_wash r)
    (put_text (r_prog r) ++ put_text (r_acid r) ++ 10 :: rest)) as (b2 & -> & C2);
    [change (length (fresh FIELD_SIZE UNKNOWN)) with 72%nat; lia
    |change (length (fresh FIELD_SIZE UNKNOWN)) with 72%nat; lia|exact W2|].
  destruct (get_text_put (fresh FIELD_SIZE UNDEFINED) (Some (Z.of_nat (length (r_wash r)))) (r_prog r)
    (put_text (r_acid r) ++ 10 :: rest)) as (b3 & -> & C3);
    [change (length (fresh FIELD_SIZE UNDEFINED)) with 72%nat; lia
    |change (length (fresh FIELD_SIZE UNDEFINED)) with 72%nat; lia|exact P2|].
  destruct (get_text_put (fresh FIELD_SIZE UNKNOWN) (Some (Z.of_nat (length (r_prog r)))) (r_acid r)
    (10 :: rest)) as (b4 & -> & C4);
    [change (length (fresh FIELD_SIZE UNKNOWN)) with 72%nat; lia
    |change (length (fresh FIELD_SIZE UNKNOWN)) with 72%nat; lia|exact A2|].
  rewrite C1, C2, C3, C4. destruct r; reflexivity.
Qed.

Lemma get_rec_ws l : get_rec (open_in (10 :: l)) = get_rec (open_in l).
Proof. unfold get_rec. rewrite get_int_ws by reflexivity. reflexivity. Qed.

(** * The order of keys *)

Lemma text_cmp_spec a : forall b, match text_cmp a b with
  | Eq => a = b | Lt => before a b | Gt => before b a end.
Proof.
  induction a as [|x a IH]; intros [|y b]; cbn [text_cmp]; try constructor.
  destruct (Z.compare_spec x y) as [->|H|H]; [|constructor; exact H|constructor; exact H].
  specialize (IH b). destruct (text_cmp a b); [subst; reflexivity|constructor; exact IH|constructor; exact IH].
Qed.

Lemma before_trans a b c : before a b -> before b c -> before a c.
Proof.
  intros H. revert c. induction H; intros u K; inversion K; subst;
    first [apply before_end | apply before_tail; solve [auto] | apply before_char; lia].
Qed.

Lemma before_irrefl a : ~ before a a.
Proof. induction a as [|x a IH]; intros H; inversion H; subst; [lia|auto]. Qed.

Lemma text_cmp_refl a : text_cmp a a = Eq.
Proof. induction a as [|x a IH]; [reflexivity|]. cbn [text_cmp]. rewrite Z.compare_refl. exact IH. Qed.

Lemma text_cmp_gt a b : before a b -> text_cmp b a = Gt.
Proof.
  intros H. pose proof (text_cmp_spec b a) as S. destruct (text_cmp b a); [subst|exfalso|reflexivity].
  - exfalso. apply (before_irrefl a). exact H.
  - apply (before_irrefl a). eapply before_trans; eauto.
Qed.
Lemma text_cmp_eq a b : text_cmp a b = Eq <-> a = b.
Proof.
  split; [|intros ->; apply text_cmp_refl].
  intros E. pose proof (text_cmp_spec a b) as S. rewrite E in S. exact S.
Qed.

Definition all_before (k : list Z) (l : list (list Z * rec)) : Prop := forall p, In p l -> before k (fst p).

Lemma ordered_cons k r l : ordered ((k, r) :: l) <-> r_id r = k /\ all_before k l /\ ordered l.
Proof.
  revert k r. induction l as [|(k', r') l IH]; intros k r.
  - cbn. split; [intros (A & _); split; [exact A|]; split; [intros p []|exact I]|tauto].
  - split.
    + intros H. assert (O : ordered ((k', r') :: l)) by apply H. destruct H as (A & B & _).
      split; [exact A|]. split; [|exact O].
      apply IH in O. destruct O as (_ & O1 & _).
      intros p [<-|P]; [exact B|]. eapply before_trans; [exact B|]. apply O1. exact P.
    + intros (A & B & C). split; [exact A|]. split; [apply (B (k', r')); left; reflexivity|exact C].
Qed.

Lemma emplace_last k r l : ordered l -> (forall p, In p l -> before (fst p) k) ->
  emplace k r l = l ++ [(k, r)].
Proof.
  induction l as [|(k', r') l IH]; intros O B; [reflexivity|].
  cbn [emplace app]. rewrite (text_cmp_gt k' k) by (apply (B (k', r')); left; reflexivity).
  apply ordered_cons in O. rewrite IH; [reflexivity|apply O|]. intros p P. apply B. right. exact P.
Qed.

Lemma ordered_app a b : ordered (a ++ b) -> ordered a /\ ordered b /\
  forall p q, In p a -> In q b -> before (fst p) (fst q).
Proof.
  induction a as [|(k, r) a IH]; cbn [app]; intros O.
  - split; [exact I|]. split; [exact O|]. intros p q [].
  - apply ordered_cons in O. destruct O as (A & B & C). destruct (IH C) as (D & E & F).
    split; [apply ordered_cons; split; [exact A|]; split; [|exact D]|].
    + intros p P. apply B. apply in_or_app. left. exact P.
    + split; [exact E|]. intros p q [<-|P] Q; [apply B; apply in_or_app; right; exact Q|]. apply F; assumption.
Qed.

(** * The file *)

Lemma get_recs_put l : forall acc, ordered (acc ++ l) -> Forall (fun p => ok_rec (snd p)) l ->
  get_recs (length l) acc (open_in (10 :: concat (map (fun p => put_rec (snd p)) l))) = Some (acc ++ l).
Proof.
  induction l as [|(k, r) l IH]; intros acc O F; cbn [length get_recs map concat].
  - rewrite app_nil_r. reflexivity.
  - inversion F as [|? ? F1 F2]; subst. cbn [snd] in *.
    rewrite get_rec_ws, get_rec_put by exact F1.
    destruct (ordered_app _ _ O) as (O1 & O2 & O3). apply ordered_cons in O2. destruct O2 as (E & _ & _).
    rewrite E. rewrite emplace_last; [|exact O1|].
    2:{ intros p P. apply (O3 p (k, r) P). left. reflexivity. }
    rewrite IH; [|rewrite <- app_assoc; exact O|exact F2]. rewrite <- app_assoc. reflexivity.
Qed.

Lemma get_all_put l : ordered l -> Forall (fun p => ok_rec (snd p)) l -> Z.of_nat (length l) < 2 ^ 31 ->
  get_all (put_all l) = Some l.
Proof.
  intros O F L. unfold get_all, put_all. rewrite get_int_show; [|lia|reflexivity].
  rewrite Nat2Z.id. apply (get_recs_put l [] O F).
Qed.
