(** Proofs about the washing statistics: histories and files cut short. *)
From Coq Require Import ZArith List Bool Lia.
From Verif Require Import Base FTextModel FTextProofs FTextProofs2 StatModel StatSpec StatProofs.
Import ListNotations.
Open Scope Z_scope.

(** * Histories *)

Lemma emplace_in k r l p : In p (emplace k r l) -> p = (k, r) \/ In p l.
Proof.
  induction l as [|(k', r') l IH]; cbn [emplace]; [intros [<-|[]]; auto|].
  destruct (text_cmp k k'); intros H.
  - right; exact H.
  - destruct H as [<-|H]; auto.
  - destruct H as [<-|H]; [right; left; reflexivity|]. destruct (IH H); auto. right. right. assumption.
Qed.

Lemma emplace_ordered k r l : r_id r = k -> ordered l -> ordered (emplace k r l).
Proof.
  intros E. induction l as [|(k', r') l IH]; intros O; cbn [emplace].
  - cbn. auto.
  - pose proof (text_cmp_spec k k') as S. destruct (text_cmp k k').
    + exact O.
    + apply ordered_cons. split; [exact E|]. split; [|exact O].
      apply ordered_cons in O. destruct O as (_ & B & _).
      intros p [<-|P]; [exact S|]. eapply before_trans; [exact S|]. apply B. exact P.
    + apply ordered_cons in O. destruct O as (A & B & C). apply ordered_cons.
      split; [exact A|]. split; [|apply IH; exact C].
      intros p P. apply emplace_in in P. destruct P as [->|P]; [exact S|]. apply B. exact P.
Qed.

Lemma emplace_length k r l : (length (emplace k r l) <= S (length l))%nat.
Proof.
  induction l as [|(k', r') l IH]; cbn [emplace length]; [lia|].
  destruct (text_cmp k k'); cbn [length]; lia.
Qed.

Lemma change_keys k f l : map fst (change k f l) = map fst l.
Proof.
  induction l as [|(k', r') l IH]; cbn [change]; [reflexivity|].
  destruct (text_cmp k k'); cbn [map fst]; [reflexivity| |]; rewrite IH; reflexivity.
Qed.

Lemma change_length k f l : length (change k f l) = length l.
Proof. rewrite <- (map_length fst), change_keys, map_length. reflexivity. Qed.

Lemma change_ordered k f l : (forall r, r_id (f r) = r_id r) -> ordered l -> ordered (change k f l).
Proof.
  intros F. induction l as [|(k', r') l IH]; intros O; cbn [change]; [exact I|].
  assert (B : forall (m : list (list Z * rec)), map fst m = map fst l -> all_before k' l -> all_before k' m).
  { intros m E A p P. apply (in_map fst) in P. rewrite E in P. apply in_map_iff in P.
    destruct P as (q & <- & Q). apply A. exact Q. }
  apply ordered_cons in O. destruct O as (A1 & A2 & A3).
  destruct (text_cmp k k'); apply ordered_cons.
  - rewrite F. auto.
  - split; [exact A1|]. split; [apply B; [apply change_keys|exact A2]|auto].
  - split; [exact A1|]. split; [apply B; [apply change_keys|exact A2]|auto].
Qed.

Lemma change_ok k f l : (forall r, shown k l = Some r -> ok_rec r -> ok_rec (f r)) ->
  Forall (fun p => ok_rec (snd p)) l -> Forall (fun p => ok_rec (snd p)) (change k f l).
Proof.
  intros F. induction l as [|(k', r') l IH]; intros O; cbn [change]; [constructor|].
  inversion O as [|? ? O1 O2]; subst. cbn [shown] in F.
  destruct (text_cmp k k') eqn:E.
  - constructor; [|exact O2]. apply text_cmp_eq in E. subst.
    destruct (list_eq_dec Z.eq_dec k' k'); [|contradiction]. apply F; [reflexivity|exact O1].
  - constructor; [exact O1|]. apply IH; [|exact O2]. intros r. destruct (list_eq_dec Z.eq_dec k k') as [->|]; [|apply F].
    rewrite text_cmp_refl in E. discriminate.
  - constructor; [exact O1|]. apply IH; [|exact O2]. intros r. destruct (list_eq_dec Z.eq_dec k k') as [->|]; [|apply F].
    rewrite text_cmp_refl in E. discriminate.
Qed.

Lemma lookup_shown k l : lookup k l = shown k l.
Proof.
  induction l as [|(k', r') l IH]; [reflexivity|]. cbn [lookup shown].
  pose proof (text_cmp_spec k k') as S. rewrite IH. destruct (list_eq_dec Z.eq_dec k k') as [->|D].
  - rewrite text_cmp_refl. reflexivity.
  - destruct (text_cmp k k'); [contradiction| |]; reflexivity.
Qed.

Lemma shown_before k l : all_before k l -> shown k l = None.
Proof.
  induction l as [|(k', r') l IH]; intros A; [reflexivity|]. cbn [shown].
  destruct (list_eq_dec Z.eq_dec k k') as [->|D].
  - exfalso. apply (before_irrefl k'). apply (A (k', r')). left. reflexivity.
  - apply IH. intros p P. apply A. right. exact P.
Qed.

Lemma shown_emplace k r l x : shown k l = None ->
  shown x (emplace k r l) = if list_eq_dec Z.eq_dec x k then Some r else shown x l.
Proof.
  induction l as [|(k', r') l IH]; intros N; cbn [emplace]; [reflexivity|].
  cbn [shown] in N. destruct (list_eq_dec Z.eq_dec k k') as [->|D]; [discriminate|].
  pose proof (text_cmp_spec k k') as S. destruct (text_cmp k k'); [contradiction|reflexivity|].
  cbn [shown]. rewrite IH by exact N.
  destruct (list_eq_dec Z.eq_dec x k') as [->|]; [|reflexivity].
  destruct (list_eq_dec Z.eq_dec k' k) as [->|]; [contradiction|reflexivity].
Qed.

Lemma shown_change k f l x :
  shown x (change k f l) = if list_eq_dec Z.eq_dec x k then option_map f (shown x l) else shown x l.
Proof.
  induction l as [|(k', r') l IH]; cbn [change shown].
  - destruct (list_eq_dec Z.eq_dec x k); reflexivity.
  - pose proof (text_cmp_spec k k') as S. destruct (text_cmp k k') eqn:E.
    + subst k'. cbn [shown]. destruct (list_eq_dec Z.eq_dec x k); reflexivity.
    + cbn [shown]. rewrite IH. destruct (list_eq_dec Z.eq_dec x k') as [->|]; [|reflexivity].
      destruct (list_eq_dec Z.eq_dec k' k) as [->|]; [rewrite text_cmp_refl in E; discriminate|reflexivity].
    + cbn [shown]. rewrite IH. destruct (list_eq_dec Z.eq_dec x k') as [->|]; [|reflexivity].
      destruct (list_eq_dec Z.eq_dec k' k) as [->|]; [rewrite text_cmp_refl in E; discriminate|reflexivity].
Qed.

Definition good_recs (n : nat) (l : list (list Z * rec)) : Prop :=
  ordered l /\ Forall (fun p => ok_rec (snd p)) l /\ (length l <= n)%nat.
Definition stat_inv (n : nat) (b : base) : Prop :=
  good_recs n (b_recs b) /\
  match b_file b with None => True | Some t => exists l, t = put_all l /\ good_recs n l end.

Lemma good_more n m l : (n <= m)%nat -> good_recs n l -> good_recs m l.
Proof. intros H (A & B & C). repeat split; auto; lia. Qed.
Lemma inv_more n m b : (n <= m)%nat -> stat_inv n b -> stat_inv m b.
Proof.
  intros H (A & B). split; [eapply good_more; eauto|].
  destruct (b_file b); [|exact I]. destruct B as (l0 & -> & B). exists l0. eauto using good_more.
Qed.

Lemma ok_new id : ok_text 96 id -> ok_rec (new_rec id).
Proof.
  intros H. unfold ok_rec, new_rec. cbn [r_n r_id r_wash r_prog r_acid].
  repeat split; try lia; try apply H; try (cbn; lia);
    repeat (apply Forall_cons; [discriminate|]); apply Forall_nil.
Qed.

Lemma stat_step_inv n b e b' : stat_inv n b -> ok_event e -> Z.of_nat n < 2 ^ 31 ->
  stat_step b e = Some b' -> stat_inv (S n) b'.
Proof.
  intros V K N H. pose proof (inv_more n (S n) b ltac:(lia) V) as V'.
  destruct V as ((O & F & L) & G). destruct V' as (_ & G').
  assert (Set1 : forall k f c, (forall r, r_id (f r) = r_id r) ->
      (forall r, shown k (b_recs b) = Some r -> ok_rec r -> ok_rec (f r)) ->
      stat_inv (S n) {| b_recs := change k f (b_recs b); b_changed := c; b_file := b_file b |}).
  { intros k f c I1 I2. split; [|exact G']. cbn [b_recs].
    split; [apply change_ordered; assumption|]. split; [apply change_ok; assumption|].
    rewrite change_length. lia. }
  destruct e as [id|id|id d|id p d a|ok|]; cbn [stat_step] in H.
  - destruct (lookup id (b_recs b)); [injection H as <-|].
    + split; [|exact G']. repeat split; auto; lia.
    + destruct (fits ID_SIZE id) eqn:E; [|discriminate]. injection H as <-.
      split; [|exact G']. cbn [with_recs b_recs].
      split; [apply emplace_ordered; auto|]. split.
      * apply Forall_forall. intros p P. apply emplace_in in P. destruct P as [->|P].
        -- apply ok_new. unfold fits, ID_SIZE in E. split; [lia|exact K].
        -- rewrite Forall_forall in F. auto.
      * pose proof (emplace_length id (new_rec id) (b_recs b)). lia.
  - rewrite lookup_shown in H. destruct (shown id (b_recs b)) as [r0|] eqn:E.
    + destruct (Z.eqb_spec (r_n r0) (2 ^ 31 - 1)); [discriminate|]. injection H as <-.
      apply Set1; [reflexivity|]. intros r R (R1 & R2). rewrite E in R. injection R as <-.
      split; [cbn [r_n]; lia|exact R2].
    + injection H as <-. split; [|exact G']. repeat split; auto; lia.
  - destruct (fits FIELD_SIZE d) eqn:E; [|discriminate]. injection H as <-.
    apply Set1; [reflexivity|]. intros r _ (R1 & R2 & R3 & R4 & R5).
    unfold ok_rec. cbn [r_n r_id r_wash r_prog r_acid].
    split; [lia|]. split; [exact R2|]. split; [exact R3|]. split; [exact R4|].
    split; [unfold fits, FIELD_SIZE in E; lia|apply K].
  - destruct (fits FIELD_SIZE p && fits FIELD_SIZE d) eqn:E; [|discriminate]. injection H as <-.
    apply andb_prop in E. destruct E as (E1 & E2). unfold fits, FIELD_SIZE in *.
    destruct K as (K1 & K2 & K3).
    apply Set1; [reflexivity|]. intros r _ (R1 & R2 & R3 & R4 & R5).
    unfold ok_rec. cbn [r_n r_id r_wash r_prog r_acid].
    split; [exact R1|]. split; [exact R2|]. split; [split; [lia|exact K3]|]. split; [split; [lia|exact K2]|exact R5].
  - destruct (b_changed b); injection H as <-.
    + split; [repeat split; auto; cbn; lia|]. cbn [b_file]. destruct ok; [|exact G'].
      exists (b_recs b). split; [reflexivity|]. repeat split; auto; lia.
    + split; [|exact G']. repeat split; auto; lia.
  - destruct (b_file b) as [t|] eqn:E.
    + destruct G as (l & -> & (L1 & L2 & L3)). rewrite get_all_put in H by (auto; lia). injection H as <-.
      split; cbn [b_recs b_file].
      * repeat split; auto; lia.
      * exact G'.
    + injection H as <-. split; [|exact I]. cbn. split; [exact I|]. split; [apply Forall_nil|apply Nat.le_0_l].
Qed.

Lemma stat_run_inv h : forall n b b', stat_inv n b -> Forall ok_event h ->
  Z.of_nat (n + length h) < 2 ^ 31 -> stat_run b h = Some b' -> stat_inv (n + length h) b'.
Proof.
  induction h as [|e h IH]; intros n b b' V F L H; cbn [stat_run length] in *.
  - injection H as <-. rewrite Nat.add_0_r. exact V.
  - inversion F; subst. destruct (stat_step b e) as [b1|] eqn:E; [|discriminate].
    replace (n + S (length h))%nat with (S n + length h)%nat by lia.
    eapply IH; eauto; [|lia]. eapply stat_step_inv; eauto. lia.
Qed.

Lemma inv_init : stat_inv 0 base_init.
Proof. split; [|exact I]. cbn. split; [exact I|]. split; constructor. Qed.

Lemma stat_run_app a : forall b c, stat_run b (a ++ c) =
  match stat_run b a with None => None | Some b' => stat_run b' c end.
Proof. induction a as [|e a IH]; intros b c; cbn [app stat_run]; [reflexivity|]. destruct (stat_step b e); auto. Qed.

Lemma no_save_run es : forall b b', forallb no_save es = true -> b_changed b = false ->
  stat_run b es = Some b' -> b_file b' = b_file b /\ b_changed b' = false.
Proof.
  induction es as [|e es IH]; intros b b' N C H; cbn [stat_run forallb] in *.
  - injection H as <-. auto.
  - apply andb_prop in N. destruct N as (N1 & N2).
    destruct (stat_step b e) as [b1|] eqn:E; [|discriminate].
    assert (K : b_file b1 = b_file b /\ b_changed b1 = false).
    { destruct e as [id|id|id d|id p d a|ok|]; try discriminate; cbn [stat_step] in E.
      - destruct (lookup _ _); [injection E as <-; auto|]. destruct (fits _ _); [|discriminate]. injection E as <-. auto.
      - destruct (lookup _ _); [|injection E as <-; auto]. destruct (_ =? _); [discriminate|]. injection E as <-. auto.
      - destruct (fits _ _); [|discriminate]. injection E as <-. auto.
      - cbn [no_save] in N1. destruct a; [discriminate|]. destruct (_ && _); [|discriminate]. injection E as <-.
        cbn. rewrite C. auto.
      - rewrite C in E. injection E as <-. auto. }
    destruct K as (K1 & K2). destruct (IH _ _ N2 K2 H) as (A & B). split; congruence.
Qed.

(** * A file cut short *)

Definition ext (s : stream) (x : list Z) : stream :=
  {| left := left s ++ x; fail := fail s; eof := eof s |}.

Lemma eat_ext l x : forall n v n' v' r, eat l n v = (n', v', r) -> r <> [] ->
  eat (l ++ x) n v = (n', v', r ++ x).
Proof.
  induction l as [|c l IH]; intros n v n' v' r H R; cbn [eat app] in *.
  - injection H as <- <- <-. contradiction.
  - destruct (isdigit c); [apply IH; assumption|]. injection H as <- <- <-. reflexivity.
Qed.

Lemma skip_ws_ext l x : skip_ws l <> [] -> skip_ws (l ++ x) = skip_ws l ++ x.
Proof.
  induction l as [|c l IH]; intros H; cbn [skip_ws app] in *; [contradiction|].
  destruct (isspace c); [apply IH; exact H|reflexivity].
Qed.

Lemma good_failed s : good (failed s) = false.
Proof. reflexivity. Qed.

Definition unsign (l : list Z) : bool * list Z :=
  match l with 45 :: r => (true, r) | 43 :: r => (false, r) | _ => (false, l) end.

Lemma unsign_app c l x : unsign ((c :: l) ++ x) = (fst (unsign (c :: l)), snd (unsign (c :: l)) ++ x).
Proof.
  unfold unsign. cbn [app].
  destruct c as [|p|p]; try reflexivity.
  do 6 (destruct p as [p|p|]; try reflexivity).
Qed.

Lemma get_int_ext s x v s1 : get_int s = (v, s1) -> good s1 = true ->
  get_int (ext s x) = (v, ext s1 x).
Proof.
  unfold get_int, get_num. change (good (ext s x)) with (good s). intros H G.
  destruct (good s); [|injection H as <- <-; discriminate].
  cbn [ext left]. destruct (skip_ws (left s)) as [|c l] eqn:W; [injection H as <- <-; discriminate|].
  rewrite skip_ws_ext, W by congruence.
  change ((c :: l) ++ x) with (c :: l ++ x). cbv beta iota.
  assert (C : forall l, conv_int l = (let '(n, v, _) := eat (snd (unsign l)) 0 0 in
      let y := if fst (unsign l) then - v else v in
      if n =? 0 then (0, false) else if y <? - 2 ^ 31 then (- 2 ^ 31, false)
      else if 2 ^ 31 <=? y then (2 ^ 31 - 1, false) else (y, true))).
  { clear. intros l. unfold conv_int. fold (unsign l). destruct (unsign l). reflexivity. }
  assert (R : forall l, rest_int l = snd (eat (snd (unsign l)) 0 0)).
  { clear. intros l. unfold rest_int, unsign. do 2 f_equal.
    destruct l as [|c l]; [reflexivity|].
    destruct c as [|p|p]; try reflexivity. do 6 (destruct p as [p|p|]; try reflexivity). }
  rewrite (C (c :: l)), (R (c :: l)) in H.
  rewrite (C (c :: l ++ x)), (R (c :: l ++ x)).
  rewrite (unsign_app c l x : unsign (c :: l ++ x) = _). cbn [fst snd].
  destruct (eat (snd (unsign (c :: l))) 0 0) as [[n u] r] eqn:E.
  assert (NR : r <> []).
  { intros ->. cbn [snd] in H. destruct (n =? 0); [injection H as _ <-; discriminate|].
    destruct (_ <? _); [injection H as _ <-; discriminate|]. destruct (_ <=? _); injection H as _ <-; discriminate. }
  rewrite (eat_ext _ x _ _ _ _ _ E NR). cbn [snd] in *.
  set (y := if fst (unsign (c :: l)) then - u else u) in *. cbv zeta in *.
  destruct (n =? 0); [injection H as <- <-; discriminate|].
  destruct (y <? - 2 ^ 31); [injection H as <- <-; discriminate|].
  destruct (2 ^ 31 <=? y); [injection H as <- <-; discriminate|].
  injection H as <- <-. unfold ext. cbn [left fail eof].
  destruct r; [contradiction|]. reflexivity.
Qed.

Lemma get_int_sticky s : good s = false -> get_int s = (None, failed s).
Proof. intros H. unfold get_int, get_num. rewrite H. reflexivity. Qed.
Lemma get_char_sticky s : good s = false -> get_char s = failed s.
Proof. intros H. unfold get_char. rewrite H. reflexivity. Qed.

Lemma get_char_ext s x : good (get_char s) = true -> get_char (ext s x) = ext (get_char s) x.
Proof.
  unfold get_char. change (good (ext s x)) with (good s). intros G.
  destruct (good s); [|discriminate]. cbn [ext left].
  destruct (skip_ws (left s)) as [|c l] eqn:W; [discriminate|].
  rewrite skip_ws_ext, W by congruence. reflexivity.
Qed.

Lemma read_bytes_ext b n s x b' s1 : read_bytes b n s = Some (b', s1) -> good s1 = true ->
  read_bytes b n (ext s x) = Some (b', ext s1 x).
Proof.
  unfold read_bytes. change (good (ext s x)) with (good s). intros H G.
  destruct (good s); [|injection H as <- <-; discriminate].
  destruct (Nat.ltb_spec (length b) (length (firstn (Z.to_nat n) (left s)))) as [L|L]; [discriminate|].
  injection H as <- <-. unfold good in G. cbn [fail eof] in G.
  destruct (Z.eqb_spec (Z.of_nat (length (firstn (Z.to_nat n) (left s)))) n) as [E|E]; [|discriminate].
  pose proof (firstn_length (Z.to_nat n) (left s)) as FL.
  assert (K : (Z.to_nat n <= length (left s))%nat) by lia.
  cbn [ext left]. rewrite firstn_app.
  replace (Z.to_nat n - length (left s))%nat with 0%nat by lia.
  rewrite firstn_O, app_nil_r.
  destruct (Nat.ltb_spec (length b) (length (firstn (Z.to_nat n) (left s)))); [lia|].
  rewrite E, Z.eqb_refl. f_equal. f_equal. unfold ext. cbn [left fail eof negb].
  rewrite skipn_app. replace (length (firstn (Z.to_nat n) (left s)) - length (left s))%nat with 0%nat by lia.
  reflexivity.
Qed.

Lemma read_good b n s b' s1 : read_bytes b n s = Some (b', s1) -> good s1 = true -> good s = true.
Proof. unfold read_bytes. intros H G. destruct (good s); [reflexivity|]. injection H as <- <-. discriminate. Qed.
Lemma char_good s : good (get_char s) = true -> good s = true.
Proof. unfold get_char. intros G. destruct (good s); [reflexivity|discriminate]. Qed.
Lemma int_good s v s1 : get_int s = (v, s1) -> good s1 = true -> good s = true.
Proof. intros H G. destruct (good s) eqn:E; [reflexivity|]. rewrite get_int_sticky in H by exact E. injection H as <- <-. discriminate. Qed.

Lemma get_text_ext b sl s x b' sl' s1 : get_text b sl s = Some (b', sl', s1) -> good s1 = true ->
  get_text b sl (ext s x) = Some (b', sl', ext s1 x) /\ good s = true.
Proof.
  unfold get_text. intros H G.
  destruct (get_int (get_char s)) as [v s2] eqn:E.
  destruct (match v with Some n => Some n | None => sl end) as [n|] eqn:N; [|discriminate].
  destruct (read_bytes b n (get_char s2)) as [[b4 s4]|] eqn:R; [|discriminate].
  injection H as <- <- <-.
  pose proof (read_good _ _ _ _ _ R G) as G3. pose proof (char_good _ G3) as G2.
  pose proof (int_good _ _ _ E G2) as G1. pose proof (char_good _ G1) as G0.
  rewrite get_char_ext by exact G1. rewrite (get_int_ext _ x _ _ E G2), N.
  rewrite get_char_ext by exact G3. rewrite (read_bytes_ext _ _ _ x _ _ R G). auto.
Qed.

Lemma get_rec_ext s x r s1 : get_rec s = Some (r, s1) -> good s1 = true ->
  get_rec (ext s x) = Some (r, ext s1 x).
Proof.
  unfold get_rec. intros H G. destruct (get_int s) as [v s0] eqn:E.
  destruct (get_text (fresh ID_SIZE _) None s0) as [[[b1 l1] t1]|] eqn:T1; [|discriminate].
  destruct (get_text (fresh FIELD_SIZE UNKNOWN) l1 t1) as [[[b2 l2] t2]|] eqn:T2; [|discriminate].
  destruct (get_text (fresh FIELD_SIZE UNDEFINED) l2 t2) as [[[b3 l3] t3]|] eqn:T3; [|discriminate].
  destruct (get_text (fresh FIELD_SIZE UNKNOWN) l3 t3) as [[[b4 l4] t4]|] eqn:T4; [|discriminate].
  assert (t4 = s1).
  { destruct (c_str b1), (c_str b2), (c_str b3), (c_str b4); try discriminate. injection H as _ <-. reflexivity. }
  subst t4.
  destruct (get_text_ext _ _ _ x _ _ _ T4 G) as (X4 & G3).
  destruct (get_text_ext _ _ _ x _ _ _ T3 G3) as (X3 & G2).
  destruct (get_text_ext _ _ _ x _ _ _ T2 G2) as (X2 & G1).
  destruct (get_text_ext _ _ _ x _ _ _ T1 G1) as (X1 & G0).
  rewrite (get_int_ext _ x _ _ E G0), X1, X2, X3, X4.
  destruct (c_str b1), (c_str b2), (c_str b3), (c_str b4); try discriminate.
  injection H as <-. reflexivity.
Qed.

Lemma get_rec_bad s : good s = false -> get_rec s = None.
Proof.
  intros H. unfold get_rec. rewrite get_int_sticky by exact H.
  unfold get_text at 1. rewrite get_char_sticky by apply good_failed.
  rewrite get_int_sticky by apply good_failed. reflexivity.
Qed.

Lemma get_recs_cut l : forall acc p x, p ++ x = 10 :: concat (map (fun p => put_rec (snd p)) l) ->
  l <> [] -> ordered (acc ++ l) -> Forall (fun p => ok_rec (snd p)) l ->
  forall res, get_recs (length l) acc (open_in p) = Some res ->
  exists r, res = emplace (r_id r) r (acc ++ removelast l).
Proof.
  induction l as [|(k, r0) l IH]; intros acc p x E NE O F res H; [contradiction|].
  cbn [length get_recs] in H.
  destruct (get_rec (open_in p)) as [[r s1]|] eqn:R; [|discriminate].
  inversion F as [|? ? F1 F2]; subst. cbn [snd] in *.
  destruct l as [|q l].
  - cbn [get_recs length] in H. injection H as <-. exists r. cbn [removelast]. rewrite app_nil_r. reflexivity.
  - destruct (good s1) eqn:G.
    + pose proof (get_rec_ext _ x _ _ R G) as X.
      replace (ext (open_in p) x) with (open_in (p ++ x)) in X by reflexivity.
      rewrite E in X. cbn [map concat snd] in X. rewrite get_rec_ws, get_rec_put in X by exact F1.
      injection X as <- X1 X2 X3.
      assert (S1 : s1 = open_in (left s1)) by (destruct s1; cbn in *; subst; reflexivity).
      destruct (ordered_app _ _ O) as (O1 & O2 & O3). apply ordered_cons in O2. destruct O2 as (EK & _ & _).
      rewrite EK in H. rewrite emplace_last in H; [|exact O1|].
      2:{ intros z Z0. apply (O3 z (k, r0) Z0). left. reflexivity. }
      rewrite S1 in H.
      destruct (IH (acc ++ [(k, r0)]) (left s1) x) with (res := res) as (r' & ->);
        [symmetry; exact X1|discriminate|rewrite <- app_assoc; exact O|exact F2|exact H|].
      exists r'. f_equal. rewrite <- app_assoc. reflexivity.
    + cbn [length get_recs] in H. rewrite get_rec_bad in H by exact G. discriminate.
Qed.

Lemma udec_head n : forall v, 0 < v -> exists c l, udec (S n) v = c :: l /\ 49 <= c <= 57 \/ 10 ^ Z.of_nat (S n) <= v.
Proof.
  induction n as [|n IH]; intros v V.
  - destruct (Z.lt_ge_cases v 10) as [L|L].
    + exists (48 + v), []. left. cbn [udec]. replace (v <? 10) with true by lia.
      unfold digit. rewrite Z.mod_small by lia. split; [reflexivity|lia].
    + exists 0, []. right. exact L.
  - destruct (Z.lt_ge_cases v 10) as [L|L].
    + exists (48 + v), []. left. cbn [udec]. replace (v <? 10) with true by lia.
      unfold digit. rewrite Z.mod_small by lia. split; [reflexivity|lia].
    + assert (P : 0 < v / 10) by (apply Z.div_str_pos; lia).
      destruct (IH _ P) as (c & l & [(A & B)|A]).
      * exists c, (l ++ [digit v]). left. cbn [udec] in A |- *. replace (v <? 10) with false by lia.
        rewrite A. split; [reflexivity|exact B].
      * exists c, l. right. rewrite Nat2Z.inj_succ, Z.pow_succ_r by lia.
        pose proof (Z.mul_div_le v 10 ltac:(lia)). lia.
Qed.

Lemma eat_ge l : forall n v, 0 <= v -> v <= snd (fst (eat l n v)) /\ n <= fst (fst (eat l n v)).
Proof.
  induction l as [|c l IH]; intros n v V; cbn [eat fst snd]; [lia|].
  destruct (isdigit c) eqn:D; cbn [fst snd]; [|lia]. unfold isdigit in D.
  destruct (IH (n + 1) (v * 10 + (c - 48)) ltac:(lia)). lia.
Qed.

Lemma get_int_positive c p v s : 49 <= c <= 57 -> get_int (open_in (c :: p)) = (v, s) ->
  exists m, v = Some m /\ 0 < m.
Proof.
  intros C H. unfold get_int, get_num in H. cbn [good open_in fail eof negb andb left skip_ws] in H.
  assert (SP : isspace c = false) by (unfold isspace; lia). rewrite SP in H.
  assert (X : conv_int (c :: p) = (let '(n, v, _) := eat (c :: p) 0 0 in
     if n =? 0 then (0, false) else if v <? - 2 ^ 31 then (- 2 ^ 31, false)
     else if 2 ^ 31 <=? v then (2 ^ 31 - 1, false) else (v, true))).
  { unfold conv_int. assert (c <> 45 /\ c <> 43) as (A & B) by lia.
    destruct c as [|q|q]; try reflexivity. do 6 (destruct q as [q|q|]; try reflexivity); congruence. }
  rewrite X in H. cbn [eat] in H. replace (isdigit c) with true in H by (unfold isdigit; lia).
  destruct (eat_ge p (0 + 1) (0 * 10 + (c - 48)) ltac:(lia)) as (E1 & E2).
  destruct (eat p (0 + 1) (0 * 10 + (c - 48))) as [[n u] r]. cbn [fst snd] in *.
  replace (n =? 0) with false in H by lia. replace (u <? - 2 ^ 31) with false in H by lia.
  destruct (2 ^ 31 <=? u); injection H as <- <-; eexists; split; try reflexivity; lia.
Qed.

Lemma get_all_cut l p x : ordered l -> Forall (fun q => ok_rec (snd q)) l -> l <> [] ->
  Z.of_nat (length l) < 2 ^ 31 -> p ++ x = put_all l ->
  forall res, get_all p = Some res -> exists r, res = emplace (r_id r) r (removelast l).
Proof.
  intros O F NE L E res H. unfold get_all in H.
  destruct (get_int (open_in p)) as [v s] eqn:G.
  destruct v as [m|]; [|discriminate].
  assert (PL : 0 < Z.of_nat (length l)) by (destruct l; [contradiction|cbn [length]; lia]).
  destruct (good s) eqn:GS.
  - pose proof (get_int_ext _ x _ _ G GS) as X.
    replace (ext (open_in p) x) with (open_in (p ++ x)) in X by reflexivity.
    rewrite E in X. unfold put_all in X. rewrite get_int_show in X; [|lia|reflexivity].
    injection X as <- X1 X2 X3.
    assert (S1 : s = open_in (left s)) by (destruct s; cbn in *; subst; reflexivity).
    rewrite S1, Nat2Z.id in H.
    apply (get_recs_cut l [] (left s) x) with (res := res); auto.
  - assert (M : 0 < m).
    { destruct p as [|c p]; [discriminate G|].
      destruct (udec_head 19 (Z.of_nat (length l)) PL) as (d & t & [(A & B)|A]).
      - unfold put_all, show_int in E. replace (Z.of_nat (length l) <? 0) with false in E by lia.
        rewrite A in E. cbn [app] in E. injection E as -> _.
        destruct (get_int_positive d p _ _ B G) as (m' & X & Y). injection X as <-. exact Y.
      - exfalso. apply (Z.lt_irrefl (2 ^ 31)). eapply Z.lt_trans; [|exact L].
        eapply Z.lt_le_trans; [|exact A]. reflexivity. }
    destruct (Z.to_nat m) as [|k] eqn:K; [lia|]. cbn [get_recs] in H.
    rewrite get_rec_bad in H by exact GS. discriminate.
Qed.
