(** Recipes: names and values in memory. *)
From Coq Require Import ZArith List Bool Lia.
From Verif Require Import Base TimeModel UtfModel UtfSpec UtfProofs UtfProps RecModel McrModel McrSpec.
Import ListNotations.
Open Scope Z_scope.

Lemma delta_ge w n t : 0 <= t <= n -> get_delta_millisec w n t = n - t.
Proof. intros H. unfold get_delta_millisec. replace (n <? t) with false by lia. replace (t <=? n) with true by lia. reflexivity. Qed.

(** * Names *)

Lemma filter_all : forall (s : list Z), forallb defined s = true -> filter defined s = s.
Proof.
  induction s as [|c s IH]; intros H; [reflexivity|]. cbn [forallb filter] in *. apply andb_true_iff in H as [-> H]. f_equal. auto.
Qed.
Lemma text_utf : forall l, text l -> win1251_to_utf8 l = shows l.
Proof. intros l (_ & C & D & _). unfold shows. rewrite to_utf8_spec by exact C. rewrite filter_all by exact D. reflexivity. Qed.
Lemma text_len : forall l, text l -> (length (shows l) <= 69)%nat.
Proof. intros l T. rewrite <- text_utf by exact T. destruct T as (L & C & _). pose proof (to_utf8_size l C). lia. Qed.
Lemma text_back : forall l, text l -> utf8_to_1251 (shows l) (Z.of_nat (length (shows l))) = Done l.
Proof. intros l T. rewrite <- text_utf by exact T. destruct T as (_ & C & D & S). apply C44_round_trip; auto. lia. Qed.
Lemma text_count : forall l, text l -> utf8_strlen (shows l) = Z.of_nat (length l).
Proof.
  intros l T. rewrite <- text_utf by exact T. destruct T as (_ & C & D & S). rewrite C45_length by exact C. rewrite filter_all by exact D. reflexivity.
Qed.
Lemma text_nil : text [].
Proof. split; [cbn; lia|]. split; [constructor|split; reflexivity]. Qed.

Lemma c_string_ext : forall n f g, (forall k, 0 <= k < Z.of_nat n -> f k = g k) -> c_string f n = c_string g n.
Proof.
  induction n as [|n IH]; intros f g H; [reflexivity|]. cbn [c_string]. rewrite (H 0) by lia.
  rewrite (IH (fun x => f (x + 1)) (fun x => g (x + 1))); [reflexivity|]. intros k K. apply H. lia.
Qed.
Lemma c_string_of : forall l f n, Forall chr l -> (length l < n)%nat ->
  (forall k, (k < length l)%nat -> f (Z.of_nat k) = nth k l 0) -> f (Z.of_nat (length l)) = 0 -> c_string f n = Some l.
Proof.
  induction l as [|c l IH]; intros f n C L H E.
  - destruct n as [|n]; [cbn in L; lia|]. cbn [c_string]. cbn [length Z.of_nat] in E. rewrite E. reflexivity.
  - destruct n as [|n]; [cbn in L; lia|]. cbn [c_string]. pose proof (H 0%nat ltac:(cbn; lia)) as H0. cbn [Z.of_nat nth] in H0.
    inversion_clear C as [|? ? C1 C2]. rewrite H0. replace (c =? 0) with false by (unfold chr in C1; lia).
    rewrite (IH (fun x => f (x + 1)) n C2); [reflexivity|cbn [length] in L; lia| |].
    + intros k K. replace (Z.of_nat k + 1) with (Z.of_nat (S k)) by lia. apply (H (S k)). cbn [length]. lia.
    + replace (Z.of_nat (length l) + 1) with (Z.of_nat (S (length l))) by lia. exact E.
Qed.

(** * Memory *)

Lemma in_range : forall r a n, 0 <= r < 25 -> 0 <= a -> 0 <= n -> a + n <= 512 -> inside (start r + a) n = true.
Proof. intros r a n R A N H. unfold inside, start, SIZE, TOTAL, NREC, SIZE. apply andb_true_iff. split; apply Z.leb_le; lia. Qed.
Lemma holds_ext : forall f g c, (forall k, 0 <= k < 512 -> f k = g k) -> (length (rname c) <= 23)%nat -> holds f c -> holds g c.
Proof.
  intros f g c E L (A & B & C). unfold holds. split; [|split].
  - intros k K. rewrite <- E by lia. auto.
  - rewrite <- E by lia. exact B.
  - intros v V. rewrite <- !E by lia. auto.
Qed.
Lemma holds_name : forall m r c, 0 <= r < 25 -> text (rname c) -> holds (fun k => m (512 * r + k)) c -> read_name m r = Some (shows (rname c)).
Proof.
  intros m r c R T (A & B & _). unfold read_name.
  replace (start r) with (start r + 0) at 1 by lia. rewrite in_range by (unfold NLEN; lia).
  rewrite (c_string_of (rname c)).
  - cbv zeta. rewrite text_utf by exact T. pose proof (text_len _ T). replace (Z.of_nat (length (shows (rname c))) + 1 <=? NCAP) with true by (unfold NCAP, NLEN; lia). reflexivity.
  - apply T.
  - destruct T as (L & _). unfold NLEN. lia.
  - intros k K. rewrite <- A by exact K. unfold start, SIZE. f_equal. lia.
  - rewrite <- B. unfold start, SIZE. f_equal. lia.
Qed.
Lemma holds_val : forall m r c v, 0 <= v < 120 -> holds (fun k => m (512 * r + k)) c ->
  word (fun k => m (at_val r v + k)) = rval c v.
Proof.
  intros m r c v V (_ & _ & C). rewrite <- C by exact V. unfold word, at_val, start, SIZE, OFFSET.
  replace (r * 512 + 32 + 4 * v + 0) with (512 * r + (32 + 4 * v)) by lia. replace (r * 512 + 32 + 4 * v + 1) with (512 * r + (32 + 4 * v + 1)) by lia.
  replace (r * 512 + 32 + 4 * v + 2) with (512 * r + (32 + 4 * v + 2)) by lia. replace (r * 512 + 32 + 4 * v + 3) with (512 * r + (32 + 4 * v + 3)) by lia.
  reflexivity.
Qed.
Lemma val_inside : forall r v, 0 <= r < 25 -> 0 <= v < 120 -> inside (at_val r v) 4 = true.
Proof. intros r v R V. unfold at_val, OFFSET. replace (start r + 32 + 4 * v) with (start r + (32 + 4 * v)) by lia. apply in_range; lia. Qed.
Lemma holds_get : forall w j m r c v, 0 <= r < 25 -> 0 <= v < 120 -> holds (fun k => m (512 * r + k)) c -> rval c v <> 0xFFFFFFFF ->
  get w j m r v = Some (rval c v).
Proof.
  intros w j m r c v R V H N. unfold get. rewrite val_inside by assumption. cbv zeta. rewrite (holds_val m r c v V H).
  replace (rval c v =? 0xFFFFFFFF) with false by (symmetry; apply Z.eqb_neq; exact N). reflexivity.
Qed.

Lemma word_bytes : forall x, 0 <= x < 2 ^ 32 -> byte_of x 0 + 256 * byte_of x 1 + 65536 * byte_of x 2 + 16777216 * byte_of x 3 = x.
Proof.
  intros x X. unfold byte_of. change (256 ^ 0) with 1. change (256 ^ 1) with 256. change (256 ^ 2) with 65536. change (256 ^ 3) with 16777216.
  rewrite Z.div_1_r. change 65536 with (256 * 256) at 2. change 16777216 with (256 * (256 * 256)) at 2. rewrite <- !Z.div_div by lia.
  change (2 ^ 32) with 4294967296 in X.
  pose proof (Z.div_mod x 256 ltac:(lia)). pose proof (Z.div_mod (x / 256) 256 ltac:(lia)). pose proof (Z.div_mod (x / 256 / 256) 256 ltac:(lia)).
  assert (x / 256 / 256 / 256 < 256). { rewrite !Z.div_div by lia. apply Z.div_lt_upper_bound; lia. }
  assert (0 <= x / 256 / 256 / 256). { rewrite !Z.div_div by lia. apply Z.div_pos; lia. }
  rewrite (Z.mod_small (x / 256 / 256 / 256)) by lia. lia.
Qed.

(** A copy into one recipe leaves the others alone. *)
Lemma copy_other : forall m r q a n f k, r <> q -> 0 <= a -> a + n <= 512 -> 0 <= k < 512 -> copy_in m (start r + a) n f (512 * q + k) = m (512 * q + k).
Proof.
  intros m r q a n f k N A L K. unfold copy_in, start, SIZE.
  destruct ((r * 512 + a <=? 512 * q + k) && (512 * q + k <? r * 512 + a + n)) eqn:E; [|reflexivity].
  apply andb_prop in E. destruct E as [E1 E2]. apply Z.leb_le in E1. apply Z.ltb_lt in E2. exfalso. lia.
Qed.
Lemma copy_same : forall m r a n f k, copy_in m (start r + a) n f (512 * r + k) = if (a <=? k) && (k <? a + n) then f (k - a) else m (512 * r + k).
Proof.
  intros m r a n f k. unfold copy_in, start, SIZE.
  replace (r * 512 + a <=? 512 * r + k) with (a <=? k) by (destruct (Z.leb_spec a k), (Z.leb_spec (r * 512 + a) (512 * r + k)); lia || reflexivity).
  replace (512 * r + k <? r * 512 + a + n) with (k <? a + n) by (destruct (Z.ltb_spec k (a + n)), (Z.ltb_spec (512 * r + k) (r * 512 + a + n)); lia || reflexivity).
  destruct ((a <=? k) && (k <? a + n)); [f_equal; lia|reflexivity].
Qed.

Lemma put_same : forall r c f, put_rec r c f r = c.
Proof. intros. unfold put_rec. rewrite Z.eqb_refl. reflexivity. Qed.
Lemma put_other : forall r c f q, q <> r -> put_rec r c f q = f q.
Proof. intros. unfold put_rec. replace (q =? r) with false by (symmetry; apply Z.eqb_neq; assumption). reflexivity. Qed.

(** A change inside recipe [r]. *)
Lemma file_put : forall m g r a n f c, 0 <= r < 25 -> 0 <= a -> a + n <= 512 -> (forall q, 0 <= q < 25 -> text (rname (g q))) ->
  file_of m g -> holds (fun k => copy_in m (start r + a) n f (512 * r + k)) c -> file_of (copy_in m (start r + a) n f) (put_rec r c g).
Proof.
  intros m g r a n f c R A L T F H q Q. destruct (Z.eq_dec q r) as [->|N].
  - rewrite put_same. exact H.
  - rewrite put_other by exact N. apply (holds_ext (fun k => m (512 * q + k))); [|apply T, Q|apply F, Q].
    intros k K. symmetry. apply copy_other; auto.
Qed.

Lemma holds_with_val : forall m r c v x, 0 <= v < 120 -> float32 x -> (length (rname c) <= 23)%nat -> holds (fun k => m (512 * r + k)) c ->
  holds (fun k => copy_in m (start r + (32 + 4 * v)) 4 (byte_of x) (512 * r + k)) (with_val v x c).
Proof.
  intros m r c v x V X L (A & B & C). unfold holds. cbn [rname rval with_val]. split; [|split].
  - intros k K. rewrite copy_same. replace (32 + 4 * v <=? Z.of_nat k) with false by lia. cbn [andb]. apply A, K.
  - rewrite copy_same. replace (32 + 4 * v <=? Z.of_nat (length (rname c))) with false by lia. cbn [andb]. exact B.
  - intros u U. rewrite !copy_same. destruct (Z.eqb_spec u v) as [->|N].
    + replace (32 + 4 * v <=? 32 + 4 * v) with true by lia. replace (32 + 4 * v <? 32 + 4 * v + 4) with true by lia.
      replace (32 + 4 * v <=? 32 + 4 * v + 1) with true by lia. replace (32 + 4 * v + 1 <? 32 + 4 * v + 4) with true by lia.
      replace (32 + 4 * v <=? 32 + 4 * v + 2) with true by lia. replace (32 + 4 * v + 2 <? 32 + 4 * v + 4) with true by lia.
      replace (32 + 4 * v <=? 32 + 4 * v + 3) with true by lia. replace (32 + 4 * v + 3 <? 32 + 4 * v + 4) with true by lia.
      cbn [andb]. rewrite Z.sub_diag. replace (32 + 4 * v + 1 - (32 + 4 * v)) with 1 by lia. replace (32 + 4 * v + 2 - (32 + 4 * v)) with 2 by lia.
      replace (32 + 4 * v + 3 - (32 + 4 * v)) with 3 by lia. apply word_bytes, X.
    + assert (E : forall i, 0 <= i <= 3 -> (32 + 4 * v <=? 32 + 4 * u + i) && (32 + 4 * u + i <? 32 + 4 * v + 4) = false).
      { intros i I. apply andb_false_iff. destruct (Z.lt_ge_cases u v); [left; apply Z.leb_gt|right; apply Z.ltb_ge]; lia. }
      pose proof (E 0 ltac:(lia)) as E0. rewrite Z.add_0_r in E0. rewrite E0, !E by lia. apply C, U.
Qed.
Lemma holds_with_name : forall m r c l j, text l -> holds (fun k => m (512 * r + k)) c ->
  holds (fun k => copy_in m (start r + 0) NLEN (padded l true j) (512 * r + k)) (with_name l c).
Proof.
  intros m r c l j T (A & B & C). unfold holds. cbn [rname rval with_name]. destruct T as (L & _). split; [|split].
  - intros k K. rewrite copy_same. unfold NLEN. replace (0 <=? Z.of_nat k) with true by lia. replace (Z.of_nat k <? 0 + 24) with true by lia. cbn [andb].
    rewrite Z.sub_0_r. unfold padded. replace (Z.of_nat k <? Z.of_nat (length l)) with true by lia. rewrite Nat2Z.id. reflexivity.
  - rewrite copy_same. unfold NLEN. replace (0 <=? Z.of_nat (length l)) with true by lia. replace (Z.of_nat (length l) <? 0 + 24) with true by lia. cbn [andb].
    rewrite Z.sub_0_r. unfold padded. rewrite Z.ltb_irrefl, Z.eqb_refl. reflexivity.
  - intros u U. rewrite !copy_same. unfold NLEN. replace (32 + 4 * u <? 0 + 24) with false by lia. replace (32 + 4 * u + 1 <? 0 + 24) with false by lia.
    replace (32 + 4 * u + 2 <? 0 + 24) with false by lia. replace (32 + 4 * u + 3 <? 0 + 24) with false by lia. rewrite !andb_false_r. apply C, U.
Qed.
Lemma holds_whole : forall m r b c, (length (rname c) <= 23)%nat -> holds b c -> holds (fun k => copy_in m (start r + 0) SIZE b (512 * r + k)) c.
Proof.
  intros m r b c L H. apply (holds_ext b); [|exact L|exact H]. intros k K. rewrite copy_same. unfold SIZE.
  replace (0 <=? k) with true by lia. replace (k <? 0 + 512) with true by lia. cbn [andb]. f_equal. lia.
Qed.
Lemma holds_blank : forall f, (forall k, 0 <= k < 512 -> f k = 0) -> holds f blank.
Proof.
  intros f H. unfold holds, blank. cbn [rname rval length]. split; [intros k K; lia|]. split; [apply H; lia|].
  intros v V. rewrite !H by lia. reflexivity.
Qed.
Lemma holds_image : forall c, text (rname c) -> (forall v, 0 <= v < 120 -> float32 (rval c v)) -> holds (image c) c.
Proof.
  intros c T F. destruct T as (L & _). unfold holds, image. split; [|split].
  - intros k K. replace (Z.of_nat k <? Z.of_nat (length (rname c))) with true by lia. rewrite Nat2Z.id. reflexivity.
  - rewrite Z.ltb_irrefl. replace (Z.of_nat (length (rname c)) <? 32) with true by lia. reflexivity.
  - intros v V. rewrite <- (word_bytes (rval c v)) by (apply F, V).
    replace (32 + 4 * v <? Z.of_nat (length (rname c))) with false by lia. replace (32 + 4 * v + 1 <? Z.of_nat (length (rname c))) with false by lia.
    replace (32 + 4 * v + 2 <? Z.of_nat (length (rname c))) with false by lia. replace (32 + 4 * v + 3 <? Z.of_nat (length (rname c))) with false by lia.
    replace (32 + 4 * v <? 32) with false by lia. replace (32 + 4 * v + 1 <? 32) with false by lia.
    replace (32 + 4 * v + 2 <? 32) with false by lia. replace (32 + 4 * v + 3 <? 32) with false by lia.
    assert (E : forall i, 0 <= i <= 3 -> (32 + 4 * v + i - 32) / 4 = v /\ (32 + 4 * v + i - 32) mod 4 = i).
    { intros i I. replace (32 + 4 * v + i - 32) with (i + v * 4) by lia. rewrite Z.div_add, Z.mod_add by lia. rewrite Z.div_small, Z.mod_small by lia. lia. }
    destruct (E 0 ltac:(lia)) as [D0 M0]. rewrite Z.add_0_r in D0, M0. destruct (E 1 ltac:(lia)) as [D1 M1].
    destruct (E 2 ltac:(lia)) as [D2 M2]. destruct (E 3 ltac:(lia)) as [D3 M3]. rewrite D0, D1, D2, D3, M0, M1, M2, M3. reflexivity.
Qed.
