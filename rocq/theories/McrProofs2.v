(** Recipes: the manager keeps the book. *)
From Coq Require Import ZArith List Bool Lia.
From Verif Require Import Base TimeModel UtfModel UtfSpec RecModel McrModel McrSpec McrProofs.
Import ListNotations.
Open Scope Z_scope.

Record rel (t : Z) (s : mgr) (b : ledger) : Prop := {
  r_place : 0 <= place b < 25; r_cur : cur s = place b; r_name : name s = Some (shows (shown b)); r_shown : text (shown b);
  r_mem : file_of (mem s) (recs b); r_sane : forall r, 0 <= r < 25 -> sane (recs b r);
  r_buf : match buf s, clip b with None, None => True | Some f, Some c => holds f c /\ text (rname c) | _, _ => False end;
  r_file : file_of (file s) (disk b); r_disk : forall r, 0 <= r < 25 -> sane (disk b r);
  r_dirty : dirty s = edited b; r_chk : chk s = edit_t b; r_syn : syn s = synced b; r_txt : txt s = menu b;
  r_t1 : 0 <= synced b <= t; r_t2 : 0 <= edit_t b <= t }.

Lemma rel_later : forall t u s b, rel t s b -> t <= u -> rel u s b.
Proof. intros t u s b [] L. constructor; auto; lia. Qed.
Lemma sane_name : forall g, (forall r, 0 <= r < 25 -> sane (g r)) -> forall r, 0 <= r < 25 -> text (rname (g r)).
Proof. intros g H r R. apply H, R. Qed.
Lemma put_sane : forall r c g, (forall q, 0 <= q < 25 -> sane (g q)) -> sane c -> forall q, 0 <= q < 25 -> sane (put_rec r c g q).
Proof. intros r c g H C q Q. unfold put_rec. destruct (q =? r); auto. Qed.

(** Saving the name. *)
Lemma start0 : forall r, start r = start r + 0.
Proof. intros. lia. Qed.
Lemma save_ok : forall t s b j, rel t s b ->
  exists m, save_name j s = Some (set_mem m s) /\ file_of m (put_rec (place b) (with_name (shown b) (recs b (place b))) (recs b)).
Proof.
  intros t s b j R. unfold save_name. rewrite (r_name _ _ _ R), text_back by apply R.
  assert (L : Z.of_nat (length (shown b)) <= 24) by (destruct (r_shown _ _ _ R); lia).
  replace (Z.of_nat (length (shown b)) + 1 <=? NLEN + 1) with true by (unfold NLEN; lia).
  eexists. split; [reflexivity|]. rewrite (r_cur _ _ _ R), start0. apply file_put; [apply R|lia|unfold NLEN; lia|apply sane_name, R|apply R|].
  apply holds_with_name; [apply R|]. exact (r_mem _ _ _ R _ (r_place _ _ _ R)).
Qed.

(** The list. *)
Lemma decimal_digits : forall n, 1 <= n <= 25 -> decimal n = digits n.
Proof.
  intros n N. unfold decimal, digits. destruct (Z.ltb_spec n 10) as [H|H]; [|reflexivity]. rewrite Z.mod_small by lia. reflexivity.
Qed.
Lemma digits_len : forall n, (length (digits n) <= 2)%nat.
Proof. intros n. unfold digits. destruct (n <? 10); cbn; lia. Qed.
Definition entry (g : Z -> recipe) (r : Z) : list Z :=
  if in_use (g r) then digits (r + 1) ++ [35; 35] ++ shows (rname (g r)) ++ [124; 124] else [].
Lemma list_from_ok : forall w j m g n i, file_of m g -> (forall r, 0 <= r < 25 -> text (rname (g r))) -> 0 <= i -> i + Z.of_nat n <= 25 ->
  list_from w j m i n = Some (flat_map (entry g) (map (fun k => i + Z.of_nat k) (seq 0 n))).
Proof.
  intros w j m g n. induction n as [|n IH]; intros i F T I L; [reflexivity|]. cbn [list_from].
  rewrite (IH (i + 1) F T) by lia.
  assert (E : map (fun k => i + Z.of_nat k) (seq 0 (S n)) = i :: map (fun k => i + 1 + Z.of_nat k) (seq 0 n)).
  { cbn [seq map]. rewrite Z.add_0_r. f_equal. rewrite <- seq_shift, map_map. apply map_ext. intros k. lia. }
  rewrite E. cbn [flat_map]. unfold get at 1. rewrite val_inside by lia. cbv zeta. rewrite (holds_val m i (g i) 0) by first [lia | apply F; lia].
  assert (U : forall k, nonzero (if (rval (g i) 0 =? 4294967295) && k then 3296329728 else rval (g i) 0) = in_use (g i)).
  { intros k. unfold nonzero, in_use. destruct (Z.eqb_spec (rval (g i) 0) 4294967295) as [Q|Q]; cbn [andb]; [|reflexivity]. rewrite Q. destruct k; reflexivity. }
  rewrite U. assert (EN : entry g i = if in_use (g i) then digits (i + 1) ++ [35; 35] ++ shows (rname (g i)) ++ [124; 124] else []) by reflexivity.
  rewrite EN. destruct (in_use (g i)); [|reflexivity].
  rewrite (holds_name m i (g i)) by first [lia | apply T; lia | apply F; lia]. rewrite decimal_digits by lia. rewrite <- !app_assoc. reflexivity.
Qed.
Lemma entries_len : forall g, (forall r, 0 <= r < 25 -> text (rname (g r))) -> forall l, (forall r, In r l -> 0 <= r < 25) ->
  (length (flat_map (entry g) l) <= 75 * length l)%nat.
Proof.
  intros g T l. induction l as [|r l IH]; intros H; [cbn; lia|]. cbn [flat_map length]. rewrite app_length.
  assert (length (entry g r) <= 75)%nat.
  { unfold entry. destruct (in_use (g r)); [|cbn; lia]. rewrite !app_length. pose proof (digits_len (r + 1)).
    pose proof (text_len _ (T r (H r (or_introl eq_refl)))). cbn [length]. lia. }
  specialize (IH (fun q Q => H q (or_intror Q))). lia.
Qed.
Lemma list_ok : forall w j s g, file_of (mem s) g -> (forall r, 0 <= r < 25 -> text (rname (g r))) -> form_list w j s = Some (set_txt (listing g) s).
Proof.
  intros w j s g F T. unfold form_list. change (Z.to_nat NREC) with 25%nat. rewrite (list_from_ok w j (mem s) g 25 0 F T) by lia.
  assert (E : map (fun k => 0 + Z.of_nat k) (seq 0 25) = map Z.of_nat (seq 0 25)) by (apply map_ext; intros; lia). rewrite E.
  fold (entry g) in *. change (listing g) with (flat_map (entry g) (map Z.of_nat (seq 0 25))).
  assert (L : (length (flat_map (entry g) (map Z.of_nat (seq 0 25))) <= 1875)%nat).
  { etransitivity; [apply entries_len; [exact T|]|]. 2: { rewrite map_length, seq_length. lia. }
    intros r I. apply in_map_iff in I. destruct I as (k & <- & I). apply in_seq in I. lia. }
  replace (Z.of_nat (length (flat_map (entry g) (map Z.of_nat (seq 0 25)))) + 1 <=? LCAP) with true by (unfold LCAP, NLEN, NREC; lia). reflexivity.
Qed.

(** The three parts of an evaluation. *)
Lemma name_ok : forall w t u s b j, rel t s b -> t <= u -> exists s1, tick_name w u j s = Some s1 /\ rel u s1 (s_name u b).
Proof.
  intros w t u s b j R L. apply (rel_later t u) in R; [|exact L]. unfold tick_name, s_name.
  rewrite delta_ge by (rewrite (r_syn _ _ _ R); apply R). rewrite (r_syn _ _ _ R).
  destruct (10000 <? u - synced b) eqn:E; [|exists s; split; [reflexivity|exact R]].
  assert (R1 : rel u (set_syn u s) {| recs := recs b; place := place b; shown := shown b; clip := clip b; synced := u; disk := disk b; edited := edited b; edit_t := edit_t b; menu := menu b |}).
  { destruct R. constructor; cbn; auto; lia. }
  destruct (save_ok _ _ _ j R1) as (m & -> & F). cbn [recs place shown] in F.
  assert (S : forall q, 0 <= q < 25 -> sane (put_rec (place b) (with_name (shown b) (recs b (place b))) (recs b) q)).
  { apply put_sane; [apply R|]. split; [apply R|]. exact (proj2 (r_sane _ _ _ R _ (r_place _ _ _ R))). }
  rewrite (list_ok w j (set_mem m (set_syn u s)) _ F (sane_name _ S)). eexists. split; [reflexivity|].
  destruct R1. constructor; cbn in *; auto.
Qed.
Lemma file_ok : forall w u s b, rel u s b -> rel u (tick_file w u s) (s_file u b).
Proof.
  intros w u s b R. unfold tick_file, s_file. rewrite delta_ge by (rewrite (r_chk _ _ _ R); apply R). rewrite (r_chk _ _ _ R).
  destruct (30000 <? u - edit_t b) eqn:E; [|exact R]. cbv zeta. rewrite (r_dirty _ _ _ R). destruct R as [R1 R2 R3 R4 R5 R6 R7 R8 R9 R10 R11 R12 R13 R14 R15].
  destruct (edited b) eqn:D; constructor; cbn; auto; lia.
Qed.

(** One value. *)
Lemma set_ok : forall u s b v x, rel u s b -> 0 <= v < 120 -> float32 x -> (v = 1 -> In x orders) ->
  exists s1, set u (place b) v x s = Some s1 /\ rel u s1
    {| recs := put_rec (place b) (with_val v x (recs b (place b))) (recs b); place := place b; shown := shown b; clip := clip b;
       synced := synced b; disk := disk b; edited := true; edit_t := u; menu := menu b |}.
Proof.
  intros u s b v x R V X O. unfold set. rewrite val_inside by (assumption || apply R). eexists. split; [reflexivity|].
  assert (F : file_of (copy_in (mem s) (at_val (place b) v) 4 (byte_of x)) (put_rec (place b) (with_val v x (recs b (place b))) (recs b))).
  { replace (at_val (place b) v) with (start (place b) + (32 + 4 * v)) by (unfold at_val, OFFSET; lia).
    apply file_put; [apply R|lia|lia|apply sane_name, R|apply R|]. apply holds_with_val; auto; [|exact (r_mem _ _ _ R _ (r_place _ _ _ R))].
    destruct (r_sane _ _ _ R _ (r_place _ _ _ R)) as [[L _] _]. exact L. }
  assert (S : forall q, 0 <= q < 25 -> sane (put_rec (place b) (with_val v x (recs b (place b))) (recs b) q)).
  { apply put_sane; [apply R|]. destruct (r_sane _ _ _ R (place b) (r_place _ _ _ R)) as [S1 S2]. split; [exact S1|].
    cbn [rval with_val]. destruct (Z.eqb_spec 1 v) as [<-|N]; auto. }
  destruct R. constructor; cbn in *; auto; lia.
Qed.

(** Recipes with the same name and the same 120 values. *)
Definition same_rec (c d : recipe) : Prop := rname c = rname d /\ forall v, 0 <= v < 120 -> rval c v = rval d v.
Lemma same_refl : forall c, same_rec c c.
Proof. intros c. split; auto. Qed.
Lemma holds_same : forall f c d, holds f c -> same_rec c d -> holds f d.
Proof.
  intros f c d (A & B & C) (N & V). unfold holds. rewrite <- N. split; [exact A|split; [exact B|]]. intros v Hv. rewrite <- V by exact Hv. auto.
Qed.
Lemma sane_same : forall c d, sane c -> same_rec c d -> sane d.
Proof. intros c d [A B] [N V]. split; [rewrite <- N; exact A|]. rewrite <- V by lia. exact B. Qed.
Definition with_recs (g : Z -> recipe) (b : ledger) : ledger :=
  {| recs := g; place := place b; shown := shown b; clip := clip b; synced := synced b; disk := disk b; edited := edited b; edit_t := edit_t b; menu := menu b |}.
Lemma rel_recs : forall t s b g, rel t s b -> (forall r, 0 <= r < 25 -> same_rec (recs b r) (g r)) -> rel t s (with_recs g b).
Proof.
  intros t s b g R H. destruct R as [R1 R2 R3 R4 R5 R6 R7 R8 R9 R10 R11 R12 R13 R14 R15]. constructor; cbn; auto.
  - intros r Hr. apply (holds_same _ (recs b r)); auto.
  - intros r Hr. apply (sane_same (recs b r)); auto.
Qed.

Definition writes (l : list (Z * Z)) (c : recipe) : recipe := fold_left (fun c vx => with_val (fst vx) (snd vx) c) l c.
Definition lookup (l : list (Z * Z)) (v : Z) : option Z := fold_left (fun o vx => if v =? fst vx then Some (snd vx) else o) l None.
Lemma writes_name : forall l c, rname (writes l c) = rname c.
Proof. induction l as [|[v x] l IH]; intros c; [reflexivity|]. unfold writes in *. cbn [fold_left]. rewrite IH. reflexivity. Qed.
Lemma lookup_gen : forall l v o, fold_left (fun o vx => if v =? fst vx then Some (snd vx) else o) l o = match lookup l v with Some y => Some y | None => o end.
Proof.
  induction l as [|[k x] l IH]; intros v o; [destruct o; reflexivity|]. unfold lookup. cbn [fold_left fst snd]. rewrite !IH.
  destruct (lookup l v); [reflexivity|]. destruct (v =? k); reflexivity.
Qed.
Lemma writes_val : forall l c v, rval (writes l c) v = match lookup l v with Some y => y | None => rval c v end.
Proof.
  induction l as [|[k x] l IH]; intros c v; [reflexivity|]. unfold writes, lookup in *. cbn [fold_left fst snd]. rewrite IH.
  fold (lookup l v). rewrite lookup_gen. destruct (lookup l v); [reflexivity|]. cbn [rval with_val]. destruct (v =? k); reflexivity.
Qed.
Definition opt_eqb (a b : option Z) : bool := match a, b with Some x, Some y => x =? y | None, None => true | _, _ => false end.
Lemma forall_120 : forall f : Z -> bool, forallb f (map Z.of_nat (seq 0 120)) = true -> forall v, 0 <= v < 120 -> f v = true.
Proof.
  intros f H v V. rewrite forallb_forall in H. apply H. apply in_map_iff. exists (Z.to_nat v). split; [lia|]. apply in_seq. lia.
Qed.
Lemma opt_eqb_eq : forall a b, opt_eqb a b = true -> a = b.
Proof. intros [x|] [y|] H; cbn in H; try discriminate; [|reflexivity]. f_equal. lia. Qed.
Lemma defaults_ok : forall v, 0 <= v < 120 -> lookup defaults v = if v =? 82 then None else Some (default v).
Proof.
  intros v V. apply opt_eqb_eq. revert v V.
  apply (forall_120 (fun v => opt_eqb (lookup defaults v) (if v =? 82 then None else Some (default v)))). vm_compute. reflexivity.
Qed.
Lemma writes_reset : forall c, same_rec (writes defaults c) (reset_rec c).
Proof.
  intros c. split; [rewrite writes_name; reflexivity|]. intros v V. rewrite writes_val, defaults_ok by exact V. cbn [rval reset_rec]. destruct (v =? 82); reflexivity.
Qed.
Lemma rel_edit : forall u s b, rel u s b ->
  rel u s (with_recs (put_rec (place b) (recs b (place b)) (recs b)) b).
Proof.
  intros u s b R. apply rel_recs; [exact R|]. intros r Hr. unfold put_rec. destruct (Z.eqb_spec r (place b)) as [->|]; apply same_refl.
Qed.
Lemma sets_ok : forall u r l s b, rel u s b -> r = place b ->
  (forall v x, In (v, x) l -> 0 <= v < 120 /\ float32 x /\ (v = 1 -> In x orders)) ->
  exists s1 e t1, fold_left (fun o vx => match o with Some x => set u r (fst vx) (snd vx) x | None => None end) l (Some s) = Some s1
    /\ rel u s1 {| recs := put_rec (place b) (writes l (recs b (place b))) (recs b); place := place b; shown := shown b; clip := clip b;
       synced := synced b; disk := disk b; edited := e; edit_t := t1; menu := menu b |}.
Proof.
  intros u r l. induction l as [|[v x] l IH]; intros s b R P H.
  - exists s, (edited b), (edit_t b). split; [reflexivity|]. exact (rel_edit _ _ _ R).
  - cbn [fold_left fst snd]. destruct (H v x (or_introl eq_refl)) as (V & X & O).
    destruct (set_ok u s b v x R V X O) as (s1 & E1 & R1). rewrite <- P in E1. rewrite E1. clear E1.
    edestruct (IH s1 _ R1) as (s2 & e & t1 & E & R2); [exact P|intros; apply H; right; assumption|]. exists s2, e, t1. split; [exact E|].
    cbn [recs place shown clip synced disk edited edit_t menu] in R2. rewrite put_same in R2.
    apply (rel_recs u s2 _ (put_rec (place b) (writes ((v, x) :: l) (recs b (place b))) (recs b))) in R2; [exact R2|].
    intros q Q. cbn [recs]. unfold put_rec. destruct (q =? place b); apply same_refl.
Qed.
Definition good_write (vx : Z * Z) : bool :=
  (0 <=? fst vx) && (fst vx <? 120) && ((0 <=? snd vx) && (snd vx <? 2 ^ 32)) && (negb (fst vx =? 1) || existsb (Z.eqb (snd vx)) orders).
Lemma good_writes : forall l, forallb good_write l = true -> forall v x, In (v, x) l -> 0 <= v < 120 /\ float32 x /\ (v = 1 -> In x orders).
Proof.
  intros l H v x I. rewrite forallb_forall in H. apply H in I. unfold good_write in I. cbn [fst snd] in I.
  apply andb_prop in I. destruct I as [I I3]. apply andb_prop in I. destruct I as [I1 I2]. apply andb_prop in I1. apply andb_prop in I2.
  split; [lia|]. split; [unfold float32; lia|]. intros ->. cbn [Z.eqb Pos.eqb negb orb] in I3. apply existsb_exists in I3. destruct I3 as (y & Y & E).
  apply Z.eqb_eq in E. subst. exact Y.
Qed.
Lemma defaults_good : forallb good_write defaults = true.
Proof. vm_compute. reflexivity. Qed.
Lemma reset_ok : forall u s b, rel u s b -> exists s1 e t1, reset u s = Some s1 /\ cur s1 = place b /\
  rel u s1 {| recs := put_rec (place b) (reset_rec (recs b (place b))) (recs b); place := place b; shown := shown b; clip := clip b;
       synced := synced b; disk := disk b; edited := e; edit_t := t1; menu := menu b |}.
Proof.
  intros u s b R. unfold reset. destruct (sets_ok u (cur s) defaults s b R (r_cur _ _ _ R) (good_writes _ defaults_good)) as (s1 & e & t1 & E & R1).
  exists s1, e, t1. split; [exact E|]. split; [exact (r_cur _ _ _ R1)|].
  apply (rel_recs u s1 _ (put_rec (place b) (reset_rec (recs b (place b))) (recs b))) in R1; [exact R1|].
  intros q Q. cbn [recs]. unfold put_rec. destruct (q =? place b); [apply writes_reset|apply same_refl].
Qed.

(** Loading the name. *)
Lemma load_ok : forall s g, file_of (mem s) g -> 0 <= cur s < 25 -> text (rname (g (cur s))) ->
  load_name s = Some (set_name (Some (shows (rname (g (cur s))))) s).
Proof. intros s g F C T. unfold load_name. rewrite (holds_name _ _ (g (cur s)) C T) by (apply F; exact C). reflexivity. Qed.

(** Orders. *)
Lemma order_ok : forall w u s b j, rel u s b -> exists s1, tick_order w u j s = Some s1 /\ rel u s1 (s_order u b).
Proof.
  intros w u s b j R. unfold tick_order. pose proof (r_place _ _ _ R) as P. rewrite (r_cur _ _ _ R).
  destruct (r_sane _ _ _ R _ P) as [T O]. pose proof (r_mem _ _ _ R _ P) as M.
  assert (NF : rval (recs b (place b)) 1 <> 0xFFFFFFFF).
  { intros E. rewrite E in O. cbn in O. intuition discriminate. }
  rewrite (holds_get w j _ _ _ 1 P ltac:(lia) M NF). unfold s_order. cbv zeta.
  set (c := recs b (place b)) in *. set (o := rval c 1) in *.
  assert (OO : o = 0 \/ o = flt 1 \/ o = flt 2 \/ o = flt 3 \/ o = flt 4) by (cbn [In orders] in O; intuition auto).
  (* the order is removed afterwards *)
  assert (FIN : forall s1 b1 g sh cl, rel u s1 b1 -> place b1 = place b -> same_rec (recs b1 (place b)) g ->
     (forall q, q <> place b -> recs b1 q = recs b q) -> shown b1 = sh -> clip b1 = cl -> synced b1 = synced b -> disk b1 = disk b -> menu b1 = menu b ->
     exists s2, set u (cur s1) 1 0 s1 = Some s2 /\ rel u s2
       {| recs := put_rec (place b) (with_val 1 0 g) (recs b); place := place b; shown := sh; clip := cl; synced := synced b;
          disk := disk b; edited := true; edit_t := u; menu := menu b |}).
  { intros s1 b1 g sh cl R1 E1 E2 E3 <- <- E4 E5 E6. rewrite (r_cur _ _ _ R1).
    destruct (set_ok u s1 b1 1 0 R1) as (s2 & ES & R2); [lia|split; lia|intros _; left; reflexivity|]. exists s2. split; [exact ES|].
    rewrite E1, E4, E5, E6 in R2. apply (rel_recs u s2 _ (put_rec (place b) (with_val 1 0 g) (recs b))) in R2; [exact R2|].
    intros q Q. cbn [recs]. unfold put_rec. destruct (Z.eqb_spec q (place b)) as [->|N].
    - destruct E2 as [N2 V2]. split; [exact N2|]. intros v V. cbn [rval with_val]. destruct (v =? 1); [reflexivity|apply V2, V].
    - rewrite E3 by exact N. apply same_refl. }
  destruct OO as [->|[->|[->|[->| ->]]]].
  - change (nonzero 0) with false. change (0 =? 0) with true. cbn iota. exists s. split; [reflexivity|exact R].
  - change (nonzero (flt 1)) with true. change (to_int (flt 1)) with (Some 1). cbn iota. change (1 =? 1) with true. cbn iota.
    destruct (reset_ok u s b R) as (s1 & e & t1 & -> & C1 & R1). apply (FIN s1 _ (reset_rec c) _ _ R1); try reflexivity.
    + cbn [recs]. rewrite put_same. apply same_refl.
    + intros q Q. cbn [recs]. apply put_other, Q.
  - change (nonzero (flt 2)) with true. change (to_int (flt 2)) with (Some 2). cbn iota. change (2 =? 1) with false. change (2 =? 2) with true. cbn iota.
    assert (R1 : rel u (copy_recipe s) {| recs := recs b; place := place b; shown := shown b; clip := Some c; synced := synced b; disk := disk b; edited := edited b; edit_t := edit_t b; menu := menu b |}).
    { assert (BF : holds (fun k => mem s (start (cur s) + k)) c).
      { apply (holds_ext (fun k => mem s (512 * place b + k))); [|destruct T; assumption|exact M]. intros k K. rewrite (r_cur _ _ _ R). f_equal. unfold start, SIZE. lia. }
      unfold copy_recipe. clear FIN. destruct R. constructor; cbn; auto. }
    exact (FIN _ _ c _ _ R1 eq_refl (same_refl _) (fun _ _ => eq_refl) eq_refl eq_refl eq_refl eq_refl eq_refl).
  - change (nonzero (flt 3)) with true. change (to_int (flt 3)) with (Some 3). cbn iota. change (3 =? 1) with false. change (3 =? 2) with false. change (3 =? 3) with true. cbn iota.
    unfold paste_recipe. pose proof (r_buf _ _ _ R) as B. destruct (buf s) as [f|] eqn:EB, (clip b) as [d|] eqn:EC; try contradiction.
    + destruct B as [Hd Td]. set (m1 := copy_in (mem s) (start (cur s)) SIZE f).
      assert (F1 : file_of m1 (put_rec (place b) d (recs b))).
      { unfold m1. rewrite (r_cur _ _ _ R), start0. apply file_put; [exact P|lia|unfold SIZE; lia|apply sane_name, R|apply R|].
        apply holds_whole; [destruct Td; assumption|exact Hd]. }
      assert (L1 : load_name (set_mem m1 s) = Some (set_name (Some (shows (rname d))) (set_mem m1 s))).
      { rewrite (load_ok (set_mem m1 s) _ F1); cbn [cur set_mem]; rewrite (r_cur _ _ _ R); [|exact P|]; rewrite put_same; auto. }
      rewrite L1.
      (* the order that is pasted may be improper, it is removed *)
      unfold set. cbn [cur set_name set_mem mem]. rewrite (r_cur _ _ _ R), val_inside by lia. eexists. split; [reflexivity|].
      assert (F2 : file_of (copy_in m1 (at_val (place b) 1) 4 (byte_of 0)) (put_rec (place b) (with_val 1 0 d) (recs b))).
      { intros q Q. destruct (Z.eq_dec q (place b)) as [->|N].
        - rewrite put_same. replace (at_val (place b) 1) with (start (place b) + (32 + 4 * 1)) by (unfold at_val, OFFSET; lia).
          apply holds_with_val; [lia|split; lia|destruct Td; assumption|]. specialize (F1 _ P). rewrite put_same in F1. exact F1.
        - rewrite put_other by exact N. specialize (F1 q Q). rewrite put_other in F1 by exact N.
          apply (holds_ext (fun k => m1 (512 * q + k))); [|destruct (r_sane _ _ _ R q Q) as [[? _] _]; assumption|exact F1].
          intros k K. symmetry. replace (at_val (place b) 1) with (start (place b) + (32 + 4 * 1)) by (unfold at_val, OFFSET; lia). apply copy_other; lia. }
      assert (S2 : forall q, 0 <= q < 25 -> sane (put_rec (place b) (with_val 1 0 d) (recs b) q)).
      { apply put_sane; [apply R|]. split; [exact Td|left; reflexivity]. }
      clear FIN. destruct R. constructor; cbn; auto; try lia. rewrite EB. auto.
    + exact (FIN _ _ c _ _ R eq_refl (same_refl _) (fun _ _ => eq_refl) eq_refl EC eq_refl eq_refl eq_refl).
  - change (nonzero (flt 4)) with true. change (to_int (flt 4)) with (Some 4). cbn iota. change (4 =? 1) with false. change (4 =? 2) with false. change (4 =? 3) with false. change (4 =? 4) with true. cbn iota.
    unfold nullify. set (m1 := copy_in (mem s) (start (cur s)) SIZE (fun _ => 0)).
    assert (F1 : file_of m1 (put_rec (place b) blank (recs b))).
    { unfold m1. rewrite (r_cur _ _ _ R), start0. apply file_put; [exact P|lia|unfold SIZE; lia|apply sane_name, R|apply R|].
      apply holds_whole; [cbn; lia|]. apply holds_blank. auto. }
    assert (L1 : load_name (set_mem m1 s) = Some (set_name (Some (shows [])) (set_mem m1 s))).
    { rewrite (load_ok (set_mem m1 s) _ F1); cbn [cur set_mem]; rewrite (r_cur _ _ _ R); [|exact P|]; rewrite put_same; [reflexivity|apply text_nil]. }
    rewrite L1.
    assert (R1 : rel u (set_name (Some (shows [])) (set_mem m1 s)) {| recs := put_rec (place b) blank (recs b); place := place b; shown := []; clip := clip b; synced := synced b; disk := disk b; edited := edited b; edit_t := edit_t b; menu := menu b |}).
    { assert (S2 : forall q, 0 <= q < 25 -> sane (put_rec (place b) blank (recs b) q)).
      { apply put_sane; [apply R|]. split; [apply text_nil|left; reflexivity]. }
      clear FIN. destruct R. constructor; cbn; auto using text_nil. }
    apply (FIN _ _ blank _ _ R1); try reflexivity.
    + cbn [recs]. rewrite put_same. apply same_refl.
    + intros q Q. cbn [recs]. apply put_other, Q.
Qed.

Lemma tick_ok : forall w t u s b j, rel t s b -> t <= u -> exists s1, tick w u j s = Some s1 /\ rel u s1 (s_step b (STick u)).
Proof.
  intros w t u s b j R L. unfold tick. destruct (name_ok w t u s b j R L) as (s1 & -> & R1). apply (file_ok w) in R1. exact (order_ok w u _ _ j R1).
Qed.
Lemma go_ok : forall t s b j r, rel t s b -> exists s1, go_to j r s = Some s1 /\ rel t s1 (s_step b (SGo r)).
Proof.
  intros t s b j r R. unfold go_to. cbn [s_step]. cbv zeta. change NREC with 25. destruct ((0 <=? r) && (r <? 25)) eqn:E; [|exists s; auto].
  apply andb_prop in E. destruct (save_ok t s b j R) as (m & -> & F).
  assert (S : forall q, 0 <= q < 25 -> sane (put_rec (place b) (with_name (shown b) (recs b (place b))) (recs b) q)).
  { apply put_sane; [apply R|]. split; [apply R|]. exact (proj2 (r_sane _ _ _ R _ (r_place _ _ _ R))). }
  rewrite (load_ok (set_cur r (set_mem m s)) _ F); cbn [cur set_cur]; [|lia|apply S; lia]. eexists. split; [reflexivity|].
  assert (T : text (rname (put_rec (place b) (with_name (shown b) (recs b (place b))) (recs b) r))) by (apply S; lia).
  destruct R. constructor; cbn; auto; lia.
Qed.
Lemma reload_ok : forall t s b, rel t s b -> exists s1, reload s = Some s1 /\ rel t s1 (s_step b SReload).
Proof.
  intros t s b R. unfold reload. rewrite (load_ok (set_mem (file s) s) (disk b)); cbn [cur set_mem mem]; rewrite ?(r_cur _ _ _ R); [|apply R|apply R|apply R, R].
  eexists. split; [reflexivity|]. assert (T : text (rname (disk b (place b)))) by apply R, R. destruct R. constructor; cbn; auto.
Qed.
Definition deed_time (t : Z) (d : deed) : Z := match d with SVal u _ _ | STick u => u | _ => t end.
Lemma step_ok : forall w t s b d j, rel t s b -> proper d -> t <= deed_time t d -> exists s1, step w s (call d, j) = Some s1 /\ rel (deed_time t d) s1 (s_step b d).
Proof.
  intros w t s b d j R P L. destruct d as [l|u v x|r|u| |c]; cbn [deed_time call] in *; unfold step; cbn [fst snd].
  - cbn [proper] in P. eexists. split; [reflexivity|]. unfold rename. rewrite (text_count _ P). destruct P as (P1 & P2).
    replace (Z.of_nat (length l) <? NLEN) with true by (unfold NLEN; lia).
    replace (Z.of_nat (length (shows l)) <? NCAP) with true by (pose proof (text_len l (conj P1 P2)); unfold NCAP, NLEN; lia).
    assert (T : text l) by (split; assumption). destruct R. constructor; cbn; auto.
  - destruct P as (P1 & P2 & P3). unfold edit. rewrite (r_cur _ _ _ R). replace (v + 1 - 1) with v by lia. apply (rel_later t u) in R; [|exact L].
    exact (set_ok u s b v x R P1 P2 P3).
  - apply go_ok, R.
  - apply (tick_ok w t); assumption.
  - apply reload_ok, R.
  - destruct P as [P1 P2]. eexists. split; [reflexivity|]. pose proof (holds_image c P1 P2). destruct R. constructor; cbn; auto.
Qed.
Lemma timely_cons : forall t d ds, timely t (d :: ds) -> t <= deed_time t d /\ timely (deed_time t d) ds.
Proof. intros t d ds H. destruct d; cbn in *; auto; split; auto; lia. Qed.
Lemma run_ok : forall w ds t s b js, rel t s b -> Forall proper ds -> timely t ds -> length js = length ds ->
  exists s1 u, run w s (combine (map call ds) js) = Some s1 /\ rel u s1 (s_run b ds) /\ t <= u.
Proof.
  intros w ds. induction ds as [|d ds IH]; intros t s b js R P T L.
  - exists s, t. split; [reflexivity|]. split; [exact R|lia].
  - destruct js as [|j js]; [discriminate|]. inversion P as [|? ? P1 P2]; subst. apply timely_cons in T. destruct T as [T1 T2].
    destruct (step_ok w t s b d j R P1 T1) as (s1 & E & R1). cbn [map combine]. injection L as L.
    destruct (IH _ s1 _ js R1 P2 T2 L) as (s2 & u & E2 & R2 & U). exists s2, u. split; [|split; [exact R2|lia]]. cbn [run]. rewrite E. exact E2.
Qed.
Lemma boot_ok : forall w t j f b g c, 0 <= t -> file_of f g -> (forall r, 0 <= r < 25 -> sane (g r)) ->
  match b, c with None, None => True | Some h, Some d => holds h d /\ text (rname d) | _, _ => False end ->
  exists s, boot w t j f b = Some s /\ rel t s {| recs := g; place := 0; shown := rname (g 0); clip := c; synced := t; disk := g; edited := false; edit_t := t; menu := listing g |}.
Proof.
  intros w t j f b g c T F S B. unfold boot. rewrite (load_ok _ g); cbn [mem cur]; [|exact F|lia|apply S; lia].
  rewrite (list_ok w j _ g); [|exact F|apply sane_name, S]. eexists. split; [reflexivity|].
  constructor; cbn; auto; try lia. apply S. lia.
Qed.
Lemma rel_agrees : forall w t s b, rel t s b -> agrees w s b.
Proof.
  intros w t s b R. unfold agrees. split; [|split; [|split; [|split; [|split; [|split]]]]].
  - intros r v j H V N. apply holds_get; auto. apply R, H.
  - intros r H. apply holds_name; [exact H| |]; apply R, H.
  - apply R.
  - apply R.
  - apply R.
  - intros r v j H V N. apply holds_get; auto. apply R, H.
  - intros r H. apply holds_name; [exact H| |]; apply R, H.
Qed.
