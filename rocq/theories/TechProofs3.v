(** Proofs about technological objects: histories. *)
From Coq Require Import ZArith List Bool Lia Relations.
From Verif Require Import Base TimeModel OpModel OpSpec OpProofs OpProofs2 OpProofs3 TechModel TechSpec TechProofs TechProofs2.
Import ListNotations.
Open Scope Z_scope.

Notation st t n := (cur (t_ops t n)).

Lemma s32_range v : - 2 ^ 31 <= s32 v < 2 ^ 31.
Proof. unfold s32. pose proof (Z.mod_pos_bound (v + 2 ^ 31) (2 ^ 32)). lia. Qed.

Lemma do_h_steps R i m c p : known p -> m = true \/ polite c p -> esteps R i m p (do_h R i c p).
Proof.
  intros K M. destruct c as [k val|k n s|k n c|k n]; cbn [do_h].
  - apply set_cmd_steps; auto using s32_range. intros n s E N S X. destruct M as [M|M]; [auto|]. right.
    apply (M n s); auto.
  - apply set_mode_steps; auto.
    + unfold u32. apply Z.mod_pos_bound. lia.
    + intros S X. destruct M as [M|M]; [auto|]. right. apply M; auto.
  - destruct (has p k n) eqn:H; [|apply rt_refl]. destruct (step_call c) eqn:C; [|apply rt_refl]. cbn [andb].
    unfold has in H. apply andb_true_iff in H. rewrite !Z.leb_le in H.
    assert (E : cur (do_call (ienv i k n) c (t_ops (p_obj p k) n)) = cur (t_ops (p_obj p k) n))
      by (destruct c; try discriminate C; reflexivity).
    apply rt_step. apply (EKeep _ _ _ _ _ k n (set_op n (do_call (ienv i k n) c (t_ops (p_obj p k) n)) (p_obj p k)));
      auto using at_put, frame_op; rewrite ?op_same, ?E; auto; apply (K k n H).
  - destruct (has p k n) eqn:H; [|apply rt_refl].
    unfold has in H. apply andb_true_iff in H. rewrite !Z.leb_le in H. apply eval_one_steps; auto.
Qed.

Lemma known_new n ms cf : known (new_plant n ms cf).
Proof. intros k x X. cbn. split; [left; reflexivity|reflexivity]. Qed.
Lemma known_h R i c p : known p -> known (do_h R i c p).
Proof. intros K. eapply known_steps; [|exact K]. apply (do_h_steps R i true); auto. Qed.
Lemma known_run R : forall h p, known p -> known (run_h R h p).
Proof. induction h as [|[i c] h IH]; cbn; auto using known_h. Qed.
Lemma n_h R i c p k : known p -> t_n (p_obj (do_h R i c p) k) = t_n (p_obj p k).
Proof. intros K. apply (steps_n R i true). apply do_h_steps; auto. Qed.
Lemma n_run R k : forall h p, known p -> t_n (p_obj (run_h R h p) k) = t_n (p_obj p k).
Proof.
  induction h as [|[i c] h IH]; cbn; intros p K; [reflexivity|]. rewrite IH by (apply known_h; auto). apply n_h; auto.
Qed.

(** ** An invariant of elementary steps holds along polite histories *)
Lemma inv_run (Q : plant -> Prop) (ok_inp : inp -> Prop) R :
  (forall i p p', known p -> ok_inp i -> Q p -> estep R i false p p' -> Q p') ->
  forall h p, known p -> Q p -> polite_run R h p -> (forall i c, In (i, c) h -> ok_inp i) -> Q (run_h R h p).
Proof.
  intros S. induction h as [|[i c] h IH]; cbn [run_h polite_run]; intros p K q L O; [exact q|].
  destruct L as [L1 L2]. apply IH; auto using known_h; [|intros; apply (O i0 c0); right; auto].
  assert (Oi : ok_inp i) by (apply (O i c); left; reflexivity).
  assert (St : esteps R i false p (do_h R i c p)) by (apply do_h_steps; auto).
  clear - S q K Oi St.
  assert (J : known (do_h R i c p) /\ Q (do_h R i c p)); [|apply J].
  induction St as [a b T| |a b c' T1 IH1 T2 IH2]; auto.
  - split; [eapply known_step; eauto|eapply S; eauto].
  - destruct (IH1 K q). auto.
Qed.

(** ** Agreement *)
Definition agree (p : plant) : Prop :=
  forall k n, 1 <= n <= t_n (p_obj p k) -> get_mode (p_obj p k) n = 1 -> st (p_obj p k) n <> IDLE.
Lemma agree_step R i p p' : agree p -> estep R i false p p' -> agree p'.
Proof.
  intros K S y x X. destruct S as [k t' A N O W _|k n t' A N F G I S1 S2 _|k n t' A N F G G' S1 _|k n t' A N F G G' I S1 _ _|k n t' B A N F G S1 _];
    try discriminate B;
    at_cases A; (destruct (Z.eq_dec y k) as [->|Y];
      [rewrite Ak in *|rewrite (Ao y Y) in *; apply (K y x X)]).
  - rewrite O. rewrite (gm_word _ _ N W). apply K. lia.
  - destruct F as [Fn F]. destruct (Z.eq_dec x n) as [->|D].
    + rewrite G. intros G1 E. apply (K k n N G1). auto.
    + destruct (F x D) as [-> F2]. rewrite F2 by lia. apply K. lia.
  - destruct F as [Fn F]. destruct (Z.eq_dec x n) as [->|D]; [lia|].
    destruct (F x D) as [-> F2]. rewrite F2 by lia. apply K. lia.
  - destruct F as [Fn F]. destruct (Z.eq_dec x n) as [->|D]; [auto|].
    destruct (F x D) as [-> F2]. rewrite F2 by lia. apply K. lia.
Qed.
Lemma agree_new n ms cf : agree (new_plant n ms cf).
Proof.
  intros k x X G. exfalso. rewrite gm_bit in G by exact X. cbn in G. rewrite Z.bits_0 in G. discriminate.
Qed.

(** ** Restrictions *)
Lemma first_none f : forall l, first_in f l = None <-> forall x, In x l -> f x = false.
Proof.
  induction l as [|a l IH]; cbn; [split; [tauto|reflexivity]|]. destruct (f a) eqn:E.
  - split; [discriminate|]. intros H. rewrite (H a) in E by auto. discriminate.
  - rewrite IH. split; [intros H x [->|I]; auto|auto].
Qed.
Lemma first_some f : forall l x, first_in f l = Some x -> In x l /\ f x = true.
Proof.
  induction l as [|a l IH]; cbn; [discriminate|]. intros x. destruct (f a) eqn:E.
  - intros [= <-]. auto.
  - intros H. destruct (IH x H). auto.
Qed.
Lemma in_upto m x : In x (upto m) <-> 1 <= x <= m.
Proof.
  unfold upto. rewrite in_map_iff. split.
  - intros (y & <- & Y). apply in_seq in Y. lia.
  - intros X. exists (Z.to_nat x). split; [lia|]. apply in_seq. lia.
Qed.

Lemma check_zero R i k n p : check_on_mode R i k n p = 0 -> restricting i = true -> forall k' n', 1 <= k' <= p_n p -> 1 <= n' <= t_n (p_obj p k') ->
  blocks R k n k' n' -> get_mode (p_obj p k') n' = 0.
Proof.
  intros C B k' n' Pk Pn Bl. unfold check_on_mode in C. cbv zeta in C. rewrite B in C.
  destruct (first_in (fun x => rin R k n x && _) _) as [x|] eqn:E1 in C.
  { apply first_some in E1. destruct E1 as [E1 _]. apply in_upto in E1. lia. }
  match type of C with context[first_in ?f (upto (p_n p))] => destruct (first_in f (upto (p_n p))) as [y|] eqn:E2 in C end.
  { exfalso. match type of C with context[match first_in ?f ?l with _ => _ end] => destruct (first_in f l) as [x|] eqn:E3 in C end; [|lia].
    apply first_some in E3. destruct E3 as [E3 _]. apply in_upto in E3. lia. }
  rewrite first_none in E1, E2. destruct (gm_01 (p_obj p k') n') as [G|G]; [lia|exact G|exfalso].
  destruct Bl as [[<- Bl]|Bl].
  - specialize (E1 n'). rewrite in_upto in E1. specialize (E1 Pn). rewrite Bl, G in E1. discriminate.
  - specialize (E2 k'). rewrite in_upto in E2. specialize (E2 Pk).
    match type of E2 with (match ?t with _ => _ end) = _ => destruct t eqn:E4 end; [discriminate|].
    rewrite first_none in E4. specialize (E4 n'). rewrite in_upto in E4. specialize (E4 Pn). rewrite Bl, G in E4. discriminate.
Qed.

Definition apart (R : restr) (p : plant) : Prop :=
  forall k n k' n', 1 <= k <= p_n p -> 1 <= k' <= p_n p -> 1 <= n <= t_n (p_obj p k) -> 1 <= n' <= t_n (p_obj p k') ->
    (k, n) <> (k', n') -> blocks R k n k' n' -> get_mode (p_obj p k) n = 1 -> get_mode (p_obj p k') n' = 1 -> False.

(** After an elementary step without marking, an operation reported on was so
    before, unless it is the one just switched on. *)
Lemma on_before R i p p' : estep R i false p p' -> forall y x, 1 <= x -> get_mode (p_obj p' y) x = 1 ->
  get_mode (p_obj p y) x = 1 \/
  (check_on_mode R i y x p = 0 /\ 1 <= x <= t_n (p_obj p y) /\
   forall z w, (z, w) <> (y, x) -> 1 <= w -> get_mode (p_obj p' z) w = 1 -> get_mode (p_obj p z) w = 1).
Proof.
  intros S y x X G. destruct S as [k t' A N O W _|k n t' A N F G1 I S1 S2 _|k n t' A N F G1 G' S1 _|k n t' A N F G1 G' I S1 C _|k n t' B A N F G1 S1 _];
    try discriminate B;
    at_cases A; (destruct (Z.eq_dec y k) as [->|Y];
      [rewrite Ak in *|rewrite (Ao y Y) in *; auto]).
  - rewrite (gm_word _ _ N W) in G. auto.
  - destruct F as [Fn F]. destruct (Z.eq_dec x n) as [->|D]; [rewrite G1 in G; auto|].
    rewrite (proj2 (F x D)) in G by auto. auto.
  - destruct F as [Fn F]. destruct (Z.eq_dec x n) as [->|D]; [lia|].
    rewrite (proj2 (F x D)) in G by auto. auto.
  - destruct F as [Fn F]. destruct (Z.eq_dec x n) as [->|D].
    2:{ rewrite (proj2 (F x D)) in G by auto. auto. }
    right. split; [exact C|]. split; [exact N|]. intros z w NE Wp Gz.
    destruct (Z.eq_dec z k) as [->|Dz]; [|rewrite (Ao z Dz) in Gz; auto].
    rewrite Ak in Gz. rewrite (proj2 (F w ltac:(congruence))) in Gz; auto.
Qed.
Lemma step_pn R i m p p' : estep R i m p p' -> p_n p' = p_n p.
Proof. intros S. destruct S; match goal with A : at_obj _ _ _ _ |- _ => apply A end. Qed.

Lemma apart_step R i p p' : mutual R -> restricting i = true -> apart R p -> estep R i false p p' -> apart R p'.
Proof.
  intros M B A S k n k' n' Pk Pk' Pn Pn' D Bl G G'.
  rewrite (step_pn _ _ _ _ _ S) in *.
  rewrite (steps_n R i false p p' (rt_step _ _ _ _ S)) in Pn, Pn'.
  destruct (on_before _ _ _ _ S k n ltac:(lia) G) as [H|(C & _ & H)].
  - destruct (on_before _ _ _ _ S k' n' ltac:(lia) G') as [H'|(C' & _ & H')].
    + apply (A k n k' n'); auto.
    + pose proof (check_zero _ _ _ _ _ C' B k n Pk Pn (M _ _ _ _ Bl)). lia.
  - pose proof (check_zero _ _ _ _ _ C B k' n' Pk' Pn' Bl) as Z0.
    assert (get_mode (p_obj p k') n' = 1); [|lia]. apply H; auto; lia.
Qed.

(** ** Availability *)
Lemma count_ext f g : forall m, (forall j, 1 <= j <= m -> f j = g j) -> count f m = count g m.
Proof.
  intros m. unfold count. intros H. assert (K : forall r, (r <= Z.to_nat m)%nat -> count_nat f r = count_nat g r).
  { induction r as [|r IH]; intros L; cbn [count_nat]; [reflexivity|]. rewrite IH by lia.
    rewrite (H (Z.of_nat (S r))) by lia. reflexivity. }
  apply K. lia.
Qed.
Lemma count_change f g n m : 1 <= n <= m -> (forall j, 1 <= j <= m -> j <> n -> f j = g j) ->
  count f m = count g m - Z.b2z (g n) + Z.b2z (f n).
Proof.
  intros N. unfold count. intros H.
  assert (K : forall r, (r <= Z.to_nat m)%nat -> count_nat f r = count_nat g r + (if n <=? Z.of_nat r then - Z.b2z (g n) + Z.b2z (f n) else 0)).
  { induction r as [|r IH]; intros L; cbn [count_nat].
    - rewrite (proj2 (Z.leb_gt _ _)) by lia. reflexivity.
    - rewrite IH by lia. destruct (Z.eq_dec n (Z.of_nat (S r))) as [E|E].
      + rewrite <- E. rewrite (proj2 (Z.leb_gt _ _)) by lia. rewrite (proj2 (Z.leb_le _ _)) by lia.
        unfold Z.b2z. destruct (f n), (g n); lia.
      + rewrite (H (Z.of_nat (S r))) by lia.
        destruct (Z.leb_spec n (Z.of_nat r)), (Z.leb_spec n (Z.of_nat (S r))); lia. }
  rewrite K by lia. rewrite (proj2 (Z.leb_le _ _)) by lia. lia.
Qed.
Lemma count_bound f : forall m, 0 <= count f m <= Z.max 0 m.
Proof.
  intros m. unfold count. assert (K : forall r, 0 <= count_nat f r <= Z.of_nat r).
  { induction r as [|r IH]; cbn [count_nat]; [lia|]. destruct (f _); lia. }
  specialize (K (Z.to_nat m)). lia.
Qed.

Definition uf (R : restr) k x (t : tobj) j := negb (j =? x) && rin R k x j && (get_mode t j =? 1).

Lemma u32_u32 a b : u32 (u32 a + b) = u32 (a + b).
Proof. unfold u32. rewrite Zplus_mod_idemp_l. reflexivity. Qed.

Lemma fold_avail R k t mm x : 1 <= x <= mm -> forall r,
  fold_left (fun a j => if get_mode t j =? 1 then check_availability R k j mm a else a)
    (map Z.of_nat (seq 1 r)) (fun _ => 0) x = u32 (count_nat (uf R k x t) r).
Proof.
  intros X. induction r as [|r IH]; [reflexivity|].
  rewrite seq_S, map_app, fold_left_app. cbn [map fold_left]. cbn [count_nat].
  change (1 + r)%nat with (S r). unfold uf at 2.
  destruct (get_mode t (Z.of_nat (S r)) =? 1); [|rewrite andb_false_r, Z.add_0_r; exact IH].
  rewrite andb_true_r. unfold check_availability at 1.
  rewrite (proj2 (Z.leb_le 1 x)), (proj2 (Z.leb_le x mm)) by lia. cbn [andb].
  rewrite (Z.eqb_sym x). destruct (negb _ && rin R k x _); [|rewrite Z.add_0_r; exact IH].
  rewrite IH. apply u32_u32.
Qed.

Lemma init_avail R k n t x : 1 <= x <= t_n t -> 1 <= n <= t_n t ->
  t_avail (init_availability R k n t) x =
  u32 (count (uf R k x t) (t_n t) + Z.b2z (negb (n =? x) && rin R k x n)).
Proof.
  intros X N. unfold init_availability. cbn [t_avail set_avail]. unfold check_availability at 1.
  unfold upto. rewrite fold_avail by auto.
  rewrite (proj2 (Z.leb_le 1 x)), (proj2 (Z.leb_le x (t_n t))) by lia. cbn [andb].
  rewrite (Z.eqb_sym x). destruct (negb _ && rin R k x n); cbn [Z.b2z]; [apply u32_u32|].
  rewrite Z.add_0_r. reflexivity.
Qed.

Definition counted (R : restr) (p : plant) : Prop :=
  forall k x, 1 <= x <= t_n (p_obj p k) -> t_avail (p_obj p k) x = u32 (blockers R p k x).

Lemma blockers_frame R k x n t t' : 1 <= n <= t_n t -> frame n t t' ->
  count (uf R k x t') (t_n t') = count (uf R k x t) (t_n t) - Z.b2z (uf R k x t n) + Z.b2z (uf R k x t' n).
Proof.
  intros N [F1 F2]. rewrite F1. apply count_change; auto. intros j J D. unfold uf.
  rewrite (proj2 (F2 j D)) by lia. reflexivity.
Qed.

Lemma counted_step R i p p' : (forall k n x, rnext R k n x = false) -> counted R p -> estep R i false p p' -> counted R p'.
Proof.
  intros NX K S y x X.
  assert (BL : forall q, blockers R q y x = count (uf R y x (p_obj q y)) (t_n (p_obj q y))) by reflexivity.
  specialize (K y x). rewrite BL in K. rewrite BL. clear BL.
  destruct S as [k t' A N O W V|k n t' A N F G I S1 S2 V|k n t' A N F G G' S1 V|k n t' A N F G G' I S1 C V|k n t' B A N F G S1 V];
    try discriminate B;
    at_cases A; (destruct (Z.eq_dec y k) as [->|Y];
      [rewrite Ak in *|rewrite (Ao y Y) in *; apply (K X)]).
  - rewrite V. rewrite K by lia. f_equal. rewrite N. apply count_ext. intros j J. unfold uf.
    rewrite (gm_word _ _ N W). reflexivity.
  - rewrite V, (blockers_frame _ _ _ _ _ _ N F). destruct F as [F1 _]. rewrite K by lia. f_equal.
    assert (E : uf R k x t' n = uf R k x (p_obj p k) n) by (unfold uf; rewrite G; reflexivity). rewrite E. lia.
  - rewrite V, (blockers_frame _ _ _ _ _ _ N F). destruct F as [F1 _]. rewrite F1 in X.
    unfold final_availability. cbn [t_avail set_avail]. rewrite NX, andb_false_r.
    rewrite (proj2 (Z.leb_le 1 x)), (proj2 (Z.leb_le x (t_n (p_obj p k)))) by lia. cbn [andb].
    rewrite K by lia.
    assert (E : uf R k x (p_obj p k) n = negb (n =? x) && rin R k x n) by (unfold uf; rewrite G; apply andb_true_r).
    assert (E' : uf R k x t' n = false) by (unfold uf; rewrite G'; apply andb_false_r).
    rewrite E, E', (Z.eqb_sym x n).
    destruct (negb _ && rin R k x n); cbn [Z.b2z]; [|f_equal; lia].
    unfold Z.sub at 1. rewrite u32_u32. f_equal. lia.
  - rewrite V, (blockers_frame _ _ _ _ _ _ N F). destruct F as [F1 _]. rewrite F1 in X.
    rewrite init_avail by auto. f_equal.
    assert (E : uf R k x t' n = negb (n =? x) && rin R k x n) by (unfold uf; rewrite G'; apply andb_true_r).
    assert (E' : uf R k x (p_obj p k) n = false) by (unfold uf; rewrite G; apply andb_false_r).
    rewrite E, E'. cbn [Z.b2z]. lia.
Qed.
Lemma counted_new R n ms cf : counted R (new_plant n ms cf).
Proof.
  intros k x X. unfold blockers. cbn [new_plant p_obj new_tobj t_avail t_n].
  rewrite (count_ext _ (fun _ => false)).
  - assert (E : forall r, count_nat (fun _ => false) r = 0) by (induction r; cbn; lia). unfold count. rewrite E. reflexivity.
  - intros j J. destruct (gm_01 (new_tobj (ms k) (cf k)) j) as [G|G]; [lia| |].
    + rewrite G. apply andb_false_r.
    + exfalso. rewrite gm_bit in G by exact J. cbn in G. rewrite Z.bits_0 in G. discriminate.
Qed.
