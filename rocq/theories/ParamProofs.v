From Coq Require Import ZArith List Bool Lia.
From Verif Require Import Base NvModel NvSpec NvProofs ParamModel ParamSpec.
Import ListNotations.
Open Scope Z_scope.

(* ---- layout ---- *)

Lemma total_nonneg cs : Forall (fun c => 0 <= c) cs -> 0 <= total cs.
Proof. induction 1; cbn [total]; lia. Qed.

Lemma consecutive_nth cs : forall s n a,
  Forall (fun c => 0 <= c) cs ->
  nth_error (consecutive s cs) n = Some a ->
  nth_error cs n = Some (p_count a) /\
  p_start a = s + total (firstn n cs) /\
  0 <= p_count a /\
  s <= p_start a /\ p_start a + 4 * p_count a <= s + total cs.
Proof.
  induction cs as [|c cs IH]; intros s n a Hf Hn.
  - destruct n; discriminate.
  - inversion Hf as [|? ? Hc Hcs]; subst.
    pose proof (total_nonneg cs Hcs) as Ht.
    destruct n as [|n]; cbn [consecutive nth_error firstn total] in *.
    + injection Hn as <-. cbn [p_start p_count]. repeat split; lia.
    + destruct (IH _ _ _ Hcs Hn) as (E1 & E2 & E3 & E4 & E5).
      repeat split; auto; lia.
Qed.

Lemma consecutive_some cs : forall s n c,
  nth_error cs n = Some c -> exists a, nth_error (consecutive s cs) n = Some a /\ p_count a = c.
Proof.
  induction cs as [|c0 cs IH]; intros s n c Hn.
  - destruct n; discriminate.
  - destruct n as [|n]; cbn [consecutive nth_error] in *.
    + injection Hn as ->. eexists; split; reflexivity.
    + apply IH. exact Hn.
Qed.

Lemma consecutive_none cs : forall s n,
  nth_error cs n = None -> nth_error (consecutive s cs) n = None.
Proof.
  induction cs as [|c0 cs IH]; intros s n Hn; destruct n as [|n]; cbn in *; auto; discriminate.
Qed.

Lemma consecutive_disjoint cs : forall s n n' a a',
  Forall (fun c => 0 <= c) cs -> (n < n')%nat ->
  nth_error (consecutive s cs) n = Some a ->
  nth_error (consecutive s cs) n' = Some a' ->
  p_start a + 4 * p_count a <= p_start a'.
Proof.
  induction cs as [|c cs IH]; intros s n n' a a' Hf Hlt H1 H2.
  - destruct n; discriminate.
  - inversion Hf as [|? ? Hc Hcs]; subst.
    destruct n as [|n]; destruct n' as [|n']; try lia; cbn [consecutive nth_error] in *.
    + injection H1 as <-. cbn [p_start p_count].
      destruct (consecutive_nth _ _ _ _ Hcs H2) as (_ & _ & _ & E & _). lia.
    + apply (IH (s + 4 * c) n n'); auto. lia.
Qed.

Section Layout.
  Variable counts : list Z.
  Hypothesis Hfits : fits counts.

  Local Notation arrs := (project counts).
  Local Notation L := (project_size counts).

  Lemma counts_pos : Forall (fun c => 0 <= c) (1 :: counts).
  Proof. destruct Hfits as [H _]. constructor; [lia | exact H]. Qed.

  Lemma arr_bounds n a :
    nth_error arrs n = Some a ->
    nth_error (1 :: counts) n = Some (p_count a) /\ 0 <= p_count a /\
    0 <= p_start a /\ p_start a + 4 * p_count a <= C_TOTAL_PARAMS_SIZE /\
    (p_count a = 0 -> 0 < p_start a).
  Proof.
    intros Hn. pose proof (consecutive_nth _ _ _ _ counts_pos Hn) as (E1 & E2 & E3 & E4 & E5).
    destruct Hfits as [Hc Ht]. repeat split; auto; try lia.
    intros Hz. destruct n as [|n].
    - cbn in E1. injection E1 as E1. lia.
    - rewrite E2. cbn [firstn total].
      assert (0 <= total (firstn n counts)); [|lia].
      apply total_nonneg. apply Forall_forall. intros x Hx.
      rewrite Forall_forall in Hc. apply Hc.
      rewrite <- (firstn_skipn n counts). apply in_or_app. left. exact Hx.
  Qed.

  Definition addr (a : parr) (idx : Z) : Z := p_start a + 4 * (idx - 1).

  Lemma validb_arr n a idx :
    nth_error arrs n = Some a -> validb counts n idx = in_range a idx.
  Proof.
    intros Hn. destruct (arr_bounds n a Hn) as (E & _).
    unfold validb, in_range. rewrite E. lia.
  Qed.

  Lemma validb_none n idx : nth_error arrs n = None -> validb counts n idx = false.
  Proof.
    intros Hn. unfold validb.
    destruct (nth_error (1 :: counts) n) as [c|] eqn:E; [|reflexivity].
    destruct (consecutive_some _ 0 _ _ E) as (a & Ha & _).
    fold (project counts) in Ha. congruence.
  Qed.

  Lemma addr_apart n a i n' a' i' :
    nth_error arrs n = Some a -> nth_error arrs n' = Some a' ->
    in_range a i = true -> in_range a' i' = true ->
    (n <> n' \/ i <> i') ->
    addr a i + 4 <= addr a' i' \/ addr a' i' + 4 <= addr a i.
  Proof.
    intros Hn Hn' Hi Hi' Hd. unfold in_range, addr in *.
    destruct (Nat.lt_trichotomy n n') as [Hlt | [Heq | Hgt]].
    - pose proof (consecutive_disjoint _ _ _ _ _ _ counts_pos Hlt Hn Hn'). lia.
    - subst n'. assert (a' = a) by congruence. subst a'. lia.
    - pose proof (consecutive_disjoint _ _ _ _ _ _ counts_pos Hgt Hn' Hn). lia.
  Qed.

  (* ---- storage image ---- *)

  Lemma params_addr x : 0 <= x <= C_TOTAL_PARAMS_SIZE -> file_addr params_mem x = 64 + x.
  Proof.
    unfold C_TOTAL_PARAMS_SIZE. intros H. unfold file_addr; cbn [params_mem r_kind r_start avail_start].
    unfold NVRAM_SIZE. rewrite (u32_small (32 + x)) by lia. rewrite u32_small by lia. lia.
  Qed.

  Lemma pm_save_in s start c :
    0 <= start -> 0 < c -> start + c <= C_TOTAL_PARAMS_SIZE ->
    pm_save s start c =
    mkP (mwrite (p_file s) (64 + start) (fun i => p_ram s (start + i)) c) (p_ram s) (p_stub s).
  Proof.
    intros H1 H2 H3. unfold pm_save.
    replace (c =? 0) with false by lia.
    unfold range_write, check_params. unfold C_TOTAL_PARAMS_SIZE in *.
    rewrite u32_small by lia. cbn [params_mem r_size]. unfold C_TOTAL_PARAMS_SIZE.
    replace (30720 <? start + c) with false by lia.
    fold params_mem. rewrite params_addr by (unfold C_TOTAL_PARAMS_SIZE; lia).
    reflexivity.
  Qed.

  Lemma pm_save_empty s start :
    0 < start <= C_TOTAL_PARAMS_SIZE -> pm_save s start 0 = s.
  Proof.
    unfold C_TOTAL_PARAMS_SIZE. intros H. unfold pm_save. cbn [Z.eqb].
    unfold range_write, check_params, C_TOTAL_PARAMS_SIZE.
    rewrite u32_small by lia. cbn [params_mem r_size]. unfold C_TOTAL_PARAMS_SIZE.
    replace (30720 <? start + 30720) with true by lia.
    destruct s; reflexivity.
  Qed.

  Lemma img_mwrite f start g c x :
    img (mwrite f (64 + start) g c) x =
    if (start <=? x) && (x <? start + c) then g (x - start) else img f x.
  Proof.
    unfold img, mwrite.
    replace ((64 + start <=? 64 + x) && (64 + x <? 64 + start + c))
      with ((start <=? x) && (x <? start + c)) by lia.
    destruct ((start <=? x) && (x <? start + c)); [f_equal; lia | reflexivity].
  Qed.

  Lemma stored_size_eq f :
    stored_size f = le4 f 4.
  Proof. reflexivity. Qed.

  Lemma stored_size_mwrite f start g c :
    0 <= start -> stored_size (mwrite f (64 + start) g c) = stored_size f.
  Proof.
    intros H. rewrite !stored_size_eq. unfold le4.
    rewrite !mwrite_out by lia. reflexivity.
  Qed.

  (* ---- 4-byte cells ---- *)

  Lemma byte_of_range v k : 0 <= byte_of v k < 256.
  Proof. unfold byte_of. apply Z.mod_pos_bound. lia. Qed.

  Lemma le4_bytes v : 0 <= v < 2 ^ 32 ->
    byte_of v 0 + 256 * byte_of v 1 + 65536 * byte_of v 2 + 16777216 * byte_of v 3 = v.
  Proof.
    intros Hv. unfold byte_of.
    change (256 ^ 0) with 1. change (256 ^ 1) with 256.
    change (256 ^ 2) with 65536. change (256 ^ 3) with 16777216.
    rewrite Z.div_1_r.
    Z.div_mod_to_equations. lia.
  Qed.

  Lemma le4_store_same r a v : 0 <= v < 2 ^ 32 -> le4 (ram_store r a v) a = v.
  Proof.
    intros Hv. unfold le4, ram_store. rewrite !mwrite_in by lia.
    replace (a - a) with 0 by lia. replace (a + 1 - a) with 1 by lia.
    replace (a + 2 - a) with 2 by lia. replace (a + 3 - a) with 3 by lia.
    apply le4_bytes. exact Hv.
  Qed.

  Lemma le4_store_other r a v b :
    a + 4 <= b \/ b + 4 <= a -> le4 (ram_store r a v) b = le4 r b.
  Proof.
    intros Hd. unfold le4, ram_store. rewrite !mwrite_out by lia. reflexivity.
  Qed.

  Lemma le4_ext m m' a : (forall x, a <= x < a + 4 -> m x = m' x) -> le4 m a = le4 m' a.
  Proof. intros H. unfold le4. rewrite !H by lia. reflexivity. Qed.

  (* ---- refinement ---- *)

  Definition R (s : pstate) (t : abstract) : Prop :=
    stored_size (p_file s) = L /\
    forall n a i, nth_error arrs n = Some a -> in_range a i = true ->
      le4 (p_ram s) (addr a i) = cur t n i /\
      le4 (img (p_file s)) (addr a i) = sto t n i.

  Lemma addr_in n a i :
    nth_error arrs n = Some a -> in_range a i = true ->
    0 <= addr a i /\ addr a i + 4 <= C_TOTAL_PARAMS_SIZE.
  Proof.
    intros Hn Hi. destruct (arr_bounds n a Hn) as (_ & H1 & H2 & H3 & _).
    unfold in_range, addr in *. lia.
  Qed.

  Lemma put_same f n i v : put f n i v n i = v.
  Proof. unfold put. rewrite Nat.eqb_refl, Z.eqb_refl. reflexivity. Qed.

  Lemma put_other f n i v n' i' : n' <> n \/ i' <> i -> put f n i v n' i' = f n' i'.
  Proof.
    intros H. unfold put. destruct (Nat.eqb n' n) eqn:E; [|reflexivity].
    apply Nat.eqb_eq in E. destruct (i' =? i) eqn:E2; [|reflexivity]. lia.
  Qed.

  Lemma eq_dec2 (n n' : nat) (i i' : Z) : (n = n' /\ i = i') \/ (n' <> n \/ i' <> i).
  Proof. destruct (Nat.eq_dec n n'), (Z.eq_dec i i'); subst; auto; right; auto. Qed.

  Lemma pm_init_ram f x :
    0 <= x < C_TOTAL_PARAMS_SIZE -> p_ram (pm_init f) x = img f x.
  Proof.
    intros H. unfold pm_init, range_read, check_params.
    unfold C_TOTAL_PARAMS_SIZE in *. cbn [params_mem r_size].
    unfold C_TOTAL_PARAMS_SIZE. rewrite u32_small by lia.
    replace (30720 <? 0 + 30720) with false by lia. cbn [p_ram].
    replace ((0 <=? x) && (x <? 30720)) with true by lia.
    fold params_mem. rewrite params_addr by (unfold C_TOTAL_PARAMS_SIZE; lia).
    reflexivity.
  Qed.

  Lemma pm_init_file f : p_file (pm_init f) = f.
  Proof. reflexivity. Qed.

  Lemma le4_img_mwrite_whole f ram start c b :
    0 <= start -> start <= b -> b + 4 <= start + c ->
    le4 (img (mwrite f (64 + start) (fun i => ram (start + i)) c)) b = le4 ram b.
  Proof.
    intros H0 H1 H2. apply le4_ext. intros x Hx. rewrite img_mwrite.
    replace ((start <=? x) && (x <? start + c)) with true by lia. f_equal. lia.
  Qed.

  Lemma le4_img_mwrite_other f g start c b :
    b + 4 <= start \/ start + c <= b ->
    le4 (img (mwrite f (64 + start) g c)) b = le4 (img f) b.
  Proof.
    intros H. apply le4_ext. intros x Hx. rewrite img_mwrite.
    replace ((start <=? x) && (x <? start + c)) with false by lia. reflexivity.
  Qed.

  Lemma step_R s t o : R s t -> op_u32 o -> R (pstep arrs L s o) (astep counts t o).
  Proof.
    intros [Hm Hr] Hv. destruct o as [n i v | n i v | n | n | d]; cbn [pstep astep].
    - (* set *)
      destruct (nth_error arrs n) as [a|] eqn:Hn.
      2:{ rewrite (validb_none n i Hn). split; assumption. }
      rewrite (validb_arr n a i Hn). unfold p_set.
      destruct (in_range a i) eqn:Hi; [|split; [exact Hm | exact Hr]].
      split; [exact Hm|]. cbn [p_ram p_file cur sto].
      intros n' a' i' Hn' Hi'. destruct (Hr n' a' i' Hn' Hi') as [H1 H2].
      split; [|exact H2]. fold (addr a i).
      destruct (eq_dec2 n n' i i') as [[-> ->] | Hd].
      + assert (a' = a) by congruence. subst a'. rewrite put_same.
        apply le4_store_same. exact Hv.
      + rewrite put_other by exact Hd. rewrite le4_store_other; [exact H1|].
        destruct (addr_apart n a i n' a' i' Hn Hn' Hi Hi'); auto; lia.
    - (* save *)
      destruct (nth_error arrs n) as [a|] eqn:Hn.
      2:{ rewrite (validb_none n i Hn). split; assumption. }
      rewrite (validb_arr n a i Hn). unfold p_save.
      destruct (in_range a i) eqn:Hi; [|split; [exact Hm | exact Hr]].
      pose proof (addr_in n a i Hn Hi) as Ha. unfold addr in Ha.
      rewrite pm_save_in by lia. cbn [p_ram p_file p_stub].
      replace (p_start a + (i - 1) * 4) with (addr a i) by (unfold addr; lia).
      fold (addr a i) in Ha |- *.
      split; cbn [p_file]; [rewrite stored_size_mwrite by lia; exact Hm|].
      cbn [p_ram cur sto]. intros n' a' i' Hn' Hi'.
      destruct (Hr n' a' i' Hn' Hi') as [H1 H2].
      destruct (eq_dec2 n n' i i') as [[-> ->] | Hd].
      + assert (a' = a) by congruence. subst a'. rewrite !put_same.
        rewrite le4_img_mwrite_whole by lia.
        split; apply le4_store_same; exact Hv.
      + rewrite !put_other by exact Hd.
        assert (addr a i + 4 <= addr a' i' \/ addr a' i' + 4 <= addr a i) as Hap
          by (apply (addr_apart n a i n' a' i'); auto; lia).
        rewrite le4_store_other by exact Hap.
        rewrite le4_img_mwrite_other by lia. auto.
    - (* save_all *)
      destruct (nth_error arrs n) as [a|] eqn:Hn.
      2:{ split; [exact Hm|]. cbn [cur sto]. intros n' a' i' Hn' Hi'.
          unfold put_array. destruct (Nat.eqb n' n) eqn:E.
          - apply Nat.eqb_eq in E. congruence.
          - apply Hr; auto. }
      destruct (arr_bounds n a Hn) as (_ & B1 & B2 & B3 & B4).
      unfold p_save_all. destruct (Z.eq_dec (p_count a) 0) as [Hz | Hnz].
      + replace (p_count a * 4) with 0 by lia.
        rewrite pm_save_empty by (specialize (B4 Hz); lia).
        split; [exact Hm|]. cbn [cur sto]. intros n' a' i' Hn' Hi'.
        unfold put_array. destruct (Nat.eqb n' n) eqn:E; [|apply Hr; auto].
        apply Nat.eqb_eq in E. subst n'. assert (a' = a) by congruence. subst a'.
        unfold in_range in Hi'. lia.
      + rewrite pm_save_in by lia.
        split; cbn [p_file]; [rewrite stored_size_mwrite by lia; exact Hm|].
        cbn [p_ram cur sto]. intros n' a' i' Hn' Hi'.
        destruct (Hr n' a' i' Hn' Hi') as [H1 H2]. split; [exact H1|].
        unfold put_array. destruct (Nat.eqb n' n) eqn:E.
        * apply Nat.eqb_eq in E. subst n'. assert (a' = a) by congruence. subst a'.
          unfold in_range in Hi'.
          rewrite le4_img_mwrite_whole; [exact H1 | | unfold addr; lia | unfold addr; lia]. lia.
        * apply Nat.eqb_neq in E. rewrite le4_img_mwrite_other; [exact H2|].
          unfold in_range, addr in *.
          destruct (Nat.lt_trichotomy n n') as [Hlt | [Heq | Hgt]]; [ | congruence | ].
          -- pose proof (consecutive_disjoint _ _ _ _ _ _ counts_pos Hlt Hn Hn'). lia.
          -- pose proof (consecutive_disjoint _ _ _ _ _ _ counts_pos Hgt Hn' Hn). lia.
    - (* reset *)
      destruct (nth_error arrs n) as [a|] eqn:Hn.
      2:{ split; [exact Hm|]. cbn [cur sto]. intros n' a' i' Hn' Hi'.
          unfold put_array. destruct (Nat.eqb n' n) eqn:E.
          - apply Nat.eqb_eq in E. congruence.
          - apply Hr; auto. }
      destruct (arr_bounds n a Hn) as (_ & B1 & B2 & B3 & B4).
      unfold p_reset0. destruct (Z.eq_dec (p_count a) 0) as [Hz | Hnz].
      + replace (4 * p_count a) with 0 by lia.
        rewrite pm_save_empty by (specialize (B4 Hz); lia).
        split; [exact Hm|]. cbn [p_ram p_file cur sto]. intros n' a' i' Hn' Hi'.
        unfold put_array. destruct (Nat.eqb n' n) eqn:E.
        * apply Nat.eqb_eq in E. subst n'. assert (a' = a) by congruence. subst a'.
          unfold in_range in Hi'. lia.
        * destruct (Hr n' a' i' Hn' Hi') as [H1 H2]. split; [|exact H2].
          rewrite <- H1. apply le4_ext. intros x Hx. apply mwrite_out. lia.
      + rewrite pm_save_in by lia. cbn [p_ram p_file p_stub].
        split; cbn [p_file]; [rewrite stored_size_mwrite by lia; exact Hm|].
        cbn [p_ram cur sto]. intros n' a' i' Hn' Hi'.
        destruct (Hr n' a' i' Hn' Hi') as [H1 H2].
        unfold put_array. destruct (Nat.eqb n' n) eqn:E.
        * apply Nat.eqb_eq in E. subst n'. assert (a' = a) by congruence. subst a'.
          unfold in_range in Hi'.
          rewrite le4_img_mwrite_whole by (unfold addr; lia).
          assert (le4 (mwrite (p_ram s) (p_start a) (fun _ => 0) (p_count a * 4)) (addr a i') = 0) as ->.
          { unfold le4, addr. rewrite !mwrite_in by lia. reflexivity. }
          auto.
        * apply Nat.eqb_neq in E.
          assert (addr a' i' + 4 <= p_start a \/ p_start a + 4 * p_count a <= addr a' i') as Hap.
          { unfold in_range, addr in *.
            destruct (Nat.lt_trichotomy n n') as [Hlt | [Heq | Hgt]]; [ | congruence | ].
            -- pose proof (consecutive_disjoint _ _ _ _ _ _ counts_pos Hlt Hn Hn'). lia.
            -- pose proof (consecutive_disjoint _ _ _ _ _ _ counts_pos Hgt Hn' Hn). lia. }
          rewrite le4_img_mwrite_other by lia. split; [|exact H2].
          rewrite <- H1. apply le4_ext. intros x Hx. apply mwrite_out. lia.
    - (* reboot *)
      unfold boot, final_init. rewrite pm_init_file, Hm, Z.eqb_refl.
      split; [exact Hm|]. cbn [cur sto]. intros n' a' i' Hn' Hi'.
      destruct (Hr n' a' i' Hn' Hi') as [H1 H2]. rewrite pm_init_file.
      split; [|exact H2]. rewrite <- H2.
      pose proof (addr_in n' a' i' Hn' Hi'). apply le4_ext. intros x Hx.
      apply pm_init_ram. lia.
  Qed.

  Lemma run_R l : forall s t, R s t -> Forall op_u32 l ->
    R (prun arrs L s l) (arun counts t l).
  Proof.
    induction l as [|o l IH]; intros s t HR Hf; [exact HR|].
    inversion Hf; subst. cbn [prun arun fold_left]. apply IH; auto.
    apply step_R; auto.
  Qed.

  Definition abs_of (s : pstate) : abstract :=
    mkAbs (fun n i => match nth_error arrs n with
                      | Some a => le4 (p_ram s) (addr a i) | None => 0 end)
          (fun n i => match nth_error arrs n with
                      | Some a => le4 (img (p_file s)) (addr a i) | None => 0 end).

  Lemma R_abs s : stored_size (p_file s) = L -> R s (abs_of s).
  Proof.
    intros Hm. split; [exact Hm|]. intros n a i Hn Hi. cbn [abs_of cur sto].
    rewrite Hn. auto.
  Qed.
End Layout.

Lemma param_history counts f0 d0 l :
  fits counts -> stored_size f0 = project_size counts -> Forall op_u32 l ->
  let s0 := boot f0 (project_size counts) d0 in
  exists t0, cur t0 = sto t0 /\
  forall n a i, nth_error (project counts) n = Some a -> valid counts n i ->
    p_get (prun (project counts) (project_size counts) s0 l) n a i
    = cur (arun counts t0 l) n i.
Proof.
  intros Hf Hm Hl s0.
  set (img0 := fun n i => match nth_error (project counts) n with
                      | Some a => le4 (img f0) (addr a i) | None => 0 end).
  exists (mkAbs img0 img0). split; [reflexivity|].
  intros n a i Hn (c & Hc & Hi).
  assert (Hs0 : s0 = pm_init f0).
  { unfold s0, boot, final_init. rewrite pm_init_file, Hm, Z.eqb_refl. reflexivity. }
  assert (HR : R counts s0 (mkAbs img0 img0)).
  { rewrite Hs0. split; [exact Hm|]. intros n' a' i' Hn' Hi'. cbn [cur sto].
    rewrite pm_init_file. unfold img0. rewrite Hn'. split; [|reflexivity].
    pose proof (addr_in counts Hf n' a' i' Hn' Hi'). apply le4_ext. intros x Hx.
    apply pm_init_ram. lia. }
  pose proof (run_R counts Hf l s0 _ HR Hl) as [_ HR'].
  destruct (arr_bounds counts Hf n a Hn) as (E & _).
  assert (Hir : in_range a i = true) by (unfold in_range; rewrite E in Hc; injection Hc as ->; lia).
  destruct (HR' n a i Hn Hir) as [H1 _].
  unfold p_get. rewrite Hir. exact H1.
Qed.

(* ---- C06: allocation of the arrays ---- *)

Lemma make_arrays_expected counts : forall used,
  0 <= used <= C_TOTAL_PARAMS_SIZE -> Forall (fun c => 0 <= c < 2 ^ 29) counts ->
  snd (make_arrays used counts) = expected_starts used counts.
Proof.
  unfold C_TOTAL_PARAMS_SIZE.
  induction counts as [|c rest IH]; intros used Hu Hf; [reflexivity|].
  inversion Hf as [|? ? Hc Hr]; subst.
  cbn [make_arrays expected_starts]. unfold get_params_data, C_TOTAL_PARAMS_SIZE.
  rewrite u32_small by lia.
  destruct (used + 4 * c <=? 30720) eqn:E.
  - replace (30720 <? used + c * 4) with false by lia.
    replace (used + c * 4) with (used + 4 * c) by lia.
    specialize (IH (used + 4 * c)). destruct (make_arrays _ rest).
    cbn [snd] in *. rewrite IH; auto; lia.
  - replace (30720 <? used + c * 4) with true by lia.
    specialize (IH used). destruct (make_arrays _ rest).
    cbn [snd] in *. rewrite IH; auto; lia.
Qed.

Lemma make_arrays_fits_gen cs : forall s,
  0 <= s -> Forall (fun c => 0 <= c) cs -> s + total cs <= C_TOTAL_PARAMS_SIZE ->
  make_arrays s cs =
    (s + total cs, map (fun a => Some (p_start a)) (consecutive s cs)).
Proof.
  unfold C_TOTAL_PARAMS_SIZE.
  induction cs as [|c cs IH]; intros s Hs Hf Ht.
  - cbn [make_arrays total consecutive map]. f_equal. lia.
  - inversion Hf as [|? ? Hc Hr]; subst. cbn [total] in *.
    pose proof (total_nonneg cs Hr).
    cbn [make_arrays consecutive map p_start]. unfold get_params_data, C_TOTAL_PARAMS_SIZE.
    rewrite u32_small by lia.
    replace (30720 <? s + c * 4) with false by lia.
    replace (s + c * 4) with (s + 4 * c) by lia.
    rewrite IH by (auto; lia). f_equal. lia.
Qed.

Lemma project_is_created counts :
  fits counts ->
  make_arrays 0 (1 :: counts) =
    (project_size counts, map (fun a => Some (p_start a)) (project counts)).
Proof.
  intros Hf. rewrite make_arrays_fits_gen; [reflexivity | lia | |].
  - apply counts_pos; exact Hf.
  - destruct Hf. lia.
Qed.

(* ---- C05: out of range ---- *)

Lemma oor_step counts s o n idx v :
  fits counts -> (o = PSet n idx v \/ o = PSave n idx v) -> ~ valid counts n idx ->
  p_file (pstep (project counts) (project_size counts) s o) = p_file s /\
  p_ram (pstep (project counts) (project_size counts) s o) = p_ram s.
Proof.
  intros Hf Ho Hv.
  assert (Hb : validb counts n idx = false).
  { unfold validb. destruct (nth_error (1 :: counts) n) as [c|] eqn:E; [|reflexivity].
    destruct ((1 <=? idx) && (idx <=? c)) eqn:E2; [|reflexivity].
    exfalso. apply Hv. exists c. split; [exact E | lia]. }
  destruct Ho as [-> | ->]; cbn [pstep].
  - destruct (nth_error (project counts) n) as [a|] eqn:Hn; [|auto].
    rewrite (validb_arr counts Hf n a idx Hn) in Hb. unfold p_set. rewrite Hb. auto.
  - destruct (nth_error (project counts) n) as [a|] eqn:Hn; [|auto].
    rewrite (validb_arr counts Hf n a idx Hn) in Hb. unfold p_save. rewrite Hb. auto.
Qed.

Lemma pm_save_stub s a c : p_stub (pm_save s a c) = p_stub s.
Proof. unfold pm_save. destruct (range_write _ _ _ _ _). reflexivity. Qed.

Lemma boot_stub f L d n : p_stub (boot f L d) n = 0.
Proof.
  unfold boot, final_init. destruct (stored_size _ =? L); [reflexivity|].
  destruct (range_write _ _ _ _ _). rewrite pm_save_stub. reflexivity.
Qed.

Lemma stub_last counts l : forall s n a acc,
  fits counts -> nth_error (project counts) n = Some a -> p_stub s n = acc ->
  p_stub (prun (project counts) (project_size counts) s l) n = last_oor counts n acc l.
Proof.
  induction l as [|o l IH]; intros s n a acc Hf Hn Hs; [exact Hs|].
  cbn [prun fold_left].
  destruct o as [n' i v | n' i v | n' | n' | d]; cbn [last_oor pstep].
  - apply (IH _ n a); auto. destruct (nth_error (project counts) n') as [a'|] eqn:Hn'.
    + unfold p_set. destruct (Nat.eqb n n') eqn:E.
      * apply Nat.eqb_eq in E. subst n'.
        rewrite (validb_arr counts Hf n a' i Hn').
        destruct (in_range a' i); cbn [p_stub negb andb]; [exact Hs|].
        unfold upd_stub. rewrite Nat.eqb_refl. reflexivity.
      * cbn [andb]. destruct (in_range a' i); cbn [p_stub]; [exact Hs|].
        unfold upd_stub. rewrite E. exact Hs.
    + destruct (Nat.eqb n n') eqn:E; [|exact Hs].
      apply Nat.eqb_eq in E. congruence.
  - apply (IH _ n a); auto. destruct (nth_error (project counts) n') as [a'|]; [|exact Hs].
    unfold p_save. destruct (in_range a' i); [|exact Hs].
    rewrite pm_save_stub. exact Hs.
  - apply (IH _ n a); auto. destruct (nth_error (project counts) n') as [a'|]; [|exact Hs].
    unfold p_save_all. rewrite pm_save_stub. exact Hs.
  - apply (IH _ n a); auto. destruct (nth_error (project counts) n') as [a'|]; [|exact Hs].
    unfold p_reset0. rewrite pm_save_stub. exact Hs.
  - apply (IH _ n a); auto. apply boot_stub.
Qed.

Lemma oor_read counts f0 d0 l n a idx :
  fits counts -> nth_error (project counts) n = Some a -> ~ valid counts n idx ->
  p_get (prun (project counts) (project_size counts)
           (boot f0 (project_size counts) d0) l) n a idx
  = last_oor counts n 0 l.
Proof.
  intros Hf Hn Hv. unfold p_get.
  destruct (in_range a idx) eqn:E.
  - exfalso. apply Hv. destruct (arr_bounds counts Hf n a Hn) as (H & _).
    exists (p_count a). split; [exact H|]. unfold in_range in E. lia.
  - apply (stub_last counts l _ n a); auto. apply boot_stub.
Qed.

(* ---- C04: start-up and power failure ---- *)

Lemma crc_write f L :
  range_write f CRC_mem (byte_of L) 4 C_LAST_IDX_OFFSET = (mwrite f 4 (byte_of L) 4, 4).
Proof. reflexivity. Qed.

Lemma boot_same f L d :
  stored_size f = L ->
  p_file (boot f L d) = f /\
  forall x, 0 <= x < C_TOTAL_PARAMS_SIZE -> p_ram (boot f L d) x = img f x.
Proof.
  intros Hm. unfold boot, final_init. rewrite pm_init_file, Hm, Z.eqb_refl.
  split; [reflexivity|]. apply pm_init_ram.
Qed.

Lemma boot_reinit_file f L d :
  stored_size f <> L ->
  p_file (boot f L d) =
    mwrite (mwrite f 4 (byte_of L) 4) 64 (fun i => d i) C_TOTAL_PARAMS_SIZE /\
  p_ram (boot f L d) = d.
Proof.
  intros Hm. unfold boot, final_init. rewrite pm_init_file.
  replace (stored_size f =? L) with false by lia.
  rewrite crc_write. unfold pm_save. cbn [Z.eqb p_file p_ram].
  change (range_write ?m params_mem ?b C_TOTAL_PARAMS_SIZE 0)
    with (mwrite m 64 b C_TOTAL_PARAMS_SIZE, C_TOTAL_PARAMS_SIZE).
  cbn [p_file p_ram]. split; reflexivity.
Qed.

Lemma marker_mwrite f L :
  0 <= L < 2 ^ 32 -> le4 (mwrite f 4 (byte_of L) 4) 4 = L.
Proof.
  intros HL. apply (le4_store_same f 4 L HL).
Qed.

Lemma boot_reinit f L d :
  0 <= L < 2 ^ 32 -> stored_size f <> L ->
  stored_size (p_file (boot f L d)) = L /\
  forall x, 0 <= x < C_TOTAL_PARAMS_SIZE ->
    p_ram (boot f L d) x = d x /\ img (p_file (boot f L d)) x = d x.
Proof.
  intros HL Hm. destruct (boot_reinit_file f L d Hm) as [E1 E2]. rewrite E1, E2.
  split.
  - rewrite stored_size_eq. rewrite <- (marker_mwrite f L HL) at 2.
    apply le4_ext. intros x Hx. apply mwrite_out. lia.
  - intros x Hx. split; [reflexivity|]. unfold img.
    rewrite mwrite_in by lia. f_equal. lia.
Qed.

Lemma apply_app f l1 l2 : apply_stores f (l1 ++ l2) = apply_stores (apply_stores f l1) l2.
Proof. unfold apply_stores. apply fold_left_app. Qed.

Lemma apply_block k : forall f base g x,
  apply_stores f (map (fun i => (base + i, g i)) (map Z.of_nat (seq 0 k))) x =
  mwrite f base g (Z.of_nat k) x.
Proof.
  induction k as [|k IH]; intros f base g x.
  - cbn. unfold mwrite.
    destruct ((base <=? x) && (x <? base + 0)) eqn:E; [lia | reflexivity].
  - rewrite seq_S, !map_app, apply_app. cbn [map plus].
    unfold apply_stores at 1. cbn [fold_left fst snd].
    rewrite IH. unfold mwrite.
    destruct (x =? base + Z.of_nat k) eqn:E.
    + replace ((base <=? x) && (x <? base + Z.of_nat (S k))) with true by lia.
      f_equal. lia.
    + destruct ((base <=? x) && (x <? base + Z.of_nat k)) eqn:E2.
      * replace ((base <=? x) && (x <? base + Z.of_nat (S k))) with true by lia. reflexivity.
      * replace ((base <=? x) && (x <? base + Z.of_nat (S k))) with false by lia. reflexivity.
Qed.

Lemma firstn_seq k n s : firstn k (seq s n) = seq s (min k n).
Proof.
  revert n s. induction k as [|k IH]; intros n s; [reflexivity|].
  destruct n as [|n]; [reflexivity|]. cbn [seq firstn Nat.min]. now rewrite IH.
Qed.

Lemma boot_stores_len4 f L d :
  stored_size f <> L ->
  boot_stores f L d =
    map (fun i => (4 + i, byte_of L i)) (map Z.of_nat (seq 0 4)) ++
    map (fun i => (64 + i, d i)) (map Z.of_nat (seq 0 (Z.to_nat C_TOTAL_PARAMS_SIZE))).
Proof.
  intros Hm. unfold boot_stores. replace (stored_size f =? L) with false by lia.
  reflexivity.
Qed.

Lemma boot_stores_complete f L d x :
  apply_stores f (boot_stores f L d) x = p_file (boot f L d) x.
Proof.
  destruct (Z.eq_dec (stored_size f) L) as [E | E].
  - destruct (boot_same f L d E) as [-> _]. unfold boot_stores.
    replace (stored_size f =? L) with true by lia. reflexivity.
  - destruct (boot_reinit_file f L d E) as [-> _].
    rewrite boot_stores_len4 by exact E. rewrite apply_app, apply_block.
    rewrite Z2Nat.id by (unfold C_TOTAL_PARAMS_SIZE; lia).
    unfold mwrite at 1. unfold mwrite at 1.
    destruct ((64 <=? x) && (x <? 64 + C_TOTAL_PARAMS_SIZE)); [reflexivity|].
    apply (apply_block 4 f 4 (byte_of L) x).
Qed.

(* What the next start finds after a power failure that let [k] >= 4 byte
   stores through. *)
Lemma crash_accepted f L d d' (k : nat) :
  0 <= L < 2 ^ 32 -> stored_size f <> L -> (4 <= k)%nat ->
  let f' := apply_stores f (firstn k (boot_stores f L d)) in
  boot_stores f' L d' = [] /\
  forall x, 0 <= x < C_TOTAL_PARAMS_SIZE ->
    p_ram (boot f' L d') x = if x <? Z.of_nat k - 4 then d x else img f x.
Proof.
  intros HL Hm Hk f'.
  assert (Hf' : forall x, f' x =
    mwrite (mwrite f 4 (byte_of L) 4) 64 d
      (Z.of_nat (min (k - 4) (Z.to_nat C_TOTAL_PARAMS_SIZE))) x).
  { intros x. unfold f'. rewrite boot_stores_len4 by exact Hm.
    rewrite firstn_app. rewrite !map_length, seq_length.
    rewrite (firstn_all2 (n := k)) by (rewrite !map_length, seq_length; lia).
    rewrite !firstn_map, firstn_seq.
    rewrite apply_app, apply_block.
    unfold mwrite at 1. unfold mwrite at 1.
    destruct (_ && _); [reflexivity|].
    apply (apply_block 4 f 4 (byte_of L) x). }
  assert (Hst : stored_size f' = L).
  { rewrite stored_size_eq, <- (marker_mwrite f L HL) at 1.
    apply le4_ext. intros x Hx. rewrite Hf'. apply mwrite_out. lia. }
  split.
  - unfold boot_stores. rewrite Hst, Z.eqb_refl. reflexivity.
  - intros x Hx. destruct (boot_same f' L d' Hst) as [_ Hr]. rewrite Hr by exact Hx.
    unfold img. rewrite Hf'.
    destruct (x <? Z.of_nat k - 4) eqn:E.
    + rewrite mwrite_in by (unfold C_TOTAL_PARAMS_SIZE in *; lia). f_equal. lia.
    + rewrite mwrite_out by (unfold C_TOTAL_PARAMS_SIZE in *; lia).
      rewrite mwrite_out by lia. reflexivity.
Qed.
