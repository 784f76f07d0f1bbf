From Coq Require Import ZArith List Bool Lia.
From Verif Require Import Base NvModel NvSpec.
Import ListNotations.
Open Scope Z_scope.

Definition wf (a : alloc) : Prop :=
  0 <= last_nv a <= 31 /\ 32 <= last_ee a <= 32767.

Lemma wf_init : wf alloc_init.
Proof. unfold wf, alloc_init, avail_start, NVRAM_SIZE; cbn. lia. Qed.

Definition lo (k : kind) : Z := match k with NVRAM => 0 | EEPROM => 32 end.

Lemma block_cases a k n :
  wf a -> 0 <= n < 2 ^ 32 - 32768 ->
  (last a k + n <= avail_end k /\
   get_memory_block a k n =
     (set_last a k (last a k + n), Some (mkRange k (last a k) n))) \/
  (avail_end k < last a k + n /\ get_memory_block a k n = (a, None)).
Proof.
  intros Hwf Hn. unfold get_memory_block.
  assert (Hl : 0 <= last a k <= 32767).
  { destruct Hwf as [H1 H2]. destruct k; cbn; lia. }
  rewrite u32_small by lia.
  destruct (avail_end k <? last a k + n) eqn:E.
  - right. split; [lia | reflexivity].
  - left. split; [lia | reflexivity].
Qed.

Lemma wf_set a k n :
  wf a -> 0 <= n -> last a k + n <= avail_end k ->
  wf (set_last a k (last a k + n)).
Proof.
  intros [H1 H2] Hn Hle. unfold wf.
  destruct k; unfold avail_end, NVRAM_SIZE, EEPROM_SIZE in Hle; cbn in *; lia.
Qed.

(* Facts about a granted block relative to the allocator before it. *)
Definition above (a : alloc) (r : range) : Prop :=
  last a (r_kind r) <= r_start r /\ 0 <= r_size r /\
  r_start r + r_size r <= avail_end (r_kind r).

Lemma above_mono a k n r :
  0 <= n -> above (set_last a k (last a k + n)) r -> above a r.
Proof.
  destruct r as [kr st sz].
  intros Hn [H1 H2]. split; [|exact H2].
  destruct k, kr; cbn in *; lia.
Qed.

Lemma run_above reqs : forall a,
  wf a -> (forall q, In q reqs -> sane_request q) ->
  forall r, In r (granted (snd (run_requests a reqs))) -> above a r.
Proof.
  induction reqs as [|[k n] rest IH]; intros a Hwf Hs r Hin.
  - contradiction.
  - assert (Hn : sane_request (k, n)) by (apply Hs; left; reflexivity).
    unfold sane_request in Hn; cbn [snd] in Hn.
    assert (Hs' : forall q, In q rest -> sane_request q)
      by (intros q Hq; apply Hs; right; exact Hq).
    cbn [run_requests] in Hin.
    destruct (block_cases a k n Hwf Hn) as [[Hle E] | [Hgt E]]; rewrite E in Hin.
    + destruct (run_requests _ rest) as [a2 rs] eqn:E2.
      cbn [snd granted] in Hin. destruct Hin as [Hr | Hin].
      * subst r. unfold above; cbn. lia.
      * apply (above_mono a k n); [lia|].
        apply IH; [apply wf_set; auto; lia | exact Hs' |].
        rewrite E2. exact Hin.
    + destruct (run_requests a rest) as [a2 rs] eqn:E2.
      cbn [snd granted] in Hin.
      apply (IH a Hwf Hs'). rewrite E2. exact Hin.
Qed.

(* Ordered, hence disjoint, within one storage. *)
Definition before (r1 r2 : range) : Prop :=
  r_kind r1 = r_kind r2 -> r_start r1 + r_size r1 <= r_start r2.

Lemma run_ordered reqs : forall a,
  wf a -> (forall q, In q reqs -> sane_request q) ->
  ForallOrdPairs before (granted (snd (run_requests a reqs))).
Proof.
  induction reqs as [|[k n] rest IH]; intros a Hwf Hs.
  - constructor.
  - assert (Hn : sane_request (k, n)) by (apply Hs; left; reflexivity).
    unfold sane_request in Hn; cbn [snd] in Hn.
    assert (Hs' : forall q, In q rest -> sane_request q)
      by (intros q Hq; apply Hs; right; exact Hq).
    cbn [run_requests].
    destruct (block_cases a k n Hwf Hn) as [[Hle E] | [Hgt E]]; rewrite E.
    + assert (Hwf' : wf (set_last a k (last a k + n))) by (apply wf_set; auto; lia).
      pose proof (IH _ Hwf' Hs') as Hord.
      pose proof (run_above rest _ Hwf' Hs') as Hab.
      destruct (run_requests _ rest) as [a2 rs] eqn:E2.
      cbn [snd granted] in *. constructor; [|exact Hord].
      apply Forall_forall. intros r Hr.
      destruct (Hab r Hr) as [H1 _].
      unfold before; cbn. intros Hk. rewrite <- Hk in H1.
      destruct k; cbn in H1 |- *; exact H1.
    + pose proof (IH a Hwf Hs') as Hord.
      destruct (run_requests a rest) as [a2 rs] eqn:E2.
      cbn [snd granted] in *. exact Hord.
Qed.

Lemma FOP_nth {A} (P : A -> A -> Prop) (l : list A) :
  ForallOrdPairs P l -> forall i j x y, (i < j)%nat ->
  nth_error l i = Some x -> nth_error l j = Some y -> P x y.
Proof.
  induction 1 as [|a l Ha Hl IH]; intros i j x y Hij Hx Hy.
  - destruct i; discriminate.
  - destruct i as [|i]; destruct j as [|j]; try lia; cbn in Hx, Hy.
    + injection Hx as <-. rewrite Forall_forall in Ha. apply Ha.
      eapply nth_error_In; exact Hy.
    + apply (IH i j x y); auto. lia.
Qed.

Definition good (r : range) : Prop :=
  lo (r_kind r) <= r_start r /\ 0 <= r_size r /\
  r_start r + r_size r <= avail_end (r_kind r).

Lemma above_good a r : wf a -> above a r -> good r.
Proof.
  destruct r as [k st sz].
  intros [H1 H2] [H3 H4]. split; [|exact H4].
  destruct k; cbn [r_kind r_start r_size lo last] in *; lia.
Qed.

Lemma good_bounds r : good r -> 0 <= r_start r /\ 0 <= r_size r /\
  r_start r + r_size r <= 32767.
Proof.
  destruct r as [k st sz].
  intros (H1 & H2 & H3). unfold avail_end, NVRAM_SIZE, EEPROM_SIZE in H3.
  destruct k; cbn [r_kind r_start r_size lo last] in *; lia.
Qed.

Lemma good_addr r off :
  good r -> 0 <= off <= r_size r ->
  file_addr r off = avail_start (r_kind r) + r_start r + off.
Proof.
  intros Hg Ho. pose proof (good_bounds r Hg) as Hb.
  unfold file_addr. rewrite (u32_small (r_start r + off)) by lia.
  unfold avail_start, NVRAM_SIZE.
  rewrite u32_small by (destruct (r_kind r); lia). lia.
Qed.

Lemma disjoint_before r1 r2 x :
  good r1 -> good r2 -> before r1 r2 -> occupies r1 x -> occupies r2 x -> False.
Proof.
  intros G1 G2 Hb (o1 & Ho1 & E1) (o2 & Ho2 & E2).
  rewrite good_addr in E1 by (auto; lia).
  rewrite good_addr in E2 by (auto; lia).
  unfold before in Hb.
  destruct G1 as (A1 & A2 & A3), G2 as (B1 & B2 & B3).
  destruct r1 as [k1 s1 z1], r2 as [k2 s2 z2]; destruct k1; destruct k2;
    unfold avail_start, avail_end, NVRAM_SIZE, EEPROM_SIZE in *;
    cbn [r_kind r_start r_size lo] in *;
    try (specialize (Hb eq_refl)); lia.
Qed.

Lemma granted_disjoint reqs :
  (forall q, In q reqs -> sane_request q) ->
  let blks := granted (snd (run_requests alloc_init reqs)) in
  forall i j r1 r2 x, nth_error blks i = Some r1 -> nth_error blks j = Some r2 ->
    i <> j -> occupies r1 x -> occupies r2 x -> False.
Proof.
  intros Hs blks i j r1 r2 x H1 H2 Hij O1 O2.
  pose proof (run_ordered reqs alloc_init wf_init Hs) as Hord.
  assert (Hg : forall r, In r blks -> good r).
  { intros r Hr. apply (above_good alloc_init); [exact wf_init|].
    apply (run_above reqs); auto using wf_init. }
  pose proof (Hg r1 (nth_error_In _ _ H1)) as G1.
  pose proof (Hg r2 (nth_error_In _ _ H2)) as G2.
  destruct (Nat.lt_ge_cases i j) as [Hlt | Hge].
  - apply (disjoint_before r1 r2 x); auto.
    apply (FOP_nth _ _ Hord i j); auto.
  - apply (disjoint_before r2 r1 x); auto.
    apply (FOP_nth _ _ Hord j i); auto. lia.
Qed.

Lemma granted_region reqs :
  (forall q, In q reqs -> sane_request q) ->
  forall r x, In r (granted (snd (run_requests alloc_init reqs))) ->
    occupies r x ->
    match r_kind r with NVRAM => 0 <= x <= 30 | EEPROM => 64 <= x <= 32798 end.
Proof.
  intros Hs r x Hin (o & Ho & E).
  destruct r as [k st sz].
  assert (G : good (mkRange k st sz)).
  { apply (above_good alloc_init); [exact wf_init|].
    apply (run_above reqs); auto using wf_init. }
  rewrite good_addr in E by (auto; lia).
  destruct G as (A1 & A2 & A3).
  unfold avail_end, avail_start, NVRAM_SIZE, EEPROM_SIZE in *; cbn [r_kind r_start r_size lo] in *.
  destruct k; cbn [r_kind r_start r_size lo last] in *; lia.
Qed.

Definition shape (o : option range) : option (kind * Z) :=
  match o with Some r => Some (r_kind r, r_size r) | None => None end.

Lemma answers_expected_gen reqs : forall a used,
  wf a -> (forall q, In q reqs -> sane_request q) ->
  (forall k, last a k = lo k + used k) ->
  map shape (snd (run_requests a reqs)) = expected_answers used reqs.
Proof.
  induction reqs as [|[k n] rest IH]; intros a used Hwf Hs Hu; [reflexivity|].
  assert (Hn : sane_request (k, n)) by (apply Hs; left; reflexivity).
  unfold sane_request in Hn; cbn [snd] in Hn.
  assert (Hs' : forall q, In q rest -> sane_request q)
    by (intros q Hq; apply Hs; right; exact Hq).
  cbn [run_requests expected_answers].
  assert (Hcap : avail_end k = lo k + capacity k) by (destruct k; reflexivity).
  destruct (block_cases a k n Hwf Hn) as [[Hle E] | [Hgt E]]; rewrite E.
  - rewrite (Hu k), Hcap in Hle.
    replace (used k + n <=? capacity k) with true by lia.
    specialize (IH (set_last a k (last a k + n))
      (fun k' => if kind_eqb k' k then used k' + n else used k')).
    destruct (run_requests _ rest) as [a2 rs] eqn:E2.
    cbn [snd map shape r_kind r_size] in *. f_equal. apply IH; auto.
    + apply wf_set; auto; try lia. rewrite Hcap, (Hu k). lia.
    + intros k'. pose proof (Hu NVRAM) as U1. pose proof (Hu EEPROM) as U2.
      destruct k, k'; cbn [lo last set_last kind_eqb last_nv last_ee] in *; lia.
  - rewrite (Hu k), Hcap in Hgt.
    replace (used k + n <=? capacity k) with false by lia.
    specialize (IH a used Hwf Hs' Hu).
    destruct (run_requests a rest) as [a2 rs] eqn:E2.
    cbn [snd map shape] in *. f_equal. exact IH.
Qed.

Lemma answers_expected reqs :
  (forall q, In q reqs -> sane_request q) ->
  map shape (snd (run_requests alloc_init reqs)) = expected_answers (fun _ => 0) reqs.
Proof.
  intros Hs. apply answers_expected_gen; auto using wf_init.
  intros []; reflexivity.
Qed.

(* ---- accesses ---- *)

Definition rel (blks : list range) (m : mem) (a : arrays) : Prop :=
  forall b r o, nth_error blks b = Some r -> 0 <= o < r_size r ->
    m (file_addr r o) = a b o.

Lemma zseq_in n i : In i (zseq n) -> 0 <= i < n.
Proof.
  unfold zseq. rewrite in_map_iff. intros (k & <- & Hk).
  apply in_seq in Hk. lia.
Qed.

Lemma zseq_0 : zseq 0 = [].
Proof. reflexivity. Qed.

Section Access.
  Variable blks : list range.
  Hypothesis Hgood : forall r, In r blks -> good r.
  Hypothesis Hdis : forall i j r1 r2 x,
    nth_error blks i = Some r1 -> nth_error blks j = Some r2 ->
    i <> j -> occupies r1 x -> occupies r2 x -> False.

  Lemma check_sane r len off :
    0 <= off -> 0 <= len -> off + len < 2 ^ 32 ->
    check_params r len off = negb (off + len <=? r_size r).
  Proof.
    intros H1 H2 H3. unfold check_params.
    rewrite u32_small by lia. lia.
  Qed.

  Lemma step_refines m a x :
    rel blks m a -> sane_access x ->
    let '(m', ans) := access_step blks m x in
    let '(a', ans') := spec_step (map r_size blks) a x in
    ans = ans' /\ rel blks m' a'.
  Proof.
    intros Hrel Hs. destruct x as [b off bytes | b off len]; cbn [access_step spec_step].
    - rewrite nth_error_map. destruct (nth_error blks b) as [r|] eqn:Hb; cbn [option_map].
      2:{ split; [reflexivity | exact Hrel]. }
      destruct Hs as [Ho Hl]. set (n := Z.of_nat (length bytes)) in *.
      unfold range_write. rewrite check_sane by (unfold n in *; lia).
      destruct (off + n <=? r_size r) eqn:E; cbn [negb].
      2:{ split; [reflexivity | exact Hrel]. }
      split; [reflexivity|].
      pose proof (Hgood r (nth_error_In _ _ Hb)) as G.
      intros b' r' o Hb' Ho'.
      pose proof (Hgood r' (nth_error_In _ _ Hb')) as G'.
      unfold set_bytes. destruct (Nat.eqb b' b) eqn:Eb.
      + apply Nat.eqb_eq in Eb. subst b'. rewrite Hb in Hb'. injection Hb' as <-.
        rewrite (good_addr r o) by (auto; lia).
        rewrite (good_addr r off) by (auto; unfold n in *; lia).
        cbn [andb].
        destruct ((off <=? o) && (o <? off + Z.of_nat (length bytes))) eqn:Er.
        * rewrite mwrite_in by (unfold n in *; lia). f_equal. lia.
        * rewrite mwrite_out by (unfold n in *; lia).
          rewrite <- (Hrel b r o Hb) by lia.
          rewrite (good_addr r o) by (auto; lia). reflexivity.
      + apply Nat.eqb_neq in Eb. cbn [andb].
        rewrite mwrite_out; [apply (Hrel b' r'); auto |].
        intros Hin. rewrite (good_addr r off) in Hin by (auto; unfold n in *; lia).
        apply (Hdis b' b r' r (file_addr r' o)); auto.
        * exists o. auto.
        * exists (file_addr r' o - (avail_start (r_kind r) + r_start r)).
          split; [unfold n in *; lia|].
          rewrite (good_addr r) by (auto; unfold n in *; lia). lia.
    - rewrite nth_error_map. destruct (nth_error blks b) as [r|] eqn:Hb; cbn [option_map].
      2:{ split; [reflexivity | exact Hrel]. }
      destruct Hs as [Ho [Hl Hw]]. unfold range_read.
      rewrite check_sane by lia.
      destruct (off + len <=? r_size r) eqn:E; cbn [negb].
      2:{ split; [reflexivity | exact Hrel]. }
      split; [|exact Hrel]. f_equal. apply map_ext_in. intros i Hi.
      apply zseq_in in Hi.
      pose proof (Hgood r (nth_error_In _ _ Hb)) as G.
      rewrite <- (Hrel b r (off + i) Hb) by lia.
      rewrite !good_addr by (auto; lia). f_equal. lia.
  Qed.

  Lemma run_refines l : forall m a,
    rel blks m a -> (forall x, In x l -> sane_access x) ->
    snd (access_run blks m l) = snd (spec_run (map r_size blks) a l).
  Proof.
    induction l as [|x l IH]; intros m a Hrel Hs; [reflexivity|].
    cbn [access_run spec_run].
    pose proof (step_refines m a x Hrel (Hs x (or_introl eq_refl))) as Hst.
    destruct (access_step blks m x) as [m1 r1].
    destruct (spec_step (map r_size blks) a x) as [a1 r1'].
    destruct Hst as [-> Hrel1].
    specialize (IH m1 a1 Hrel1 (fun y Hy => Hs y (or_intror Hy))).
    destruct (access_run blks m1 l), (spec_run (map r_size blks) a1 l).
    cbn [snd] in *. now rewrite IH.
  Qed.
End Access.

Lemma accesses_refine reqs m0 :
  (forall q, In q reqs -> sane_request q) ->
  let blks := granted (snd (run_requests alloc_init reqs)) in
  exists content0 : arrays, forall l,
  (forall x, In x l -> sane_access x) ->
  snd (access_run blks m0 l) = snd (spec_run (map r_size blks) content0 l).
Proof.
  intros Hq blks.
  exists (fun b o => match nth_error blks b with
                     | Some r => m0 (file_addr r o) | None => 0 end).
  intros l Hs. apply run_refines.
  - intros r Hr. apply (above_good alloc_init); [exact wf_init|].
    apply (run_above reqs); auto using wf_init.
  - exact (granted_disjoint reqs Hq).
  - intros b r o Hb _. rewrite Hb. reflexivity.
  - exact Hs.
Qed.

Lemma refused_unchanged a k n :
  snd (get_memory_block a k n) = None -> fst (get_memory_block a k n) = a.
Proof.
  unfold get_memory_block. destruct (avail_end k <? _); cbn; [reflexivity | discriminate].
Qed.

(* Witnesses of the wrap-around failures. *)
Lemma overlap_witness :
  let reqs := [(EEPROM, 30720); (EEPROM, 2 ^ 32 - 30720); (EEPROM, 100)] in
  let blks := granted (snd (run_requests alloc_init reqs)) in
  exists r1 r3, nth_error blks 0 = Some r1 /\ nth_error blks 2 = Some r3 /\
    occupies r1 64 /\ occupies r3 64.
Proof.
  cbv zeta. eexists. eexists. split; [vm_compute; reflexivity|].
  split; [vm_compute; reflexivity|].
  split; exists 0; split; vm_compute; try reflexivity; split; congruence.
Qed.

Lemma oob_write_witness :
  let blks := granted (snd (run_requests alloc_init [(EEPROM, 100); (EEPROM, 100)])) in
  exists l m0, forall content0 : arrays,
    snd (access_run blks m0 l) <> snd (spec_run (map r_size blks) content0 l).
Proof.
  cbv zeta.
  exists [ARead 0 0 1; AWrite 1 (2 ^ 32 - 100) (repeat 7 150); ARead 0 0 1],
         (fun _ => 0).
  intros content0.
  replace (snd (access_run _ _ _)) with
    [AnsRead 1 [0]; AnsWrite 150; AnsRead 1 [7]] by (vm_compute; reflexivity).
  cbn. congruence.
Qed.
