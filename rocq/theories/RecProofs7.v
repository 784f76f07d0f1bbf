(** Recipes: which calls are defined. *)
From Coq Require Import ZArith List Bool Lia String.
From Verif Require Import Base TimeModel FTextModel FTextSpec FTextProofs FTextProofs2 RecModel RecSpec RecProofs RecProofs2 RecProofs3 RecProofs4 RecProofs5 RecProofs6.
Import ListNotations.
Open Scope list_scope.
Open Scope Z_scope.

Lemma s32_range z : - 2 ^ 31 <= s32 z < 2 ^ 31.
Proof. unfold s32. pose proof (Z.mod_pos_bound (z + 2 ^ 31) (2 ^ 32) ltac:(lia)). lia. Qed.
Lemma s32_u32 z : s32 (u32 z) = s32 z.
Proof. unfold s32, u32. rewrite Zplus_mod_idemp_l. reflexivity. Qed.
Lemma u32_range z : 0 <= u32 z < 2 ^ 32.
Proof. apply Z.mod_pos_bound. lia. Qed.
Lemma s32_pos z : 0 <= z < 2 ^ 32 -> 0 <= s32 z -> s32 z = z.
Proof.
  unfold s32. intros R P. destruct (Z_lt_le_dec z (2 ^ 31)); [rewrite Z.mod_small by lia; lia|].
  assert (E : (z + 2 ^ 31) mod 2 ^ 32 = z - 2 ^ 31) by (rewrite <- (Z_mod_plus_full _ (-1)); rewrite Z.mod_small; lia). lia.
Qed.

(** Reading is defined for every pair of [unsigned int]. *)
Lemma get_total s r p : sized s -> 0 <= r < 2 ^ 32 -> 0 <= p < 2 ^ 32 -> exists x, getRecPar s r p = Some x.
Proof.
  intros S R P. unfold getRecPar.
  destruct ((s32 r <=? s_cnt s) && (s32 p <=? s_pcnt s) && (0 <? s32 r) && (0 <? s32 p)) eqn:E; [|eauto].
  rewrite (s32_pos r), (s32_pos p) in E by lia. pose proof S as (C & PC & L & LP & _).
  destruct (nth_len (s_recs s) (Z.to_nat (r - 1)) ltac:(lia)) as [rc RC]. rewrite RC. pose proof (Forall_nth _ _ _ _ LP RC) as LR. cbn beta in LR.
  apply nth_len. lia.
Qed.
Lemma copy_map_total s recNo : sized s -> 0 <= recNo < 2 ^ 32 -> forall n r o l, exists l1, copy_map n s recNo r o l = Some l1.
Proof.
  intros S R. induction n as [|n IH]; intros r o l; cbn [copy_map]; [eauto|].
  destruct (get_total s recNo (u32 r) S R (u32_range r)) as [v V]. rewrite V. apply IH.
Qed.
Lemma copy_maps_total s recNo : sized s -> 0 <= recNo < 2 ^ 32 -> forall ms l, exists x, copy_maps ms s recNo l = Some x.
Proof.
  intros S R. induction ms as [|m ms IH]; intros l; cbn [copy_maps]; [eauto|].
  destruct (_ || _); [eauto|]. destruct (copy_map_total s recNo S R (Z.to_nat (s32 (m_qty m))) (m_rec m) (m_obj m) l) as [l1 E]. rewrite E. apply IH.
Qed.
Lemma load_total a s os obj recNo : sized s -> 0 <= recNo < 2 ^ 31 -> exists x, loadParams a s os obj recNo = Some x.
Proof.
  intros S R. unfold loadParams. destruct ((Z.of_nat (List.length os) <? obj) || (obj <? 1)) eqn:E1; [eauto|].
  destruct ((s_cnt s <? s32 recNo) || (recNo =? 0)) eqn:E2; [eauto|].
  destruct (nth_len os (Z.to_nat (obj - 1)) ltac:(lia)) as [o O]. rewrite O.
  destruct (copy_maps_total s recNo S ltac:(lia) (a_maps a) (o_par o)) as [[l b] C]. rewrite C. destruct b; [|eauto].
  rewrite (s32_pos recNo) in E2; [|lia|unfold s32; rewrite Z.mod_small by lia; lia].
  pose proof S as (_ & _ & L & _). destruct (nth_len (s_recs s) (Z.to_nat (recNo - 1)) ltac:(lia)) as [r RC]. rewrite RC. eauto.
Qed.

(** The file of each storage can be read. *)
Definition files_read (g : mgr) : Prop :=
  forall i s, nth_error (g_st g) i = Some s -> exists s', deserialize s (nth i (f_rec g) None) = Some s'.
Lemma paired_read s f : paired s f -> exists s', deserialize s f = Some s'.
Proof.
  intros (_ & _ & _ & s' & E & _). apply deserialize_form in E. destruct E as (new & _ & _ & X). rewrite (X s eq_refl). eauto.
Qed.
Lemma files_read_ok g : files_ok g -> files_read g.
Proof. intros F i s H. eapply paired_read. apply F. exact H. Qed.

Lemma cmd_total g k var i v str : shape g -> 0 < s_cnt (nth (a_st (nth k (g_ad g) (mkA 0 [] [] false false false [] [] false))) (g_st g) (fresh 0 0)) -> files_read g -> (k < List.length (g_ad g))%nat -> to_int v <> None ->
  exists g1, set_cmd g k var i v str = Some g1.
Proof.
  intros SH POS F K V. unfold set_cmd. destruct (nth_len (g_ad g) k K) as [a A]. rewrite A. rewrite (nth_error_nth _ _ _ A) in POS.
  pose proof SH as (S1 & _ & _ & S4). pose proof (Forall_nth _ _ _ _ S4 A) as AO. destruct (adok_at _ _ S1 AO) as (s & SS & SZ & LA). rewrite SS.
  rewrite (nth_error_nth _ _ _ SS) in POS. pose proof SZ as (C & PC & L & LP & A1 & _ & A2). specialize (A2 POS).
  destruct (to_int v) as [c|] eqn:TI; [|congruence].
  destruct (eqtext var (codes "ACT")).
  - unfold setActiveState, getActiveRecipe. replace (s_act s + 1 - 1 <? Z.of_nat (List.length (a_active a))) with true by lia. eauto.
  - destruct (eqtext var (codes "CMD")).
    + destruct (c =? 789).
      * destruct (F _ _ SS) as [s' E]. rewrite E. eauto.
      * destruct (Z.ltb_spec 1000 c) as [B|B]; [|eauto]. pose proof (Z.mod_pos_bound c 1000 ltac:(lia)).
        destruct (load_total a s (g_obj g) (c / 1000) (c mod 1000) SZ ltac:(lia)) as [[os ld] E]. rewrite E. eauto.
    + destruct (eqtext var (codes "NAME")).
      * assert (I : (activeIndex s < List.length (s_recs s))%nat) by (unfold activeIndex; destruct (s_act s <? s_cnt s); lia).
        destruct (nth_len _ _ I) as [r R]. rewrite R. eauto.
      * destruct (eqtext var (codes "NMR")); [eauto|]. destruct (eqtext var (codes "PAR")); [|eauto].
        destruct ((i <=? s_pcnt s) && (0 <? i)) eqn:E; [|eauto].
        assert (I : (activeIndex s < Z.to_nat (s_cnt s))%nat) by (unfold activeIndex; destruct (Z.ltb_spec (s_act s) (s_cnt s)); lia).
        destruct (put_some s (activeIndex s) (Z.to_nat (i - 1)) v SZ I ltac:(lia)) as (r & old & _ & _ & P). rewrite P. eauto.
Qed.

(** Every storage has a recipe. *)
Definition peopled (g : mgr) : Prop := Forall (fun s => 0 < s_cnt s) (g_st g).
Lemma peopled_step w g e g1 : shape g -> rstep w g e = Some g1 -> peopled g -> peopled g1.
Proof.
  intros SH R P. apply forall_at. intros i s1 H1. pose proof (shape_step w g e g1 SH R) as SH1.
  destruct (nth_error (g_st g) i) as [s|] eqn:H.
  - destruct (sizes_step w g e g1 i s SH R H) as (s2 & H2 & E & _). assert (s2 = s1) by congruence. subst. rewrite E.
    exact (Forall_nth _ _ _ _ P H).
  - exfalso. assert (LEN : List.length (g_st g1) = List.length (g_st g)).
    { destruct e; try (destruct (any_moved w g _ g1 R I) as (_ & _ & L & _); exact L).
      cbn [rstep] in R. destruct (tick_at _ _ _ _ _ SH R) as (_ & _ & L & _). exact L. }
    apply nth_error_None in H. assert (i < List.length (g_st g1))%nat by (apply nth_error_Some; congruence). lia.
Qed.

Lemma eat_pos l : forall n v, 0 <= v -> 0 <= snd (fst (eat l n v)).
Proof.
  induction l as [|c l IH]; intros n v V; cbn [eat]; [cbn; lia|]. destruct (isdigit c) eqn:D; [|cbn; lia].
  apply IH. unfold isdigit in D. lia.
Qed.
Lemma call_pos l n v i f s : parse_cmd l = Call n v i f s -> 0 <= n.
Proof.
  unfold parse_cmd. destruct (rm_match l) as [[[[dn dv] di] x]|]; [|discriminate]. unfold stoi at 1.
  pose proof (eat_pos dn 0 0 ltac:(lia)) as P. destruct (eat dn 0 0) as [[k m] r] eqn:E. cbn [fst snd] in P.
  destruct (m <? 2 ^ 31); [|discriminate]. destruct (stoi di); [|discriminate].
  destruct x; [|destruct (stof l0); [|discriminate]]; intros H; assert (n = m) by congruence; lia.
Qed.

Lemma pos_at g k : peopled g -> shape g -> (k < List.length (g_ad g))%nat ->
  0 < s_cnt (nth (a_st (nth k (g_ad g) (mkA 0 [] [] false false false [] [] false))) (g_st g) (fresh 0 0)).
Proof.
  intros P (S1 & _ & _ & S4) K. destruct (nth_len _ _ K) as [a A]. rewrite (nth_error_nth _ _ _ A).
  destruct (adok_at _ _ S1 (Forall_nth _ _ _ _ S4 A)) as (s & SS & _). rewrite (nth_error_nth _ _ _ SS). exact (Forall_nth _ _ _ _ P SS).
Qed.

Lemma step_total w g e : shape g -> files_ok g -> peopled g -> sane e -> exists g1, rstep w g e = Some g1.
Proof.
  intros SH F P SN. destruct e as [now ok|st r p v|st r|k var i v str|k obj r|l]; cbn [rstep sane] in *.
  - apply evaluate_total. exact SH.
  - unfold on_storage. destruct (nth_error (g_st g) st) as [s|] eqn:E; [|eauto].
    destruct SH as (S1 & _). destruct (store_total s r p v (Forall_nth _ _ _ _ S1 E)) as [s1 X]. rewrite X. eauto.
  - unfold on_storage. destruct (nth_error (g_st g) st); eauto.
  - destruct (Nat.ltb_spec k (List.length (g_ad g))); [|eauto]. apply cmd_total; auto using pos_at, files_read_ok.
  - destruct (nth_error (g_ad g) k) as [a|] eqn:A; [|eauto]. pose proof SH as (S1 & _ & _ & S4).
    destruct (adok_at _ _ S1 (Forall_nth _ _ _ _ S4 A)) as (s & SS & SZ & _). rewrite SS.
    destruct (load_total a s (g_obj g) obj r SZ SN) as [[os ld] E]. rewrite E. eauto.
  - unfold parseDriverCmd. destruct (parse_cmd l) as [|n v i f s|] eqn:PC; [cbn; eauto| |contradiction]. destruct SN as [N V].
    pose proof (call_pos _ _ _ _ _ _ PC). cbn [fst].
    destruct (Z.ltb_spec (n - 1) (Z.of_nat (List.length (g_ad g)))); [|eauto]. rewrite (proj2 (Z.eqb_neq n 0)) by exact N.
    assert (K : (Z.to_nat (n - 1) < List.length (g_ad g))%nat) by lia. apply cmd_total; auto using pos_at, files_read_ok.
Qed.
Lemma run_total w : forall l g, shape g -> files_ok g -> peopled g -> Forall calm l -> Forall sane l -> exists g1, rrun w g l = Some g1.
Proof.
  induction l as [|e l IH]; intros g SH F P C S; cbn [rrun]; [eauto|]. inversion C; subst. inversion S; subst.
  destruct (step_total w g e SH F P H3) as [g1 E]. rewrite E. apply IH; eauto using shape_step, files_step, peopled_step.
Qed.
Lemma booted_peopled g : booted g -> peopled g.
Proof.
  intros B. apply forall_at. intros i s H. destruct (booted_at g i s B H) as (c & p & C & P & E & _). apply created in E; [|assumption|assumption]. lia.
Qed.
