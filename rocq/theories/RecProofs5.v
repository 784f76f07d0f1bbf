(** Recipes: loading into objects, lists, commands, other files. *)
From Coq Require Import ZArith List Bool Lia String.
From Verif Require Import Base TimeModel FTextModel FTextSpec FTextProofs FTextProofs2 RecModel RecSpec RecProofs RecProofs2 RecProofs3 RecProofs4.
Import ListNotations.
Open Scope list_scope.
Open Scope Z_scope.

(** * Loading *)

Lemma nth_upd (l : list Z) i j v d : (i < List.length l)%nat -> nth j (upd l i v) d = if Nat.eqb j i then v else nth j l d.
Proof.
  revert i j. induction l as [|a l IH]; intros [|i] [|j] H; cbn in *; try lia; try reflexivity. apply IH. lia.
Qed.

Lemma copy_map_at s recNo rc : sized s -> 1 <= recNo <= s_cnt s -> nth_error (s_recs s) (Z.to_nat (recNo - 1)) = Some rc ->
  forall n r o l, 0 < r -> 0 < o -> r + Z.of_nat n <= s_pcnt s + 1 -> o + Z.of_nat n <= Z.of_nat (List.length l) -> Z.of_nat (List.length l) < 2 ^ 31 ->
  exists l1, copy_map n s recNo r o l = Some l1 /\ List.length l1 = List.length l /\
    forall j, 1 <= j -> nth (Z.to_nat (j - 1)) l1 0 =
      if (o <=? j) && (j <? o + Z.of_nat n) then nth (Z.to_nat (r + (j - o) - 1)) (r_par rc) 0 else nth (Z.to_nat (j - 1)) l 0.
Proof.
  intros S RN RC. pose proof S as (C & P & L & LP & _). pose proof (Forall_nth _ _ _ _ LP RC) as LR. cbn beta in LR.
  induction n as [|n IH]; intros r o l R O FR FO FL.
  - exists l. split; [reflexivity|]. split; [reflexivity|]. intros j J. destruct ((o <=? j) && (j <? o + Z.of_nat 0)) eqn:E; [lia|reflexivity].
  - cbn [copy_map]. rewrite u32_small by lia. rewrite get_at by (assumption || lia).
    replace ((recNo <=? s_cnt s) && (r <=? s_pcnt s) && (0 <? recNo) && (0 <? r)) with true by lia. rewrite RC.
    destruct (nth_len (r_par rc) (Z.to_nat (r - 1)) ltac:(lia)) as [v V]. rewrite V.
    assert (E : set_par l (u32 o) v = upd l (Z.to_nat (o - 1)) v).
    { rewrite u32_small by lia. unfold set_par. replace ((0 <? o) && (o <=? Z.of_nat (List.length l))) with true by lia. reflexivity. }
    rewrite E.
    destruct (IH (r + 1) (o + 1) (upd l (Z.to_nat (o - 1)) v)) as (l1 & C1 & L1 & X); try lia; try (rewrite upd_len; lia).
    exists l1. split; [exact C1|]. split; [rewrite L1; apply upd_len|]. intros j J. rewrite (X j J). rewrite nth_upd by lia.
    destruct ((o + 1 <=? j) && (j <? o + 1 + Z.of_nat n)) eqn:E1.
    + replace ((o <=? j) && (j <? o + Z.of_nat (Datatypes.S n))) with true by lia. f_equal. lia.
    + destruct (Nat.eqb_spec (Z.to_nat (j - 1)) (Z.to_nat (o - 1))) as [EQ|NE].
      * replace ((o <=? j) && (j <? o + Z.of_nat (Datatypes.S n))) with true by lia.
        symmetry. erewrite nth_error_nth; [reflexivity|]. replace (Z.to_nat (r + (j - o) - 1)) with (Z.to_nat (r - 1)) by lia. exact V.
      * replace ((o <=? j) && (j <? o + Z.of_nat (Datatypes.S n))) with false by lia. reflexivity.
Qed.

Lemma plain_s32 m : plain m -> s32 (m_rec m) = m_rec m /\ s32 (m_qty m) = m_qty m /\ u32 (m_obj m + m_qty m) = m_obj m + m_qty m.
Proof.
  intros (A & B & C & D & E & F). repeat split; try (unfold s32; rewrite Z.mod_small by lia; lia). apply u32_small. lia.
Qed.

Lemma copy_maps_pre s recNo rc : sized s -> 1 <= recNo <= s_cnt s -> nth_error (s_recs s) (Z.to_nat (recNo - 1)) = Some rc ->
  forall pre rest l, Forall plain pre -> Forall (accepted s (Z.of_nat (List.length l))) pre -> Z.of_nat (List.length l) < 2 ^ 31 ->
  exists l1, copy_maps (pre ++ rest) s recNo l = copy_maps rest s recNo l1 /\ List.length l1 = List.length l /\
    forall j, 1 <= j -> nth (Z.to_nat (j - 1)) l1 0 = target pre rc j (nth (Z.to_nat (j - 1)) l 0).
Proof.
  intros S RN RC. induction pre as [|m pre IH]; intros rest l PL AC LL; [exists l; auto|].
  inversion PL; subst. inversion AC; subst. destruct (plain_s32 m H1) as (E1 & E2 & E3). destruct H3 as [A1 A2]. destruct H1 as (Q1 & Q2 & Q3 & _).
  cbn [app copy_maps]. rewrite E1, E2, E3.
  replace ((s_pcnt s + 1 <? m_rec m + m_qty m) || (Z.of_nat (List.length l) <? m_obj m + m_qty m)) with false by lia.
  destruct (copy_map_at s recNo rc S RN RC (Z.to_nat (m_qty m)) (m_rec m) (m_obj m) l) as (l1 & C1 & L1 & X); try lia.
  rewrite C1. destruct (IH rest l1) as (l2 & C2 & L2 & Y); [assumption|rewrite L1; assumption|lia|].
  exists l2. split; [exact C2|]. split; [congruence|]. intros j J. rewrite (Y j J), (X j J). cbn [target].
  rewrite Z2Nat.id by lia. reflexivity.
Qed.

(** * Lists *)

Lemma refresh_joined : forall rs act i l ls, List.length act = List.length rs ->
  refresh_loop i act rs false l ls = Some (l ++ listing i act rs, ls).
Proof.
  induction rs as [|r rs IH]; intros [|f act] i l ls L; try discriminate; cbn [refresh_loop listing].
  - rewrite app_nil_r. reflexivity.
  - destruct (Z.eqb_spec f 0) as [->|N]; cbn [negb].
    + rewrite IH by (cbn in L; lia). reflexivity.
    + rewrite IH by (cbn in L; lia). unfold entry. rewrite <- app_assoc. reflexivity.
Qed.

(** The entries of one group of ten. *)
Fixpoint listing_in (k i : Z) (act : list Z) (rs : list recipe) : list Z :=
  match act, rs with
  | f :: act', r :: rs' =>
      (if (f =? 0) || negb (i / 10 =? k) then [] else entry i (r_name r)) ++ listing_in k (i + 1) act' rs'
  | _, _ => []
  end.
Lemma refresh_sep : forall rs act i l ls, List.length act = List.length rs -> 0 <= i ->
  exists ls1, refresh_loop i act rs true l ls = Some (l, ls1) /\ List.length ls1 = List.length ls /\
    forall k, (k < List.length ls)%nat -> nth k ls1 [] = nth k ls [] ++ listing_in (Z.of_nat k) i act rs.
Proof.
  induction rs as [|r rs IH]; intros [|f act] i l ls L I; try discriminate; cbn [refresh_loop listing_in].
  - exists ls. split; [reflexivity|]. split; [reflexivity|]. intros k _. rewrite app_nil_r. reflexivity.
  - destruct (Z.eqb_spec f 0) as [->|N]; cbn [negb orb].
    + destruct (IH act (i + 1) l ls ltac:(cbn in L; lia) ltac:(lia)) as (ls1 & E & L1 & X). exists ls1. auto.
    + set (ls' := match nth_error ls (Z.to_nat (i / 10)) with Some x => upd ls (Z.to_nat (i / 10)) (x ++ entry i (r_name r)) | None => ls end).
      assert (L' : List.length ls' = List.length ls) by (unfold ls'; destruct (nth_error ls _); [apply upd_len|reflexivity]).
      destruct (IH act (i + 1) l ls' ltac:(cbn in L; lia) ltac:(lia)) as (ls1 & E & L1 & X). exists ls1. split; [exact E|]. split; [lia|].
      intros k K. rewrite (X k) by lia. rewrite app_assoc. f_equal. unfold ls'.
      assert (D : 0 <= i / 10) by (apply Z.div_pos; lia).
      destruct (nth_error ls (Z.to_nat (i / 10))) as [x|] eqn:NX.
      * assert (B : (Z.to_nat (i / 10) < List.length ls)%nat) by (apply nth_error_Some; congruence).
        destruct (Z.eqb_spec (i / 10) (Z.of_nat k)) as [EQ|NE]; cbn [negb].
        -- assert (K' : Z.to_nat (i / 10) = k) by lia. rewrite K' in *. erewrite nth_error_nth by (apply upd_same; exact B).
           erewrite nth_error_nth by exact NX. reflexivity.
        -- rewrite app_nil_r. assert (NK : nth_error (upd ls (Z.to_nat (i / 10)) (x ++ entry i (r_name r))) k = nth_error ls k) by (apply upd_other; lia).
           destruct (nth_len ls k K) as [y Y]. rewrite Y in NK. rewrite (nth_error_nth _ _ _ NK), (nth_error_nth _ _ _ Y). reflexivity.
      * apply nth_error_None in NX. rewrite (proj2 (Z.eqb_neq _ _)) by lia. cbn [negb]. rewrite app_nil_r. reflexivity.
Qed.
Lemma listing_slice k : forall act rs i, 0 <= i -> List.length act = List.length rs ->
  listing_in k i act rs =
  listing (Z.max i (10 * k)) (firstn (Z.to_nat (10 * k + 10 - Z.max i (10 * k))) (skipn (Z.to_nat (10 * k - i)) act))
                             (firstn (Z.to_nat (10 * k + 10 - Z.max i (10 * k))) (skipn (Z.to_nat (10 * k - i)) rs)).
Proof.
  induction act as [|f act IH]; intros [|r rs] i I L; try discriminate.
  - cbn [listing_in]. rewrite !skipn_nil, !firstn_nil. reflexivity.
  - cbn [listing_in]. rewrite IH by (cbn in L; lia).
    destruct (Z_lt_le_dec i (10 * k)) as [LT|GE].
    + assert (D : i / 10 < k) by (apply Z.div_lt_upper_bound; lia). rewrite (proj2 (Z.eqb_neq (i / 10) k)) by lia. cbn [negb].
      rewrite orb_true_r. cbn [app]. replace (Z.max (i + 1) (10 * k)) with (10 * k) by lia. replace (Z.max i (10 * k)) with (10 * k) by lia.
      replace (Z.to_nat (10 * k - i)) with (Datatypes.S (Z.to_nat (10 * k - (i + 1)))) by lia. cbn [skipn]. reflexivity.
    + replace (Z.to_nat (10 * k - i)) with O by lia. replace (Z.to_nat (10 * k - (i + 1))) with O by lia. cbn [skipn].
      replace (Z.max (i + 1) (10 * k)) with (i + 1) by lia. replace (Z.max i (10 * k)) with i by lia.
      destruct (Z_lt_le_dec i (10 * k + 10)) as [LT2|GE2].
      * assert (D : i / 10 = k) by (symmetry; apply (Z.div_unique i 10 k (i - 10 * k)); lia). rewrite (proj2 (Z.eqb_eq (i / 10) k)) by exact D.
        cbn [negb]. rewrite orb_false_r. replace (Z.to_nat (10 * k + 10 - i)) with (Datatypes.S (Z.to_nat (10 * k + 10 - (i + 1)))) by lia.
        cbn [firstn listing]. destruct (f =? 0); reflexivity.
      * assert (D : k < i / 10) by (apply Z.lt_le_trans with ((10 * k + 10) / 10); [rewrite <- (Z.mul_1_l 10) at 2; replace (10 * k + 1 * 10) with ((k + 1) * 10) by lia; rewrite Z.div_mul by lia; lia|apply Z.div_le_mono; lia]).
        rewrite (proj2 (Z.eqb_neq (i / 10) k)) by lia. cbn [negb]. rewrite orb_true_r. cbn [app].
        replace (Z.to_nat (10 * k + 10 - i)) with O by lia. replace (Z.to_nat (10 * k + 10 - (i + 1))) with O by lia. reflexivity.
Qed.
Lemma listing_group k act rs : 0 <= k -> List.length act = List.length rs ->
  listing_in k 0 act rs = listing (10 * k) (firstn 10 (skipn (Z.to_nat (10 * k)) act)) (firstn 10 (skipn (Z.to_nat (10 * k)) rs)).
Proof.
  intros K L. rewrite listing_slice by (lia || exact L). replace (Z.max 0 (10 * k)) with (10 * k) by lia.
  replace (Z.to_nat (10 * k + 10 - 10 * k)) with 10%nat by lia. replace (10 * k - 0) with (10 * k) by lia. reflexivity.
Qed.

(** * Commands *)

Lemma prefix_app p l : prefix p (p ++ l) = Some l.
Proof. induction p as [|c p IH]; cbn [prefix app]; [reflexivity|]. rewrite Z.eqb_refl. exact IH. Qed.
Lemma prefix_inv p : forall l r, prefix p l = Some r -> l = p ++ r.
Proof.
  induction p as [|c p IH]; intros l r H; cbn [prefix] in H; [cbn; congruence|]. destruct l as [|y l]; [discriminate|].
  destruct (Z.eqb_spec c y) as [->|]; [|discriminate]. cbn. f_equal. apply IH. exact H.
Qed.
Definition stop (p : Z -> bool) (r : list Z) : Prop := match r with [] => True | c :: _ => p c = false end.
Lemma span_app p l r : Forall (fun c => p c = true) l -> stop p r -> span p (l ++ r) = (l, r).
Proof.
  intros H S. induction H as [|c l C _ IH]; cbn [app span].
  - destruct r as [|c r]; [reflexivity|]. cbn [stop] in S. cbn [span]. rewrite S. reflexivity.
  - rewrite C, IH. reflexivity.
Qed.
Lemma span_inv p l a r : span p l = (a, r) -> l = a ++ r /\ Forall (fun c => p c = true) a /\ stop p r.
Proof.
  revert a r. induction l as [|c l IH]; intros a r H; cbn [span] in H.
  - assert (a = [] /\ r = []) as [-> ->] by (split; congruence). repeat split; constructor.
  - destruct (p c) eqn:E.
    + destruct (span p l) as [a1 r1] eqn:S. assert (a = c :: a1 /\ r = r1) as [-> ->] by (split; congruence).
      destruct (IH a1 r1 eq_refl) as (A & B & C). split; [cbn; congruence|]. split; [constructor; assumption|exact C].
    + assert (a = [] /\ r = c :: l) as [-> ->] by (split; congruence). repeat split; [constructor|exact E].
Qed.
Lemma eqtext_eq a : forall b, eqtext a b = true <-> a = b.
Proof.
  induction a as [|x a IH]; intros [|y b]; cbn [eqtext]; split; intros H; try congruence; try discriminate; auto.
  - apply andb_true_iff in H. destruct H as [H1 H2]. apply IH in H2. f_equal; [lia|exact H2].
  - injection H as -> ->. rewrite Z.eqb_refl. cbn [andb]. apply IH. reflexivity.
Qed.
Lemma quoted_app s : Forall (fun c => any c = true) s -> quoted (s ++ [34; 32; 41]) = Some s.
Proof.
  induction 1 as [|c s C F IH]; [reflexivity|]. cbn [app quoted].
  destruct (eqtext (c :: s ++ [34; 32; 41]) [34; 32; 41]) eqn:E.
  - apply eqtext_eq in E. apply (f_equal (@List.length Z)) in E. cbn in E. rewrite app_length in E. cbn in E. lia.
  - rewrite C, IH. reflexivity.
Qed.
Lemma quoted_inv l : forall s, quoted l = Some s -> l = s ++ [34; 32; 41] /\ Forall (fun c => any c = true) s.
Proof.
  induction l as [|c l IH]; intros s H; cbn [quoted] in H; [discriminate|].
  destruct (eqtext (c :: l) [34; 32; 41]) eqn:E.
  - apply eqtext_eq in E. assert (s = []) by congruence. subst. split; [exact E|constructor].
  - destruct (any c) eqn:A; [|discriminate]. destruct (quoted l) as [q|] eqn:Q; [|discriminate]. cbn [option_map] in H.
    assert (s = c :: q) by congruence. subst. destruct (IH q eq_refl) as [B C]. split; [cbn; congruence|constructor; assumption].
Qed.

Lemma match_form n v i x : proper n v i x -> rm_match (form n v i x) = Some (n, v, i, x).
Proof.
  intros (N & AN & V & AV & I & AI & X). unfold rm_match, form. rewrite prefix_app.
  rewrite (span_app isdigit n) by (assumption || reflexivity). destruct n as [|n0 n]; [congruence|]. rewrite prefix_app.
  rewrite (span_app wordchar v) by (assumption || reflexivity). destruct v as [|v0 v]; [congruence|]. rewrite prefix_app.
  rewrite (span_app isdigit i) by (assumption || reflexivity). destruct i as [|i0 i]; [congruence|]. rewrite prefix_app.
  destruct x as [s|d].
  - cbn [app]. change (34 =? quote) with true. cbv beta iota. rewrite quoted_app by exact X. reflexivity.
  - destruct X as [D AD]. destruct d as [|d0 d]; [congruence|]. change ((d0 :: d) ++ codes " )") with (d0 :: (d ++ codes " )")) at 1.
    cbv beta iota. inversion AD; subst.
    assert (Q : d0 =? quote = false) by (unfold isdigit, quote in *; lia). rewrite Q.
    rewrite (span_app (fun c => isdigit c || (c =? 46)) (d0 :: d)) by (assumption || reflexivity).
    change (eqtext (d0 :: d) []) with false. rewrite (proj2 (eqtext_eq (codes " )") (codes " )")) eq_refl). reflexivity.
Qed.
Lemma match_inv l n v i x : rm_match l = Some (n, v, i, x) -> l = form n v i x /\ proper n v i x.
Proof.
  intros M. unfold rm_match in M.
  destruct (prefix (codes "__RECMAN[") l) as [l1|] eqn:P1; [|discriminate]. destruct (span isdigit l1) as [n1 l2] eqn:S1. destruct n1 as [|n0 n1]; [discriminate|].
  destruct (prefix (codes "]:set_cmd( """) l2) as [l3|] eqn:P2; [|discriminate]. destruct (span wordchar l3) as [v1 l4] eqn:S2. destruct v1 as [|v0 v1]; [discriminate|].
  destruct (prefix (codes """, ") l4) as [l5|] eqn:P3; [|discriminate]. destruct (span isdigit l5) as [i1 l6] eqn:S3. destruct i1 as [|i0 i1]; [discriminate|].
  destruct (prefix (codes ", ") l6) as [l7|] eqn:P4; [|discriminate].
  apply prefix_inv in P1, P2, P3, P4. apply span_inv in S1, S2, S3. destruct S1 as (A1 & B1 & _), S2 as (A2 & B2 & _), S3 as (A3 & B3 & _).
  assert (G : forall x1, l7 = match x1 with inl s => [34] ++ s ++ [34; 32; 41] | inr d => d ++ codes " )" end ->
     match x1 with inl s => Forall (fun c => any c = true) s | inr d => d <> [] /\ Forall (fun c => isdigit c || (c =? 46) = true) d end ->
     Some (n0 :: n1, v0 :: v1, i0 :: i1, x1) = Some (n, v, i, x) -> l = form n v i x /\ proper n v i x).
  { intros x1 E7 OK E. assert (n = n0 :: n1 /\ v = v0 :: v1 /\ i = i0 :: i1 /\ x = x1) as (-> & -> & -> & ->) by (repeat split; congruence).
    split.
    - unfold form. rewrite <- E7, <- P4, <- A3, <- P3, <- A2, <- P2, <- A1. exact P1.
    - unfold proper. repeat split; try discriminate; try assumption. }
  destruct l7 as [|c l7]; [discriminate|]. destruct (Z.eqb_spec c quote) as [->|NQ].
  - destruct (quoted l7) as [q1|] eqn:Q; [|discriminate]. apply quoted_inv in Q. destruct Q as [Q1 Q2].
    apply (G (inl q1)); [cbn; rewrite Q1; reflexivity|exact Q2|exact M].
  - destruct (span (fun c => isdigit c || (c =? 46)) (c :: l7)) as [d r] eqn:SD.
    destruct (negb (eqtext d []) && eqtext r (codes " )")) eqn:E; [|discriminate]. apply andb_true_iff in E. destruct E as [E1 E2].
    apply eqtext_eq in E2. apply span_inv in SD. destruct SD as (SD & SF & _). apply (G (inr d)); [congruence| |exact M].
    split; [intros ->; discriminate|exact SF].
Qed.

(** * Files of adapters and of the last loaded recipes *)

Definition show_ints (l : list Z) : list Z := flat_map (fun v => show_int v ++ [32]) l.
Lemma read_ints_show l : forall w, Forall is_int l -> (exists c, w = [c] /\ isspace c = true) ->
  read_ints (List.length l) (open_in (w ++ show_ints l)) = map Some l.
Proof.
  induction l as [|v l IH]; intros w H (c & -> & SP); [reflexivity|]. inversion H; subst. cbn [List.length read_ints app].
  rewrite get_int_ws by exact SP. unfold show_ints. cbn [flat_map]. fold (show_ints l). rewrite <- app_assoc.
  rewrite get_int_show by (assumption || reflexivity). cbn [map]. f_equal.
  change {| FTextModel.left := [32] ++ show_ints l; fail := false; eof := at_end ([32] ++ show_ints l) |} with (open_in ([32] ++ show_ints l)).
  apply IH; [assumption|]. exists 32. auto.
Qed.
Lemma overlay_opt_some old : forall l, overlay_opt old (map Some l) = Some (overlay old l).
Proof. induction old as [|a old IH]; intros [|v l]; cbn [map overlay_opt overlay]; try reflexivity. rewrite IH. reflexivity. Qed.

Lemma adapter_file old act : Forall is_int act -> Z.of_nat (List.length act) < 2 ^ 31 ->
  des_adapter old (Some (ser_adapter act)) = Some (overlay old act).
Proof.
  intros H L. unfold des_adapter, ser_adapter. rewrite get_int_show by (cbn; (lia || reflexivity)).
  change {| FTextModel.left := [10] ++ ?x; fail := false; eof := at_end ([10] ++ ?x) |} with (open_in ([10] ++ x)).
  fold (show_ints act). rewrite Nat2Z.id. rewrite read_ints_show by (try assumption; exists 10; auto). apply overlay_opt_some.
Qed.

Lemma read_tech_show os' : forall os rest, Forall (fun o => one_line (o_name o) /\ is_int (o_nmr o)) os' ->
  read_tech (List.length os') (open_in (10 :: flat_map (fun o => o_name o ++ [10] ++ show_int (o_nmr o) ++ [10]) os' ++ rest)) os = note_all os os'.
Proof.
  induction os' as [|o' os' IH]; intros os rest H; [destruct os; reflexivity|]. inversion H; subst. destruct H2 as [H1 H2].
  cbn [List.length read_tech flat_map]. rewrite ignore_one, <- !app_assoc. cbn [app].
  rewrite getline_one by exact H1. rewrite get_int_show by (assumption || reflexivity).
  destruct os as [|o os]; [reflexivity|]. cbn [note_all]. unfold noted. f_equal. apply IH. exact H3.
Qed.
Lemma tech_file os os' : Forall (fun o => one_line (o_name o) /\ is_int (o_nmr o)) os' -> Z.of_nat (List.length os') < 2 ^ 31 ->
  load_tech os (Some (show_tech os')) = note_all os os'.
Proof.
  intros H L. unfold load_tech, show_tech. rewrite get_int_show by (cbn; (lia || reflexivity)). rewrite Nat2Z.id.
  change {| FTextModel.left := [10] ++ ?x; fail := false; eof := at_end ([10] ++ ?x) |} with (open_in (10 :: x)).
  rewrite <- (app_nil_r (flat_map _ os')). apply read_tech_show. exact H.
Qed.
