(** Lemmas about the text of a device and about sending it back. *)
From Coq Require Import ZArith List Bool Lia QArith Qround Qabs Lqa.
From Verif Require Import Base FTextModel FTextProofs FTextProofs2 FloatModel FloatProofs DevModel DevSpec DevProofs.
Import ListNotations.
Open Scope Z_scope.

(** * Cutting *)

Lemma cut_app c a : forall b, Forall (fun x => x <> c) a -> cut_at c (a ++ c :: b) = Some (a, b).
Proof.
  induction a as [|x a IH]; intros b H; cbn [app cut_at].
  - rewrite Z.eqb_refl. reflexivity.
  - inversion H as [|? ? N F]; subst. destruct (Z.eqb_spec x c); [contradiction|]. rewrite IH by exact F. reflexivity.
Qed.
Lemma cut_none c a : Forall (fun x => x <> c) a -> cut_at c a = None.
Proof.
  induction a as [|x a IH]; intros H; cbn [cut_at]; [reflexivity|].
  inversion H as [|? ? N F]; subst. destruct (Z.eqb_spec x c); [contradiction|]. rewrite IH by exact F. reflexivity.
Qed.
Definition clean (t : text) : Prop := Forall (fun c => c <> 61 /\ c <> 44 /\ c <> 125) t.
Lemma clean61 t : clean t -> Forall (fun x => x <> 61) t.
Proof. apply Forall_impl. tauto. Qed.
Lemma clean44 t : clean t -> Forall (fun x => x <> 44) t.
Proof. apply Forall_impl. tauto. Qed.
Lemma clean125 t : clean t -> Forall (fun x => x <> 125) t.
Proof. apply Forall_impl. tauto. Qed.
Lemma plain_clean t : plain t -> clean t.
Proof. apply Forall_impl. tauto. Qed.

(** * Fields *)

Definition flat (fs : list (text * text)) : text := flat_map (fun f => entry (fst f) (snd f)) fs.
Fixpoint render (fs : list (text * text)) : text :=
  match fs with
  | [] => []
  | [(k, v)] => k ++ 61 :: v ++ [125; 44; 10]
  | (k, v) :: fs' => entry k v ++ render fs'
  end.
Lemma trim fs : fs <> [] -> exists x, flat fs = x ++ [44; 32] /\ x ++ [125; 44; 10] = render fs.
Proof.
  induction fs as [|[k v] fs IH]; intros N; [congruence|]. destruct fs as [|g fs].
  - exists (k ++ 61 :: v). cbn [flat flat_map render fst snd]. unfold entry. rewrite app_nil_r.
    split; rewrite <- app_assoc; reflexivity.
  - destruct IH as (x & E1 & E2); [discriminate|]. exists (entry k v ++ x).
    change (flat ((k, v) :: g :: fs)) with (entry k v ++ flat (g :: fs)). rewrite E1.
    change (render ((k, v) :: g :: fs)) with (entry k v ++ render (g :: fs)). rewrite <- E2.
    split; rewrite <- app_assoc; reflexivity.
Qed.
Lemma trimmed hd fs : fs <> [] ->
  firstn (length (hd ++ flat fs) - 2) (hd ++ flat fs) ++ [125; 44; 10] = hd ++ render fs.
Proof.
  intros N. destruct (trim fs N) as (x & -> & <-). rewrite app_assoc, app_length. cbn [length].
  replace (length (hd ++ x) + 2 - 2)%nat with (length (hd ++ x)) by lia.
  rewrite firstn_app, firstn_all, Nat.sub_diag. cbn [firstn]. rewrite app_nil_r, <- app_assoc. reflexivity.
Qed.
Lemma read_render fs : fs <> [] -> Forall (fun f => clean (fst f) /\ clean (snd f)) fs ->
  forall n, (length fs <= n)%nat -> read_fields n (render fs) = Some fs.
Proof.
  induction fs as [|[k v] fs IH]; intros N F n L; [congruence|]. destruct n as [|n]; [cbn in L; lia|].
  inversion F as [|? ? [C1 C2] F2]; subst. cbn [fst snd] in *. destruct fs as [|g fs].
  - cbn [render read_fields]. rewrite cut_app by (apply clean61; exact C1).
    replace (v ++ [125; 44; 10]) with ((v ++ [125]) ++ 44 :: [10]) by (rewrite <- app_assoc; reflexivity).
    rewrite cut_app by (apply Forall_app; split; [apply clean44; exact C2|repeat constructor; lia]).
    rewrite cut_app by (apply clean125; exact C2). reflexivity.
  - change (render ((k, v) :: g :: fs)) with (entry k v ++ render (g :: fs)). cbn [read_fields]. unfold entry.
    replace ((k ++ 61 :: v ++ [44; 32]) ++ render (g :: fs)) with (k ++ 61 :: v ++ 44 :: 32 :: render (g :: fs))
      by (rewrite <- app_assoc; cbn; rewrite <- app_assoc; reflexivity).
    rewrite cut_app by (apply clean61; exact C1). rewrite cut_app by (apply clean44; exact C2).
    rewrite IH; [reflexivity|discriminate|exact F2|cbn [length] in L |- *; lia].
Qed.
Lemma render_len fs : (length fs <= length (render fs))%nat.
Proof.
  induction fs as [|[k v] fs IH]; [cbn; lia|]. destruct fs as [|g fs].
  - cbn [render length]. rewrite app_length. cbn [length]. lia.
  - change (render ((k, v) :: g :: fs)) with (entry k v ++ render (g :: fs)). rewrite app_length. unfold entry. rewrite app_length.
    cbn [length] in *. lia.
Qed.
Lemma drop_prefix p x : blank p -> drop_blank (p ++ x) = drop_blank x.
Proof.
  induction p as [|c p IH]; intros B; [reflexivity|]. inversion B as [|? ? [-> | ->] B2]; subst; cbn; apply IH; exact B2.
Qed.
Lemma drop_name n x : plain n -> drop_blank (n ++ 61 :: x) = n ++ 61 :: x.
Proof.
  intros P. destruct n as [|c n]; [reflexivity|]. inversion P as [|? ? Q _]; subst. cbn.
  destruct (Z.eqb_spec c 9); [tauto|]. destruct (Z.eqb_spec c 32); [tauto|]. reflexivity.
Qed.
Lemma read_flat p n fs : blank p -> plain n -> fs <> [] -> Forall (fun f => clean (fst f) /\ clean (snd f)) fs ->
  read_device (firstn (length ((p ++ n ++ [61; 123]) ++ flat fs) - 2) ((p ++ n ++ [61; 123]) ++ flat fs) ++ [125; 44; 10]) = Some (n, fs).
Proof.
  intros B P N F. rewrite trimmed by exact N. unfold read_device.
  replace ((p ++ n ++ [61; 123]) ++ render fs) with (p ++ n ++ 61 :: 123 :: render fs) by (rewrite <- !app_assoc; reflexivity).
  rewrite drop_prefix by exact B. rewrite drop_name by exact P.
  rewrite cut_app by (apply clean61; apply plain_clean; exact P). cbv iota.
  rewrite read_render; [reflexivity|exact N|exact F|apply render_len].
Qed.

(** * Numbers *)

Lemma alld_ne c t : alld t -> (c < 48 \/ 57 < c) -> Forall (fun x => x <> c) t.
Proof. intros A C. eapply Forall_impl; [|exact A]. intros x H. unfold isdigit in H. cbv beta in H. lia. Qed.
Lemma alld_digits t : alld t -> all_digits t = true.
Proof. intros A. unfold all_digits. apply forallb_forall. intros x H. unfold alld in A. rewrite Forall_forall in A. exact (A x H). Qed.
Lemma natural_of t v : alld t -> t <> [] -> FTextProofs2.value t 0 = v -> natural t = Some v.
Proof.
  intros A N V. unfold natural. destruct t as [|c t]; [congruence|]. rewrite alld_digits by exact A. f_equal. exact V.
Qed.
Lemma alld_clean t : alld t -> clean t.
Proof. intros A. eapply Forall_impl; [|exact A]. intros x H. unfold isdigit in H. cbv beta in H. lia. Qed.
Lemma positive_whole t v : alld t -> t <> [] -> FTextProofs2.value t 0 = v -> positive t = Some (inject_Z v).
Proof.
  intros A N V. unfold positive. rewrite cut_none by (apply alld_ne; [exact A|lia]). rewrite (natural_of t v A N V). reflexivity.
Qed.
Lemma number_pos t : alld t -> t <> [] -> forall x, number (t ++ x) = positive (t ++ x).
Proof.
  intros A N x. destruct t as [|c t]; [congruence|]. inversion A as [|? ? H _]; subst. cbn [app]. unfold number.
  assert (c <> 45) by (unfold isdigit in H; lia).
  repeat match goal with |- match ?z with _ => _ end = _ => destruct z end; try reflexivity; congruence.
Qed.
Lemma number_int z : - 10 ^ 20 < z < 10 ^ 20 -> exists q, number (show_int z) = Some q /\ (q == inject_Z z)%Q.
Proof.
  intros R. unfold show_int. destruct (Z.ltb_spec z 0) as [L|L].
  - destruct (udec_spec 20 (- z) ltac:(lia) ltac:(lia)) as (A & N & V). cbn [number].
    rewrite (positive_whole _ _ A N V). exists (- inject_Z (- z))%Q. split; [reflexivity|]. rewrite inject_Z_opp. lra.
  - destruct (udec_spec 20 z ltac:(lia) ltac:(lia)) as (A & N & V). exists (inject_Z z).
    split; [|reflexivity]. pose proof (number_pos _ A N []) as E. rewrite app_nil_r in E. rewrite E. exact (positive_whole _ _ A N V).
Qed.
Lemma clean_int z : - 10 ^ 20 < z < 10 ^ 20 -> clean (show_int z).
Proof.
  intros R. unfold show_int. destruct (Z.ltb_spec z 0) as [L|L].
  - constructor; [lia|]. apply alld_clean. apply (udec_spec 20 (- z)); lia.
  - apply alld_clean. apply (udec_spec 20 z); lia.
Qed.

Lemma digits2 n : 0 <= n -> alld (digits 2 n) /\ length (digits 2 n) = 2%nat /\ digits 2 n <> [] /\ FTextProofs2.value (digits 2 n) 0 = n mod 100.
Proof.
  intros P. split; [apply digits_alld|]. split; [apply digits_len|].
  split. { intros E. pose proof (digits_len 2 n) as X. rewrite E in X. discriminate. }
  cbn [digits app]. unfold FTextProofs2.value, digit. cbn [fold_left].
  pose proof (Z.div_mod n 10 ltac:(lia)). pose proof (Z.div_mod (n / 10) 10 ltac:(lia)). pose proof (Z.div_mod n 100 ltac:(lia)).
  pose proof (Z.mod_pos_bound n 10 ltac:(lia)). pose proof (Z.mod_pos_bound (n / 10) 10 ltac:(lia)). pose proof (Z.mod_pos_bound n 100 ltac:(lia)).
  rewrite Z.div_div in * by lia. change (10 * 10) with 100 in *. lia.
Qed.
Lemma positive_point n : 0 <= n < 10 ^ 60 -> exists q, positive (udec 60 (n / 100) ++ 46 :: digits 2 n) = Some q /\ (q == inject_Z n / 100)%Q.
Proof.
  intros R. assert (0 <= n / 100 < 10 ^ Z.of_nat 60) as R1.
  { split; [apply Z.div_pos; lia|]. change (10 ^ Z.of_nat 60) with (10 ^ 60). pose proof (Z.div_le_upper_bound n 100 n ltac:(lia) ltac:(lia)). lia. }
  destruct (udec_spec 60 (n / 100) R1 ltac:(lia)) as (A & N & V). destruct (digits2 n ltac:(lia)) as (A2 & L2 & N2 & V2).
  unfold positive. rewrite cut_app by (apply alld_ne; [exact A|lia]).
  rewrite (natural_of _ _ A N V), (natural_of _ _ A2 N2 V2), L2. eexists. split; [reflexivity|].
  change (inject_Z (10 ^ Z.of_nat 2)) with 100%Q. rewrite (Z.div_mod n 100) at 3 by lia. rewrite inject_Z_plus, inject_Z_mult.
  change (inject_Z 100) with 100%Q. field.
Qed.
Lemma hundredths_near tie x : (0 <= x)%Q ->
  0 <= hundredths tie x /\ (- (1 # 2) <= inject_Z (hundredths tie x) - x * 100 <= 1 # 2)%Q /\
  (is_whole x -> inject_Z (hundredths tie x) == x * 100)%Q.
Proof.
  intros P. unfold hundredths. cbv zeta. set (n := Qfloor (x * 100)).
  assert (inject_Z n <= x * 100)%Q as L by apply Qfloor_le. assert (x * 100 < inject_Z (n + 1))%Q as U by apply Qlt_floor.
  rewrite inject_Z_plus in U. change (inject_Z 1) with 1%Q in U.
  assert (0 <= n) as N. { change 0 with (Qfloor 0). apply Qfloor_resp_le. lra. }
  assert (is_whole x -> inject_Z n == x * 100)%Q as W.
  { intros [z E]. unfold n. rewrite E at 1. assert (x * 100 == inject_Z (z * 100))%Q as E2 by (rewrite E, inject_Z_mult; reflexivity).
    rewrite E2. setoid_replace (inject_Z z * 100)%Q with (inject_Z (z * 100)) by (rewrite inject_Z_mult; reflexivity).
    rewrite Qfloor_Z. reflexivity. }
  clearbody n.
  destruct (Qcompare_spec (x * 100 - inject_Z n) (1 # 2)) as [E|E|E].
  - destruct (tie n).
    + split; [lia|]. rewrite inject_Z_plus. change (inject_Z 1) with 1%Q. split; [lra|]. intros X. apply W in X. lra.
    + split; [lia|]. split; [lra|]. exact W.
  - split; [lia|]. split; [lra|]. exact W.
  - split; [lia|]. rewrite inject_Z_plus. change (inject_Z 1) with 1%Q. split; [lra|]. intros X. apply W in X. lra.
Qed.
Lemma no_fraction_abs b : f_finite b = true -> no_fraction b = true -> (f_abs b == inject_Z (Qfloor (f_abs b)))%Q.
Proof.
  intros F H. unfold no_fraction in H. destruct (finite_not b F) as [-> ->] in H.
  assert (is_whole (f_abs b)) as [z E].
  { unfold f_abs. apply orb_true_iff in H. destruct H as [H|H].
    - apply Z.leb_le in H. exists (f_m b * 2 ^ f_e b). rewrite inject_Z_mult, (p2_Z _ H). reflexivity.
    - apply Z.eqb_eq in H. destruct (Z.leb_spec 0 (f_e b)) as [G|G].
      { exists (f_m b * 2 ^ f_e b). rewrite inject_Z_mult, (p2_Z _ G). reflexivity. }
      exists (f_m b / 2 ^ (- f_e b)). assert (0 < 2 ^ (- f_e b)) by (apply Z.pow_pos_nonneg; lia).
      rewrite (Z.div_mod (f_m b) (2 ^ (- f_e b))) at 1 by lia. rewrite H, Z.add_0_r, inject_Z_mult.
      rewrite <- (p2_Z (- f_e b)) by lia. pose proof (p2_inv (f_e b)) as I.
      setoid_replace (p2 (- f_e b) * inject_Z (f_m b / 2 ^ (- f_e b)) * p2 (f_e b))%Q
        with (inject_Z (f_m b / 2 ^ (- f_e b)) * (p2 (f_e b) * p2 (- f_e b)))%Q by ring.
      rewrite I. ring. }
  rewrite E at 2. rewrite Qfloor_Z. exact E.
Qed.
Lemma top60 : (p2 128 <= inject_Z (10 ^ 50))%Q.
Proof. rewrite p2_Z by lia. rewrite <- Zle_Qle. vm_compute. discriminate. Qed.
Lemma abs_floor b : f_finite b = true -> 0 <= Qfloor (f_abs b) < 10 ^ 60.
Proof.
  intros F. pose proof (f_abs_pos b F) as P. pose proof (f_abs_top b F) as T. pose proof top60 as T6.
  split; [change 0 with (Qfloor 0); apply Qfloor_resp_le; exact P|].
  pose proof (Qfloor_le (f_abs b)) as L.
  assert (inject_Z (Qfloor (f_abs b)) < inject_Z (10 ^ 50))%Q as X. { eapply Qle_lt_trans; [exact L|]. eapply Qlt_le_trans; [exact T|exact T6]. }
  rewrite <- Zlt_Qlt in X. lia.
Qed.
(** The text of the size of a number. *)
Definition body (tie : Z -> bool) (b : Z) : text :=
  if no_fraction b then udec 60 (Qfloor (f_abs b))
  else udec 60 (hundredths tie (f_abs b) / 100) ++ 46 :: digits 2 (hundredths tie (f_abs b)).
Lemma body_ok tie b : f_finite b = true -> clean (body tie b) /\ (exists t x, body tie b = t ++ x /\ alld t /\ t <> []) /\
  exists q, positive (body tie b) = Some q /\ (Qabs (q - f_abs b) <= 1 # 200)%Q /\ (is_whole (f_abs b) -> (q == f_abs b)%Q).
Proof.
  intros F. unfold body. destruct (no_fraction b) eqn:NF.
  - destruct (udec_spec 60 (Qfloor (f_abs b)) ltac:(exact (abs_floor b F)) ltac:(lia)) as (A & N & V).
    split; [apply alld_clean; exact A|]. split; [exists (udec 60 (Qfloor (f_abs b))), []; rewrite app_nil_r; auto|].
    exists (inject_Z (Qfloor (f_abs b))). split; [exact (positive_whole _ _ A N V)|].
    pose proof (no_fraction_abs b F NF) as E. set (z := inject_Z _) in *. clearbody z.
    split; [|intros _; symmetry; exact E]. setoid_replace (z - f_abs b)%Q with 0%Q by lra. unfold Qabs, Qle; cbn; lia.
  - destruct (hundredths_near tie (f_abs b) (f_abs_pos b F)) as (P & [L U] & W). set (n := hundredths tie (f_abs b)) in *.
    assert (n < 10 ^ 60) as R.
    { assert (inject_Z n < inject_Z (10 ^ 60))%Q as X.
      { pose proof (f_abs_top b F) as T. pose proof top60 as T6. assert (inject_Z (10 ^ 60) == inject_Z (10 ^ 50) * 10000000000)%Q as E60 by reflexivity.
        assert (1 <= inject_Z (10 ^ 50))%Q as E1 by (vm_compute; discriminate).
        rewrite E60. set (y := inject_Z (10 ^ 50)) in *. clearbody y. clearbody n. lra. }
      rewrite <- Zlt_Qlt in X. exact X. }
    clearbody n. assert (0 <= n / 100 < 10 ^ Z.of_nat 60) as R1.
    { split; [apply Z.div_pos; lia|]. change (10 ^ Z.of_nat 60) with (10 ^ 60). pose proof (Z.div_le_upper_bound n 100 n ltac:(lia) ltac:(lia)). lia. }
    destruct (udec_spec 60 (n / 100) R1 ltac:(lia)) as (A & N & V).
    split. { apply Forall_app. split; [apply alld_clean; exact A|]. constructor; [lia|]. apply alld_clean. apply digits_alld. }
    split; [exists (udec 60 (n / 100)), (46 :: digits 2 n); auto|].
    destruct (positive_point n ltac:(lia)) as (q & E & Q). exists q. split; [exact E|].
    assert (inject_Z n / 100 == inject_Z n * (1 # 100))%Q as D by field.
    split. { apply Qabs_Qle_condition. rewrite Q, D. split; lra. }
    intros X. rewrite Q, (W X). field.
Qed.
Lemma show_num_finite tie b : f_finite b = true -> show_num tie b = (if f_neg b then [45] else []) ++ body tie b.
Proof. intros F. unfold show_num, body. destruct (finite_not b F) as [-> ->]. reflexivity. Qed.
Lemma show_num_tells tie b : clean (show_num tie b) /\ tells (show_num tie b) (CFloat b).
Proof.
  unfold tells. destruct (f_finite b) eqn:F.
  - rewrite show_num_finite by exact F. destruct (body_ok tie b F) as (C & (t & x & E & A & N) & q & Pq & Q & W).
    unfold f_val. destruct (f_neg b).
    + split; [constructor; [lia|exact C]|]. cbn [app number]. rewrite Pq. exists (- q)%Q. split; [reflexivity|]. split.
      * apply Qabs_Qle_condition in Q. apply Qabs_Qle_condition. destruct Q. split; lra.
      * intros [z Z]. assert (is_whole (f_abs b)) as X. { exists (- z). rewrite inject_Z_opp, <- Z. ring. } rewrite (W X). reflexivity.
    + split; [exact C|]. cbn [app]. rewrite E, number_pos by assumption. rewrite <- E, Pq. exists q. auto.
  - unfold show_num. destruct (f_isnan b) eqn:NN.
    + destruct (f_neg b); (split; [repeat constructor; lia|reflexivity]).
    + rewrite (f_isnan_not b NN F). destruct (f_neg b); (split; [repeat constructor; lia|reflexivity]).
Qed.

(** * The whole text *)

Fixpoint par_fields (tie : Z -> bool) (ns : list (option text)) (vs : list Z) : list (text * text) :=
  match ns, vs with
  | Some n :: ns', v :: vs' => (n, show_num tie v) :: par_fields tie ns' vs'
  | None :: ns', _ :: vs' => par_fields tie ns' vs'
  | _, _ => []
  end.
Lemma par_flat tie ns : forall vs, par_text tie ns vs = flat (par_fields tie ns vs).
Proof.
  induction ns as [|[n|] ns IH]; intros [|v vs]; cbn [par_text par_fields]; try reflexivity; [|apply IH].
  rewrite IH. reflexivity.
Qed.
Lemma par_fields_ok tie ns : (forall n, In (Some n) ns -> plain n) -> forall vs,
  Forall (fun f => clean (fst f) /\ clean (snd f)) (par_fields tie ns vs) /\
  Forall2 (fun f e => fst f = fst e /\ tells (snd f) (snd e)) (par_fields tie ns vs) (par_cells ns vs).
Proof.
  induction ns as [|[n|] ns IH]; intros P [|v vs]; cbn [par_fields par_cells]; try (split; constructor).
  - cbn [fst snd]. split; [apply plain_clean; apply P; left; reflexivity|apply show_num_tells].
  - apply IH. intros m H. apply P. right. exact H.
  - cbn [fst snd]. split; [reflexivity|apply show_num_tells].
  - apply IH. intros m H. apply P. right. exact H.
  - apply IH. intros m H. apply P. right. exact H.
Qed.
Definition fields (tie : Z -> bool) (d : dev) : list (text * text) :=
  ([77], [if manual d then 49 else 48]) ::
  (if has_state d then [([83; 84], show_int (state d))] else []) ++
  (if has_value d then [([86], show_num tie (value d))] else []) ++ par_fields tie (names d) (vals d).
Lemma save_fields tie p d : save_device tie p d =
  firstn (length ((p ++ dname d ++ [61; 123]) ++ flat (fields tie d)) - 2) ((p ++ dname d ++ [61; 123]) ++ flat (fields tie d)) ++ [125; 44; 10].
Proof.
  unfold save_device, save_device_with. cbv zeta. rewrite par_flat.
  assert (entry [77] [if manual d then 49 else 48] ++ (if has_state d then entry [83; 84] (show_int (state d)) else []) ++
          (if has_value d then entry [86] (show_num tie (value d)) else []) ++ [] ++ flat (par_fields tie (names d) (vals d)) = flat (fields tie d)) as ->; [|reflexivity].
  unfold fields, flat. cbn [flat_map fst snd]. rewrite !flat_map_app. cbn [app]. f_equal. f_equal.
  - destruct (has_state d); [|reflexivity]. cbn [flat_map fst snd]. rewrite app_nil_r. reflexivity.
  - f_equal. destruct (has_value d); [|reflexivity]. cbn [flat_map fst snd]. rewrite app_nil_r. reflexivity.
Qed.
Lemma has_state_eq d : if has_state d then state_shown (dtype d) else ~ state_shown (dtype d).
Proof. unfold has_state, state_shown. destruct (Z.eqb_spec (dtype d) 16); cbn; lia. Qed.
Lemma has_value_eq d : if has_value d then value_shown (dtype d) (subtype d) else ~ value_shown (dtype d) (subtype d).
Proof.
  unfold has_value, value_shown. destruct (existsb (Z.eqb (dtype d)) [0; 5; 6; 10; 11; 12; 13; 14]) eqn:E.
  - cbn [negb andb]. apply existsb_exists in E. destruct E as (x & I & E). apply Z.eqb_eq in E. rewrite E. tauto.
  - cbn [negb andb]. assert (~ In (dtype d) [0; 5; 6; 10; 11; 12; 13; 14]) as N.
    { intros I. assert (existsb (Z.eqb (dtype d)) [0; 5; 6; 10; 11; 12; 13; 14] = true); [|congruence].
      apply existsb_exists. exists (dtype d). split; [exact I|apply Z.eqb_refl]. }
    destruct ((dtype d =? 3) && ((subtype d =? 2) || (subtype d =? 1))) eqn:E2; cbn [negb].
    + assert (dtype d = 3 /\ (subtype d = 1 \/ subtype d = 2)) by lia. tauto.
    + assert (~ (dtype d = 3 /\ (subtype d = 1 \/ subtype d = 2))) by lia. tauto.
Qed.
Lemma text_ok tie p d : plain_names d -> blank p -> - 2 ^ 31 <= state d < 2 ^ 31 ->
  exists fs l, read_device (save_device tie p d) = Some (dname d, fs) /\ cells_of d l /\
    Forall2 (fun f e => fst f = fst e /\ tells (snd f) (snd e)) fs l.
Proof.
  intros [P1 P2] B S. exists (fields tie d).
  exists (([77], CInt (if manual d then 1 else 0)) :: (if has_state d then [([83; 84], CInt (state d))] else []) ++
          (if has_value d then [([86], CFloat (value d))] else []) ++ par_cells (names d) (vals d)).
  assert (- 10 ^ 20 < state d < 10 ^ 20) as S2 by lia.
  destruct (par_fields_ok tie (names d) P2 (vals d)) as [C T].
  split; [|split].
  - rewrite save_fields. apply read_flat; [exact B|exact P1|discriminate|].
    unfold fields. constructor.
    { cbn [fst snd]. split; [repeat constructor; lia|]. destruct (manual d); repeat constructor; lia. }
    apply Forall_app. split; [|apply Forall_app; split; [|exact C]].
    + destruct (has_state d); repeat constructor; cbn; try lia. apply clean_int. exact S2.
    + destruct (has_value d); repeat constructor; cbn; try lia. apply show_num_tells.
  - exists (if has_state d then [([83; 84], CInt (state d))] else []), (if has_value d then [([86], CFloat (value d))] else []).
    split; [reflexivity|]. pose proof (has_state_eq d). pose proof (has_value_eq d). destruct (has_state d), (has_value d); tauto.
  - unfold fields. constructor.
    { cbn [fst snd tells]. split; [reflexivity|]. destruct (manual d); eexists; (split; [reflexivity|reflexivity]). }
    apply Forall2_app; [|apply Forall2_app; [|exact T]].
    + destruct (has_state d); constructor; [|constructor]. cbn [fst snd tells]. split; [reflexivity|]. apply number_int. exact S2.
    + destruct (has_value d); constructor; [|constructor]. cbn [fst snd]. split; [reflexivity|]. apply show_num_tells.
Qed.
