(** Volumes: order. *)
From Coq Require Import ZArith List Bool Lia QArith Qround Qpower Qabs Lqa.
From Verif Require Import Base FTextModel FloatModel FloatProofs FloatProofs2 AioProofs LvlModel LvlSpec.
Open Scope Z_scope.

Lemma trunc_mono : forall x y, (x <= y)%Q -> Z.quot (Qnum x) (QDen x) <= Z.quot (Qnum y) (QDen y).
Proof.
  intros x y L. destruct (Qlt_le_dec x 0) as [X|X].
  - assert (XN : Z.quot (Qnum x) (QDen x) = - Qfloor (- x)).
    { rewrite <- (quot_floor (- x)) by lra. destruct x as [n d]. cbn [Qopp Qnum Qden]. rewrite Z.quot_opp_l by lia. lia. }
    destruct (Qlt_le_dec y 0) as [Y|Y].
    + assert (YN : Z.quot (Qnum y) (QDen y) = - Qfloor (- y)).
      { rewrite <- (quot_floor (- y)) by lra. destruct y as [n d]. cbn [Qopp Qnum Qden]. rewrite Z.quot_opp_l by lia. lia. }
      rewrite XN, YN. assert (Qfloor (- y) <= Qfloor (- x)) by (apply Qfloor_resp_le; lra). lia.
    + rewrite XN, (quot_floor y Y). assert (0 <= Qfloor y) by (change 0 with (Qfloor 0); apply Qfloor_resp_le; exact Y).
      assert (0 <= Qfloor (- x)) by (change 0 with (Qfloor 0); apply Qfloor_resp_le; lra). lia.
  - rewrite !quot_floor by lra. apply Qfloor_resp_le; exact L.
Qed.
Lemma to_s32_mono : forall a b s t, f_to_s32 a = Some s -> f_to_s32 b = Some t -> key a <= key b -> s <= t.
Proof.
  intros a b s t A B K. unfold f_to_s32 in *. destruct (f_finite a) eqn:FA; [|discriminate]. destruct (f_finite b) eqn:FB; [|discriminate]. cbv zeta in *.
  destruct ((- 2 ^ 31 <=? Z.quot (Qnum (f_val a)) (QDen (f_val a))) && (Z.quot (Qnum (f_val a)) (QDen (f_val a)) <? 2 ^ 31)); [|discriminate].
  destruct ((- 2 ^ 31 <=? Z.quot (Qnum (f_val b)) (QDen (f_val b))) && (Z.quot (Qnum (f_val b)) (QDen (f_val b)) <? 2 ^ 31)); [|discriminate].
  injection A as <-. injection B as <-. apply trunc_mono. apply val_le; assumption.
Qed.
Lemma mul_fin : forall a b, f_finite (f_mul a b) = true -> f_finite a = true /\ f_finite b = true.
Proof.
  intros a b F. destruct (finite_not _ F) as [N _]. destruct (mul_nn a b N) as [NA NB]. revert F. unfold f_mul. rewrite NA, NB. cbn [orb]. cbv zeta. intros F.
  destruct (nn_cases a NA) as [[IA FA]|[IA FA]]; rewrite IA in F.
  - exfalso. destruct (f_iszero b); [discriminate F|]. destruct (xorb (f_neg a) (f_neg b)); discriminate F.
  - destruct (nn_cases b NB) as [[IB FB]|[IB FB]]; rewrite IB in F; [|split; assumption].
    exfalso. destruct (f_iszero a); [discriminate F|]. destruct (xorb (f_neg a) (f_neg b)); discriminate F.
Qed.
Lemma div_fin : forall a b, f_finite (f_div a b) = true -> f_finite a = true.
Proof.
  intros a b F. destruct (finite_not _ F) as [N _]. destruct (div_nn a b N) as [NA NB]. revert F. unfold f_div. rewrite NA, NB. cbn [orb]. cbv zeta. intros F.
  destruct (nn_cases a NA) as [[IA FA]|[IA FA]]; rewrite IA in F; [|exact FA].
  exfalso. destruct (f_isinf b); [discriminate F|]. destruct (xorb (f_neg a) (f_neg b)); discriminate F.
Qed.
Lemma add_fin : forall a b, f_finite (f_add a b) = true -> f_finite a = true /\ f_finite b = true.
Proof.
  intros a b F. destruct (finite_not _ F) as [N _]. destruct (add_nn a b N) as [NA NB]. revert F. unfold f_add. rewrite NA, NB. cbn [orb]. intros F.
  destruct (nn_cases a NA) as [[IA FA]|[IA FA]]; rewrite IA in F.
  - exfalso. destruct (f_isinf b && xorb (f_neg a) (f_neg b)); [discriminate F|]. congruence.
  - destruct (nn_cases b NB) as [[IB FB]|[IB FB]]; rewrite IB in F; [congruence|split; assumption].
Qed.
Lemma fin_nn : forall b, f_finite b = true -> f_isnan b = false. Proof. intros b F. apply (finite_not b F). Qed.
Lemma mul_pos_key : forall a b, f_finite (f_mul a b) = true -> 0 <= key a -> 0 <= key b -> 0 <= key (f_mul a b).
Proof.
  intros a b F A B. destruct (mul_fin a b F) as [FA FB]. rewrite (mul_finite a b FA FB). destruct (round_parts (xorb (f_neg a) (f_neg b)) (f_val a * f_val b)) as (-> & _).
  change 0 with (rk 0). apply rk_mono. apply Qmult_le_0_compat; apply val_nonneg_key; assumption.
Qed.
Lemma mul_both : forall a b c d, f_finite (f_mul a b) = true -> f_finite (f_mul c d) = true -> 0 <= key a -> key a <= key c -> 0 <= key b -> key b <= key d -> key (f_mul a b) <= key (f_mul c d).
Proof.
  intros a b c d F G A AC B BD. destruct (mul_fin a b F) as [FA FB]. destruct (mul_fin c d G) as [FC FD]. rewrite (mul_finite a b FA FB), (mul_finite c d FC FD).
  destruct (round_parts (xorb (f_neg a) (f_neg b)) (f_val a * f_val b)) as (-> & _). destruct (round_parts (xorb (f_neg c) (f_neg d)) (f_val c * f_val d)) as (-> & _).
  apply rk_mono. apply val_nonneg_key in A; [|exact FA]. apply val_nonneg_key in B; [|exact FB]. apply val_le in AC; [|assumption..]. apply val_le in BD; [|assumption..].
  apply Qle_trans with (f_val c * f_val b)%Q; [apply Qmult_le_compat_r; assumption|]. apply mul_le_l; [lra|exact BD].
Qed.
Lemma kilo_fin : forall v n, kilograms v = Some n -> f_finite v = true.
Proof.
  intros v n H. unfold kilograms in H. destruct (f_to_s32 (f_add (f_mul v F100) F_HALF)) as [t|] eqn:T; [|discriminate]. unfold f_to_s32 in T.
  destruct (f_finite (f_add (f_mul v F100) F_HALF)) eqn:F; [|discriminate]. apply add_fin in F. destruct F as [F _]. apply mul_fin in F. apply F.
Qed.
Lemma kilo_mono : forall v w n m, kilograms v = Some n -> kilograms w = Some m -> key v <= key w -> n <= m.
Proof.
  intros v w n m A B K. unfold kilograms in *.
  destruct (f_to_s32 (f_add (f_mul v F100) F_HALF)) as [s|] eqn:S; [|discriminate]. destruct (f_to_s32 (f_add (f_mul w F100) F_HALF)) as [t|] eqn:T; [|discriminate].
  destruct ((- 2 ^ 31 <=? 10 * s) && (10 * s <? 2 ^ 31)); [|discriminate]. destruct ((- 2 ^ 31 <=? 10 * t) && (10 * t <? 2 ^ 31)); [|discriminate]. assert (n = 10 * s) by congruence. assert (m = 10 * t) by congruence.
  assert (FS : f_finite (f_add (f_mul v F100) F_HALF) = true) by (unfold f_to_s32 in S; destruct (f_finite _); [reflexivity|discriminate]).
  assert (FT : f_finite (f_add (f_mul w F100) F_HALF) = true) by (unfold f_to_s32 in T; destruct (f_finite _); [reflexivity|discriminate]).
  assert (s <= t); [|lia]. apply (to_s32_mono _ _ s t S T). apply add_mono; [apply fin_nn, FS|apply fin_nn, FT|].
  apply add_fin in FS. apply add_fin in FT. apply mul_mono; [vm_compute; discriminate|apply fin_nn, FS|apply fin_nn, FT|exact K].
Qed.
Local Opaque kilograms.
Lemma PI_key : 0 <= key PI_F. Proof. vm_compute. discriminate. Qed.
Lemma G_key : 0 < key G_F. Proof. vm_compute. reflexivity. Qed.
Lemma F3_key : 0 < key F3. Proof. vm_compute. reflexivity. Qed.
Lemma chain_mono : forall P G r p x y n m, 0 <= key P -> 0 < key G -> 0 <= key r -> 0 <= key p -> key x <= key y ->
  kilograms (f_div (f_mul (f_mul (f_mul (f_mul P r) r) x) p) G) = Some n -> kilograms (f_div (f_mul (f_mul (f_mul (f_mul P r) r) y) p) G) = Some m -> n <= m.
Proof.
  intros P G r p x y n m PP GG R PK L A B. pose proof (kilo_fin _ _ A) as FA. pose proof (kilo_fin _ _ B) as FB.
  apply (kilo_mono _ _ n m A B). apply div_mono; [exact GG|apply fin_nn; exact FA|apply fin_nn; exact FB|]. clear A B. apply div_fin in FA. apply div_fin in FB.
  apply mul_mono; [exact PK|apply fin_nn; exact FA|apply fin_nn; exact FB|]. apply mul_fin in FA. apply mul_fin in FB. destruct FA as [FA _]. destruct FB as [FB _].
  pose proof (mul_fin _ _ FA) as [FR _]. pose proof (mul_fin _ _ FR) as [FR1 _].
  apply mul_mono2; [|apply fin_nn; exact FA|apply fin_nn; exact FB|exact L].
  apply mul_pos_key; [exact FR| |exact R]. apply mul_pos_key; [exact FR1|exact PP|exact R].
Qed.
Lemma cylinder_mono : forall r p x y n m, 0 <= key r -> 0 <= key p -> key x <= key y -> cylinder r p x = Some n -> cylinder r p y = Some m -> n <= m.
Proof. intros r p x y n m R P L A B. exact (chain_mono PI_F G_F r p x y n m PI_key G_key R P L A B). Qed.
Lemma height_mono : forall p x y, 0 <= key p -> f_isnan (height p x) = false -> f_isnan (height p y) = false -> key x <= key y -> key (height p x) <= key (height p y).
Proof.
  intros p x y P A B L. unfold height in *. apply div_mono; [apply G_key|exact A|exact B|]. apply div_nn in A. apply div_nn in B. destruct A as [A _]. destruct B as [B _].
  apply mul_mono2; [exact P|exact A|exact B|exact L].
Qed.
Lemma tangent_pos : forall r c, 0 <= key r -> f_finite (tangent r c) = true -> 0 <= key (tangent r c).
Proof.
  intros r c R. unfold tangent. destruct (f_lt 0 c) eqn:LC; [|intros _; vm_compute; discriminate]. apply f_lt_spec in LC. destruct LC as (_ & NC & KC). change (key 0) with 0 in KC. intros FT.
  pose proof (div_fin _ _ FT) as FR. destruct (f_finite c) eqn:FC.
  - rewrite (div_finite r c FR FC) by lia. destruct (round_parts (xorb (f_neg r) (f_neg c)) (f_val r / f_val c)) as (-> & _). change 0 with (rk 0). apply rk_mono.
    apply Qmult_le_0_compat; [exact (proj2 (val_nonneg_key r FR) R)|]. apply Qinv_le_0_compat. apply (proj2 (val_nonneg_key c FC)). exact (Z.lt_le_incl _ _ KC).
  - unfold f_div. destruct (finite_not r FR) as [-> ->]. rewrite NC, (f_isnan_not c NC FC). cbn [orb]. rewrite key_signed_0. apply Z.le_refl.
Qed.
Lemma in_chain : forall P D t h k, 0 <= key P -> 0 < key D -> (f_finite t = true -> 0 <= key t) -> 0 <= key h -> key h <= key k ->
  f_finite (f_div (f_mul (f_mul (f_mul (f_mul (f_mul P h) t) h) t) h) D) = true -> f_finite (f_div (f_mul (f_mul (f_mul (f_mul (f_mul P k) t) k) t) k) D) = true ->
  key (f_div (f_mul (f_mul (f_mul (f_mul (f_mul P h) t) h) t) h) D) <= key (f_div (f_mul (f_mul (f_mul (f_mul (f_mul P k) t) k) t) k) D).
Proof.
  intros P D t h k PP DD TT H L FA FB.
  apply div_mono; [exact DD|apply fin_nn; exact FA|apply fin_nn; exact FB|]. apply div_fin in FA. apply div_fin in FB.
  destruct (mul_fin _ _ FA) as [A1 _]. destruct (mul_fin _ _ FB) as [B1 _]. destruct (mul_fin _ _ A1) as [A2 FT]. destruct (mul_fin _ _ B1) as [B2 _].
  destruct (mul_fin _ _ A2) as [A3 _]. destruct (mul_fin _ _ B2) as [B3 _]. destruct (mul_fin _ _ A3) as [A4 _]. destruct (mul_fin _ _ B3) as [B4 _].
  pose proof (TT FT) as T.
  assert (P1 : 0 <= key (f_mul P h)) by (apply mul_pos_key; [exact A4|exact PP|exact H]).
  assert (L1 : key (f_mul P h) <= key (f_mul P k)) by (apply mul_both; [exact A4|exact B4|exact PP|apply Z.le_refl|exact H|exact L]).
  assert (P2 : 0 <= key (f_mul (f_mul P h) t)) by (apply mul_pos_key; [exact A3|exact P1|exact T]).
  assert (L2 : key (f_mul (f_mul P h) t) <= key (f_mul (f_mul P k) t)) by (apply mul_both; [exact A3|exact B3|exact P1|exact L1|exact T|apply Z.le_refl]).
  assert (P3 : 0 <= key (f_mul (f_mul (f_mul P h) t) h)) by (apply mul_pos_key; [exact A2|exact P2|exact H]).
  assert (L3 : key (f_mul (f_mul (f_mul P h) t) h) <= key (f_mul (f_mul (f_mul P k) t) k)) by (apply mul_both; [exact A2|exact B2|exact P2|exact L2|exact H|exact L]).
  assert (P4 : 0 <= key (f_mul (f_mul (f_mul (f_mul P h) t) h) t)) by (apply mul_pos_key; [exact A1|exact P3|exact T]).
  assert (L4 : key (f_mul (f_mul (f_mul (f_mul P h) t) h) t) <= key (f_mul (f_mul (f_mul (f_mul P k) t) k) t)) by (apply mul_both; [exact A1|exact B1|exact P3|exact L3|exact T|apply Z.le_refl]).
  apply mul_both; [exact FA|exact FB|exact P4|exact L4|exact H|exact L].
Qed.
Lemma in_eq : forall r c h, in_cone r c h = f_div (f_mul (f_mul (f_mul (f_mul (f_mul PI_F h) (tangent r c)) h) (tangent r c)) h) F3.
Proof. intros r c h. unfold in_cone. cbv zeta. generalize (tangent r c). intros t. exact eq_refl. Qed.
Lemma cone_in_mono : forall r c h k n m, 0 <= key r -> 0 <= key h -> key h <= key k -> kilograms (in_cone r c h) = Some n -> kilograms (in_cone r c k) = Some m -> n <= m.
Proof.
  intros r c h k n m R H L A B. pose proof (kilo_fin _ _ A) as FA. pose proof (kilo_fin _ _ B) as FB. apply (kilo_mono _ _ n m A B). clear A B.
  rewrite (in_eq r c h) in FA |- *. rewrite (in_eq r c k) in FB |- *. pose proof PI_key as PK. pose proof F3_key as DK. revert FA FB PK DK.
  generalize PI_F, F3, (tangent_pos r c R). generalize (tangent r c). intros t P D TT FA FB PK DK. exact (in_chain P D t h k PK DK TT H L FA FB).
Qed.
Lemma above_chain : forall P r s u, 0 <= key P -> 0 <= key r -> key s <= key u -> f_finite (f_mul (f_mul (f_mul P r) r) s) = true -> f_finite (f_mul (f_mul (f_mul P r) r) u) = true ->
  key (f_mul (f_mul (f_mul P r) r) s) <= key (f_mul (f_mul (f_mul P r) r) u).
Proof.
  intros P r s u PP R L FA FB. pose proof (mul_fin _ _ FA) as [F1 _]. pose proof (mul_fin _ _ F1) as [F2 _].
  apply mul_mono2; [|apply fin_nn; exact FA|apply fin_nn; exact FB|exact L].
  apply mul_pos_key; [exact F1| |exact R]. apply mul_pos_key; [exact F2|exact PP|exact R].
Qed.
Lemma cone_above_mono : forall r c h k n m, 0 <= key r -> key h <= key k -> kilograms (above_cone r c h) = Some n -> kilograms (above_cone r c k) = Some m -> n <= m.
Proof.
  intros r c h k n m R L A B. pose proof (kilo_fin _ _ A) as FA. pose proof (kilo_fin _ _ B) as FB. apply (kilo_mono _ _ n m A B). clear A B.
  unfold above_cone in FA, FB |- *. pose proof PI_key as PK. revert FA FB PK. generalize PI_F, (f_div (f_mul c F2) F3). intros P d FA FB PK.
  pose proof (mul_fin _ _ FA) as [_ SA]. pose proof (mul_fin _ _ FB) as [_ SB].
  apply above_chain; [exact PK|exact R| |exact FA|exact FB]. apply sub_mono; [apply fin_nn; exact SA|apply fin_nn; exact SB|exact L].
Qed.
Lemma cone_case : forall r c p x n, cone r c p x = Some n ->
  kilograms (if f_le (height p x) c then in_cone r c (height p x) else above_cone r c (height p x)) = Some n.
Proof. intros r c p x n H. exact H. Qed.
Lemma quot_pos : forall G p x, 0 < key G -> f_finite G = true -> f_finite (f_div (f_mul p x) G) = true -> 0 <= key p -> 0 <= key x -> 0 <= key (f_div (f_mul p x) G).
Proof.
  intros G p x KG FG FX P X. pose proof (div_fin _ _ FX) as FM. rewrite (div_finite _ G FM FG) by lia.
  destruct (round_parts (xorb (f_neg (f_mul p x)) (f_neg G)) (f_val (f_mul p x) / f_val G)) as (-> & _). change 0 with (rk 0). apply rk_mono.
  apply Qmult_le_0_compat; [exact (proj2 (val_nonneg_key _ FM) (mul_pos_key p x FM P X))|]. apply Qinv_le_0_compat. apply (proj2 (val_nonneg_key G FG)). exact (Z.lt_le_incl _ _ KG).
Qed.
Lemma height_pos : forall p x, f_finite (height p x) = true -> 0 <= key p -> 0 <= key x -> 0 <= key (height p x).
Proof. intros p x F P X. unfold height in F |- *. pose proof G_key as GK. assert (GF : f_finite G_F = true) by reflexivity. revert F GK GF. generalize G_F. intros G F GK GF. exact (quot_pos G p x GK GF F P X). Qed.
Lemma in_fin : forall r c h, f_finite (in_cone r c h) = true -> f_finite h = true.
Proof. intros r c h F. rewrite in_eq in F. apply div_fin in F. apply mul_fin in F. apply F. Qed.
Lemma above_fin : forall r c h, f_finite (above_cone r c h) = true -> f_finite h = true.
Proof. intros r c h F. unfold above_cone in F. revert F. generalize PI_F, (f_div (f_mul c F2) F3). intros P d F. apply mul_fin in F. destruct F as [_ F]. unfold f_sub in F. apply add_fin in F. apply F. Qed.
Lemma height_nn : forall p x y, f_finite p = true -> f_isnan x = false -> f_isnan y = false -> 0 <= key x -> key x <= key y -> f_isnan (height p y) = false -> f_isnan (height p x) = false.
Proof.
  intros p x y FP NX NY X L H. unfold height in *. apply div_nn in H. destruct H as [H _].
  assert (M : f_isnan (f_mul p x) = false).
  { destruct (nn_cases x NX) as [[IX FX]|[IX FX]]; [|rewrite (mul_finite p x FP FX); apply round_parts].
    pose proof (key_inf x IX) as KX. pose proof (key_range y NY) as KY. assert (PX : f_neg x = false) by (apply key_pos; unfold INF in KX; destruct (f_neg x); lia).
    rewrite PX in KX. assert (IY : f_isinf y = true). { destruct (nn_cases y NY) as [[IY _]|[_ FY]]; [exact IY|]. apply key_finite in FY. lia. }
    revert H. unfold f_mul. destruct (finite_not p FP) as [-> ->]. rewrite NX, NY, IX, IY. cbn [orb]. cbv zeta. destruct (f_iszero p); [intros E; exact E|]. intros _. destruct (xorb (f_neg p) (f_neg x)); reflexivity. }
  unfold f_div. rewrite M. change (f_isnan G_F) with false. change (f_isinf G_F) with false. change (f_iszero G_F) with false. cbn [orb].
  destruct (f_isinf (f_mul p x)); [destruct (xorb _ _); reflexivity|apply round_parts].
Qed.
Lemma cone_order : forall r c p, 0 <= key r -> 0 <= key p -> f_finite p = true -> exists low : Z -> bool,
  (forall x y, f_le 0 x = true -> f_le x y = true -> low y = true -> low x = true) /\
  (forall x y n m, f_le 0 x = true -> f_le x y = true -> low x = low y -> cone r c p x = Some n -> cone r c p y = Some m -> n <= m).
Proof.
  intros r c p R P FP. exists (fun x => f_le (height p x) c). split.
  - intros x y X L Y. apply f_le_spec in X. apply f_le_spec in L. apply f_le_spec in Y. destruct Y as (N1 & N2 & K). destruct X as (_ & NX & X). destruct L as (_ & NY & L). change (key 0) with 0 in X.
    pose proof (height_nn p x y FP NX NY X L N1) as NH. apply f_le_spec. split; [exact NH|]. split; [exact N2|].
    pose proof (height_mono p x y P NH N1 L). lia.
  - intros x y n m X L E A B. apply f_le_spec in X. apply f_le_spec in L. destruct X as (_ & _ & X). destruct L as (_ & _ & L). change (key 0) with 0 in X.
    apply cone_case in A. apply cone_case in B. pose proof (kilo_fin _ _ A) as FA. pose proof (kilo_fin _ _ B) as FB. pose proof (height_pos p x) as HX. pose proof (height_mono p x y P) as HM.
    revert A B FA FB E HX HM. generalize (height p x), (height p y). intros h k A B FA FB E HX HM. rewrite <- E in B, FB. destruct (f_le h c).
    + apply in_fin in FA. apply in_fin in FB. apply (cone_in_mono r c h k n m R); [apply HX; assumption|apply HM; [apply fin_nn; exact FA|apply fin_nn; exact FB|exact L]|exact A|exact B].
    + apply above_fin in FA. apply above_fin in FB. apply (cone_above_mono r c h k n m R); [apply HM; [apply fin_nn; exact FA|apply fin_nn; exact FB|exact L]|exact A|exact B].
Qed.
Lemma chain_fin : forall P G r p x n, kilograms (f_div (f_mul (f_mul (f_mul (f_mul P r) r) x) p) G) = Some n ->
  f_finite (f_mul (f_mul P r) r) = true /\ f_finite r = true /\ f_finite p = true /\ f_finite x = true.
Proof.
  intros P G r p x n E. apply kilo_fin in E. apply div_fin in E. destruct (mul_fin _ _ E) as [E1 FP]. destruct (mul_fin _ _ E1) as [E2 FX]. destruct (mul_fin _ _ E2) as [_ FR]. repeat split; assumption.
Qed.
Lemma cyl_fin : forall r p x n, cylinder r p x = Some n -> f_finite (f_mul (f_mul PI_F r) r) = true /\ f_finite r = true /\ f_finite p = true /\ f_finite x = true.
Proof. intros r p x n H. exact (chain_fin PI_F G_F r p x n H). Qed.
Lemma zero_times : forall A, f_finite A = true -> f_mul A 0 = signed (f_neg A) 0.
Proof.
  intros A FA. rewrite (mul_finite A 0 FA eq_refl). change (f_neg 0) with false. rewrite xorb_false_r. unfold f_round.
  assert (QZ : (f_val A * f_val 0 == 0)%Q) by (change (f_val 0) with (inject_Z 0 * p2 (-149))%Q; ring).
  rewrite (Qcompare_comp _ _ QZ 0%Q 0%Q (Qeq_refl 0%Q)). reflexivity.
Qed.
Lemma nothing : kilograms (f_div (f_mul (signed true 0) F100) G_F) = Some 0 /\ kilograms (f_div (f_mul (signed false 0) F100) G_F) = Some 0.
Proof. split; vm_compute; reflexivity. Qed.
Lemma cyl_zero : forall r, f_finite (f_mul (f_mul PI_F r) r) = true -> cylinder r F100 0 = Some 0.
Proof.
  intros r F. assert (E : cylinder r F100 0 = kilograms (f_div (f_mul (f_mul (f_mul (f_mul PI_F r) r) 0) F100) G_F)) by reflexivity. rewrite E, (zero_times _ F).
  destruct nothing as [A B]. destruct (f_neg (f_mul (f_mul PI_F r) r)); assumption.
Qed.
Lemma sub_neg : forall v e, f_finite v = true -> f_finite (f_sub v e) = true -> key v <= key e -> key (f_sub v e) <= 0.
Proof.
  intros v e F FS L. pose proof FS as F2. unfold f_sub in F2. destruct (add_fin _ _ F2) as [_ FE]. rewrite opp_finite in FE. destruct (sub_finite v e F FE) as (s & y & E & Y). rewrite E.
  destruct (round_parts s y) as (-> & _). change 0 with (rk 0). apply rk_mono. rewrite Y. apply (val_le v e F FE) in L. lra.
Qed.
