(** Proofs about filtered inputs and counters. *)
From Coq Require Import ZArith List Bool Lia QArith Qround.
From Verif Require Import Base TimeModel FTextModel FTextProofs FloatModel FloatProofs FloatProofs2 FloatProofs3 CtrModel CtrSpec.
Import ListNotations.
Open Scope Z_scope.

(** * Whole numbers as floats *)

Lemma round_comp x y : (x == y)%Q -> f_round false x = f_round false y.
Proof.
  intros E. unfold f_round. rewrite <- (Qcompare_comp _ _ E 0%Q 0%Q (Qeq_refl 0)).
  destruct (Qcompare x 0) eqn:C; [reflexivity| |]; rewrite (mag_comp _ _ E) || rewrite (mag_comp (- x) (- y)) by (rewrite E; reflexivity); reflexivity.
Qed.
Lemma round_sign s x : ~ (x == 0)%Q -> f_round s x = f_round false x.
Proof.
  intros N. unfold f_round. destruct (Qcompare x 0) eqn:C; try reflexivity. apply Qeq_alt in C. contradiction.
Qed.
Lemma neg_of_Z z : - 2 ^ 24 < z < 2 ^ 24 -> f_neg (f_of_Z z) = (z <? 0).
Proof.
  intros R. destruct (of_Z_exact z R) as (F & V). destruct (Z.ltb_spec z 0) as [L|L].
  - apply key_neg. assert (X : (f_val (f_of_Z z) < f_val 0)%Q).
    { rewrite V. assert (Z0 : (f_val 0 == inject_Z 0)%Q) by (vm_compute; reflexivity). rewrite Z0, <- Zlt_Qlt. exact L. }
    apply (val_lt _ 0 F eq_refl) in X. exact X.
  - destruct (f_neg (f_of_Z z)) eqn:N; [|reflexivity]. exfalso.
    destruct (Z.eq_dec z 0) as [->|]; [vm_compute in N; discriminate|].
    assert (X : (0 < f_val (f_of_Z z))%Q) by (rewrite V; change 0%Q with (inject_Z 0); rewrite <- Zlt_Qlt; lia).
    apply (val_pos_key _ F) in X. apply key_pos in X. congruence.
Qed.
Lemma add_int a b : - 2 ^ 24 < a < 2 ^ 24 -> - 2 ^ 24 < b < 2 ^ 24 -> f_add (f_of_Z a) (f_of_Z b) = f_of_Z (a + b).
Proof.
  intros A B. destruct (of_Z_exact a A) as (FA & VA). destruct (of_Z_exact b B) as (FB & VB).
  rewrite (add_finite _ _ FA FB), (neg_of_Z a A), (neg_of_Z b B).
  assert (E : (f_val (f_of_Z a) + f_val (f_of_Z b) == inject_Z (a + b))%Q) by (rewrite VA, VB, inject_Z_plus; reflexivity).
  unfold f_of_Z at 3. rewrite <- (round_comp _ _ E). destruct (Z.eq_dec (a + b) 0) as [Z0|Z0].
  - destruct (Z.ltb_spec a 0); destruct (Z.ltb_spec b 0); try reflexivity. lia.
  - apply round_sign. rewrite E. change 0%Q with (inject_Z 0). intros X. apply Qeq_alt in X. unfold Qcompare in X. cbn in X.
    apply Z.compare_eq in X. lia.
Qed.
Lemma sub_int a b : - 2 ^ 24 < a < 2 ^ 24 -> - 2 ^ 24 < b < 2 ^ 24 -> f_sub (f_of_Z a) (f_of_Z b) = f_of_Z (a - b).
Proof.
  intros A B. destruct (of_Z_exact a A) as (FA & VA). destruct (of_Z_exact b B) as (FB & VB). unfold f_sub.
  assert (FO : f_finite (f_opp (f_of_Z b)) = true) by (rewrite opp_finite; exact FB).
  rewrite (add_finite _ _ FA FO), (neg_of_Z a A), (proj1 (opp_parts _)), (neg_of_Z b B).
  assert (E : (f_val (f_of_Z a) + f_val (f_opp (f_of_Z b)) == inject_Z (a - b))%Q).
  { rewrite opp_val, VA, VB. unfold Z.sub. rewrite inject_Z_plus, inject_Z_opp. reflexivity. }
  unfold f_of_Z at 3. rewrite <- (round_comp _ _ E). destruct (Z.eq_dec (a - b) 0) as [Z0|Z0].
  - assert (a = b) by lia. subst b. destruct (Z.ltb_spec a 0); reflexivity.
  - apply round_sign. rewrite E. change 0%Q with (inject_Z 0). intros X. apply Qeq_alt in X. unfold Qcompare in X. cbn in X.
    apply Z.compare_eq in X. lia.
Qed.
Lemma to_u32_int z : 0 <= z < 2 ^ 24 -> f_to_u32 (f_of_Z z) = Some z.
Proof.
  intros R. destruct (of_Z_exact z ltac:(lia)) as (F & V).
  assert (Q1 : Qfloor (f_val (f_of_Z z)) = z) by (rewrite V; apply Qfloor_Z).
  rewrite to_u32_pos; [rewrite Q1; reflexivity|exact F| |rewrite Q1; lia].
  rewrite V. change 0%Q with (inject_Z 0). rewrite <- Zle_Qle. lia.
Qed.

(** * Filtered inputs *)

Lemma delta_ge w n t : 0 <= t <= n -> get_delta_millisec w n t = n - t.
Proof.
  intros R. unfold get_delta_millisec. destruct (Z.ltb_spec n t); [lia|]. cbv zeta. destruct (Z.leb_spec t n); lia.
Qed.

Section FILTER.
Variable w : Z.

Lemma run_snoc l r s : di_run w (l ++ [r]) s = di_read w r (di_run w l s).
Proof. unfold di_run. rewrite fold_left_app. reflexivity. Qed.
Lemma ordered_app t l1 r l2 : ordered t (l1 ++ r :: l2) -> ordered t l1 /\ ordered (r_now r) l2 /\ t <= r_now r < 2 ^ 32 /\ Forall (fun q => r_now q <= r_now r) l1.
Proof.
  revert t. induction l1 as [|q l1 IH]; intros t; cbn [app ordered].
  - intros (A & B). repeat split; try exact B; try lia. constructor.
  - intros (A & B). destruct (IH _ B) as (C & D & E & F). repeat split; try assumption; try lia. constructor; [lia|exact F].
Qed.
Lemma read_time r s t : 0 <= f_time s <= t -> t <= r_now r < 2 ^ 32 -> 0 <= f_time (di_read w r s) <= r_now r.
Proof.
  intros A B. unfold di_read. assert (u32 (r_now r) = r_now r) by (apply u32_small; lia).
  repeat match goal with |- context [if ?x then _ else _] => destruct x end; cbn [f_time]; lia.
Qed.
Lemma run_time l : forall t s, 0 <= f_time s <= t -> ordered t l -> forall r, ordered t (l ++ [r]) -> 0 <= f_time (di_run w l s) <= r_now r.
Proof.
  induction l as [|q l IH]; intros t s A B r C; cbn [app ordered di_run fold_left] in *.
  - lia.
  - destruct B as (B1 & B2). destruct C as (C1 & C2). apply (IH (r_now q) (di_read w q s)); [|exact B2|exact C2].
    apply (read_time q s t); assumption.
Qed.
(** Readings after the remembered time differ from the reported state. *)
Definition fresh (l : list rd) (s : filt) : Prop := Forall (fun q => f_time s < r_now q -> r_raw q <> f_cur s) l.
Lemma fresh_run l : forall t s, 0 <= f_time s <= t -> ordered t l -> Forall (fun q => 0 < r_dt q) l -> fresh l (di_run w l s).
Proof.
  induction l as [|r l IH] using rev_ind; intros t s A B P; [constructor|].
  destruct (ordered_app t l r [] B) as (B1 & _ & B3 & B4). apply Forall_app in P. destruct P as (P1 & P2). inversion P2 as [|? ? P3 _]; subst.
  specialize (IH t s A B1 P1). pose proof (run_time l t s A B1 r B) as T. rewrite run_snoc. set (u := di_run w l s) in *.
  assert (U : u32 (r_now r) = r_now r) by (apply u32_small; lia). unfold fresh, di_read.
  rewrite (proj2 (Z.ltb_lt _ _) P3). apply Forall_app.
  destruct (Z.eqb_spec (f_cur u) (r_raw r)) as [E|E]; [|destruct (r_dt r <? get_delta_millisec w (r_now r) (f_time u))]; cbn [f_cur f_time]; rewrite ?U.
  - split; [|constructor; [lia|constructor]]. eapply Forall_impl; [|exact B4]. cbv beta. intros q Q. lia.
  - split; [|constructor; [lia|constructor]]. eapply Forall_impl; [|exact B4]. cbv beta. intros q Q. lia.
  - split; [exact IH|]. constructor; [|constructor]. intros _. congruence.
Qed.

Lemma no_glitch t s l r : 0 <= f_time s <= t -> ordered t (l ++ [r]) -> Forall (fun q => 0 < r_dt q /\ binary q) (l ++ [r]) ->
  (f_cur s = 0 \/ f_cur s = 1) ->
  f_cur (di_run w (l ++ [r]) s) <> f_cur (di_run w l s) ->
  f_cur (di_run w (l ++ [r]) s) = r_raw r /\
  forall q, In q l -> r_now r - r_now q <= r_dt r -> r_raw q = r_raw r.
Proof.
  intros A B P S0 C. destruct (ordered_app t l r [] B) as (B1 & _ & B3 & B4).
  apply Forall_app in P. destruct P as (P1 & P2). inversion P2 as [|? ? (P3 & P4) _]; subst.
  assert (P5 : Forall (fun q => 0 < r_dt q) l) by (eapply Forall_impl; [|exact P1]; cbv beta; tauto).
  pose proof (fresh_run l t s A B1 P5) as F. pose proof (run_time l t s A B1 r B) as T. rewrite run_snoc in *.
  assert (SB : forall l0, Forall (fun q => 0 < r_dt q /\ binary q) l0 -> f_cur (di_run w l0 s) = 0 \/ f_cur (di_run w l0 s) = 1).
  { induction l0 as [|q l0 IH] using rev_ind; [intros _; exact S0|]. intros X. apply Forall_app in X. destruct X as (X1 & X2).
    inversion X2 as [|? ? (_ & X3) _]; subst. specialize (IH X1). rewrite run_snoc. unfold di_read, binary in *.
    repeat match goal with |- context [if ?x then _ else _] => destruct x end; cbn [f_cur]; assumption. }
  specialize (SB l P1). set (u := di_run w l s) in *. unfold di_read in *. rewrite (proj2 (Z.ltb_lt _ _) P3) in *.
  destruct (Z.eqb_spec (f_cur u) (r_raw r)) as [E|E]; [cbn [f_cur] in C; congruence|].
  rewrite (delta_ge w (r_now r) (f_time u) T) in *.
  destruct (Z.ltb_spec (r_dt r) (r_now r - f_time u)) as [L|L]; [|congruence]. cbn [f_cur] in *. split; [reflexivity|].
  intros q I Q. unfold fresh in F. rewrite Forall_forall in F, P1. specialize (F q I ltac:(lia)). destruct (P1 q I) as (_ & PB).
  unfold binary in *. lia.
Qed.

Lemma stays v l : forall s, Forall (fun q => r_raw q = v) l -> f_cur s = v -> f_cur (di_run w l s) = v.
Proof.
  induction l as [|q l IH]; intros s P E; [exact E|]. inversion P as [|? ? P1 P2]; subst. cbn [di_run fold_left]. apply IH; [exact P2|].
  unfold di_read. repeat match goal with |- context [if ?x then _ else _] => destruct x end; cbn [f_cur]; congruence.
Qed.
Lemma follows v l : forall t s r q, 0 <= f_time s <= t -> ordered t (q :: l ++ [r]) -> Forall (fun x => r_raw x = v) (q :: l ++ [r]) ->
  0 <= r_dt r -> r_dt r < r_now r - r_now q -> f_cur (di_run w (q :: l ++ [r]) s) = v.
Proof.
  intros t s r q A B P D0 D. change (q :: l ++ [r]) with ((q :: l) ++ [r]) in *. rewrite run_snoc.
  apply Forall_app in P. destruct P as (P1 & P2). inversion P2 as [|? ? P3 _]; subst.
  assert (K : forall l0 u, Forall (fun x => r_raw x = r_raw r) l0 -> f_cur (di_run w l0 u) = r_raw r \/ (f_time (di_run w l0 u) = f_time u)).
  { induction l0 as [|x l0 IH] using rev_ind; intros u X; [right; reflexivity|]. apply Forall_app in X. destruct X as (X1 & X2).
    inversion X2 as [|? ? X3 _]; subst. rewrite run_snoc. unfold di_read. destruct (0 <? r_dt x); [|left; exact X3].
    destruct (Z.eqb_spec (f_cur (di_run w l0 u)) (r_raw x)) as [E|E]; [left; cbn [f_cur]; congruence|].
    destruct (r_dt x <? get_delta_millisec w (r_now x) (f_time (di_run w l0 u))); [left; exact X3|]. exact (IH u X1). }
  destruct (K (q :: l) s P1) as [E|E].
  - set (u := di_run w (q :: l) s) in *. unfold di_read.
    repeat match goal with |- context [if ?x then _ else _] => destruct x end; cbn [f_cur]; congruence.
  - cbn [app ordered] in B. destruct B as (B1 & B2).
    destruct (ordered_app (r_now q) l r [] B2) as (_ & _ & B3 & _).
    set (u := di_run w (q :: l) s) in *. unfold di_read. destruct (Z.ltb_spec 0 (r_dt r)); [|reflexivity].
    destruct (Z.eqb_spec (f_cur u) (r_raw r)) as [C|C]; [exact C|]. rewrite delta_ge by lia.
    destruct (Z.ltb_spec (r_dt r) (r_now r - f_time u)); [reflexivity|lia].
Qed.
Lemma late r s : 0 <= f_time s < 2 ^ 32 -> 0 <= r_dt r -> 2 ^ 32 + r_dt r <= r_now r -> f_cur (di_read w r s) = r_raw r.
Proof.
  intros T D L. unfold di_read. destruct (Z.ltb_spec 0 (r_dt r)); [|reflexivity].
  destruct (Z.eqb_spec (f_cur s) (r_raw r)) as [C|C]; [exact C|]. rewrite delta_ge by lia.
  destruct (Z.ltb_spec (r_dt r) (r_now r - f_time s)); [reflexivity|lia].
Qed.
Lemma time_range l : forall s, 0 <= f_time s < 2 ^ 32 -> 0 <= f_time (di_run w l s) < 2 ^ 32.
Proof.
  induction l as [|q l IH]; intros s A; [exact A|]. cbn [di_run fold_left]. apply IH. unfold di_read. pose proof (u32_range (r_now q)).
  repeat match goal with |- context [if ?x then _ else _] => destruct x end; cbn [f_time]; lia.
Qed.
End FILTER.
