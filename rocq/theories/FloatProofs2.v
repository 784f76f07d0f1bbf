(** Lemmas about the arithmetic of [float]: order and not-a-number. *)
From Coq Require Import ZArith List Bool Lia QArith Qround Qpower Qabs Lqa Floats.SpecFloat.
From Verif Require Import Base FTextModel FTextProofs FloatModel FloatProofs.
Import ListNotations.
Open Scope Z_scope.

Lemma nan_nan : f_isnan NAN = true.
Proof. reflexivity. Qed.

Ltac klia :=
  repeat match goal with
         | H : _ = true |- _ => clear H
         | H : _ = false |- _ => clear H
         | H : _ <-> _ |- _ => clear H
         | H : forall _, _ |- _ => clear H
         end; unfold INF in *; lia.

(** * A result that is a number comes from numbers *)

Lemma add_nn a b : f_isnan (f_add a b) = false -> f_isnan a = false /\ f_isnan b = false.
Proof. unfold f_add. destruct (f_isnan a), (f_isnan b); cbn [orb]; intros H; auto; rewrite nan_nan in H; discriminate. Qed.
Lemma mul_nn a b : f_isnan (f_mul a b) = false -> f_isnan a = false /\ f_isnan b = false.
Proof. unfold f_mul. destruct (f_isnan a), (f_isnan b); cbn [orb]; intros H; auto; rewrite nan_nan in H; discriminate. Qed.
Lemma div_nn a b : f_isnan (f_div a b) = false -> f_isnan a = false /\ f_isnan b = false.
Proof. unfold f_div. destruct (f_isnan a), (f_isnan b); cbn [orb]; intros H; auto; rewrite nan_nan in H; discriminate. Qed.

Lemma opp_parts a : f_neg (f_opp a) = negb (f_neg a) /\ f_mag (f_opp a) = f_mag a.
Proof. unfold f_opp. apply signed_parts. apply f_mag_range. Qed.
Lemma opp_isnan a : f_isnan (f_opp a) = f_isnan a.
Proof. unfold f_isnan. rewrite (proj2 (opp_parts a)). reflexivity. Qed.
Lemma opp_isinf a : f_isinf (f_opp a) = f_isinf a.
Proof. unfold f_isinf. rewrite (proj2 (opp_parts a)). reflexivity. Qed.
Lemma opp_finite a : f_finite (f_opp a) = f_finite a.
Proof. unfold f_finite. rewrite (proj2 (opp_parts a)). reflexivity. Qed.
Lemma opp_key a : key (f_opp a) = - key a.
Proof. unfold key. destruct (opp_parts a) as (-> & ->). destruct (f_neg a); cbn [negb]; lia. Qed.
Lemma opp_val a : (f_val (f_opp a) == - f_val a)%Q.
Proof.
  unfold f_val. destruct (opp_parts a) as (-> & E). rewrite (f_abs_mag _ _ E). destruct (f_neg a); cbn [negb]; ring.
Qed.
Lemma sub_nn a b : f_isnan (f_sub a b) = false -> f_isnan a = false /\ f_isnan b = false.
Proof. unfold f_sub. intros H. apply add_nn in H. rewrite opp_isnan in H. exact H. Qed.

(** * Positions *)

Lemma key_range b : f_isnan b = false -> - INF <= key b <= INF.
Proof. unfold f_isnan, key, INF. pose proof (f_mag_range b). destruct (f_neg b); lia. Qed.
Lemma key_inf b : f_isinf b = true -> key b = if f_neg b then - INF else INF.
Proof. unfold f_isinf, key. destruct (f_neg b); lia. Qed.
Lemma key_finite b : f_finite b = true <-> - INF < key b < INF.
Proof. unfold f_finite, key, INF. pose proof (f_mag_range b). destruct (f_neg b); lia. Qed.
Lemma key_zero b : f_iszero b = true <-> key b = 0.
Proof. unfold f_iszero, key. destruct (f_neg b); lia. Qed.
Lemma key_neg b : key b < 0 -> f_neg b = true.
Proof. unfold key. pose proof (f_mag_range b). destruct (f_neg b); [reflexivity|lia]. Qed.
Lemma key_pos b : 0 < key b -> f_neg b = false.
Proof. unfold key. pose proof (f_mag_range b). destruct (f_neg b); [lia|reflexivity]. Qed.
Lemma val_zero_key b : f_finite b = true -> (f_val b == 0)%Q <-> key b = 0.
Proof. intros F. pose proof (val_eq b 0 F eq_refl) as H. change (key 0) with 0 in H. rewrite <- H. 
  assert (Z0 : (f_val 0 == 0)%Q) by reflexivity. rewrite Z0. reflexivity. Qed.
Lemma val_pos_key b : f_finite b = true -> (0 < f_val b)%Q <-> 0 < key b.
Proof. intros F. pose proof (val_lt 0 b eq_refl F) as H. change (key 0) with 0 in H. rewrite <- H.
  assert (Z0 : (f_val 0 == 0)%Q) by reflexivity. rewrite Z0. reflexivity. Qed.
Lemma val_nonneg_key b : f_finite b = true -> (0 <= f_val b)%Q <-> 0 <= key b.
Proof. intros F. pose proof (val_le 0 b eq_refl F) as H. change (key 0) with 0 in H. rewrite <- H.
  assert (Z0 : (f_val 0 == 0)%Q) by reflexivity. rewrite Z0. reflexivity. Qed.

Lemma key_signed_inf s : key (signed s INF) = if s then - INF else INF.
Proof. destruct s; reflexivity. Qed.
Lemma key_signed_0 s : key (signed s 0) = 0.
Proof. destruct s; reflexivity. Qed.
Lemma nn_cases a : f_isnan a = false -> (f_isinf a = true /\ f_finite a = false) \/ (f_isinf a = false /\ f_finite a = true).
Proof.
  intros N. destruct (f_finite a) eqn:F.
  - right. split; [apply finite_not; exact F|reflexivity].
  - left. split; [apply f_isnan_not; assumption|reflexivity].
Qed.

(** * Finite operands *)

Lemma add_finite a b : f_finite a = true -> f_finite b = true ->
  f_add a b = f_round (f_neg a && f_neg b) (f_val a + f_val b).
Proof.
  intros A B. unfold f_add. destruct (finite_not a A) as (-> & ->). destruct (finite_not b B) as (-> & ->). reflexivity.
Qed.
Lemma sub_finite a b : f_finite a = true -> f_finite b = true -> exists s y,
  f_sub a b = f_round s y /\ (y == f_val a - f_val b)%Q.
Proof.
  intros A B. unfold f_sub. rewrite add_finite by (rewrite ?opp_finite; assumption). eexists. eexists. split; [reflexivity|].
  rewrite opp_val. reflexivity.
Qed.
Lemma mul_finite a b : f_finite a = true -> f_finite b = true ->
  f_mul a b = f_round (xorb (f_neg a) (f_neg b)) (f_val a * f_val b).
Proof.
  intros A B. unfold f_mul. destruct (finite_not a A) as (-> & ->). destruct (finite_not b B) as (-> & ->). reflexivity.
Qed.
Lemma div_finite a b : f_finite a = true -> f_finite b = true -> key b <> 0 ->
  f_div a b = f_round (xorb (f_neg a) (f_neg b)) (f_val a / f_val b).
Proof.
  intros A B N. unfold f_div. destruct (finite_not a A) as (-> & ->). destruct (finite_not b B) as (-> & ->).
  destruct (f_iszero b) eqn:Z0; [apply key_zero in Z0; contradiction|]. reflexivity.
Qed.

(** * Order *)

Lemma add_mono a b c : f_isnan (f_add a c) = false -> f_isnan (f_add b c) = false -> key a <= key b ->
  key (f_add a c) <= key (f_add b c).
Proof.
  intros NA NB H. destruct (add_nn a c NA) as (Na & Nc). destruct (add_nn b c NB) as (Nb & _).
  pose proof (key_range _ NA) as RA. pose proof (key_range _ NB) as RB. pose proof (key_range _ Na) as Ra. pose proof (key_range _ Nb) as Rb.
  revert NA NB RA RB. unfold f_add. rewrite Na, Nb, Nc. cbn [orb].
  destruct (nn_cases c Nc) as [[Ic Fc]|[Ic Fc]]; rewrite Ic; cbn [andb];
  destruct (nn_cases a Na) as [[Ia Fa]|[Ia Fa]]; rewrite Ia; destruct (nn_cases b Nb) as [[Ib Fb]|[Ib Fb]]; rewrite Ib; intros NA NB RA RB.
  - destruct (xorb (f_neg a) (f_neg c)) eqn:X; [rewrite nan_nan in NA; discriminate|]. destruct (xorb (f_neg b) (f_neg c)) eqn:Y; [rewrite nan_nan in NB; discriminate|]. exact H.
  - destruct (xorb (f_neg a) (f_neg c)) eqn:X; [rewrite nan_nan in NA; discriminate|].
    rewrite (key_inf a Ia), (key_inf c Ic). destruct (f_neg a), (f_neg c); try discriminate; klia.
  - destruct (xorb (f_neg b) (f_neg c)) eqn:X; [rewrite nan_nan in NB; discriminate|].
    rewrite (key_inf b Ib), (key_inf c Ic). destruct (f_neg b), (f_neg c); try discriminate; klia.
  - klia.
  - klia.
  - rewrite (key_inf a Ia) in *. apply key_finite in Fb. destruct (f_neg a); [|klia].
    destruct (round_parts (f_neg b && f_neg c) (f_val b + f_val c)) as (K & _). rewrite K in *. klia.
  - rewrite (key_inf b Ib) in *. apply key_finite in Fa. destruct (f_neg b); [klia|].
    destruct (round_parts (f_neg a && f_neg c) (f_val a + f_val c)) as (K & _). rewrite K in *. klia.
  - destruct (round_parts (f_neg a && f_neg c) (f_val a + f_val c)) as (-> & _).
    destruct (round_parts (f_neg b && f_neg c) (f_val b + f_val c)) as (-> & _).
    apply rk_mono. apply (val_le a b Fa Fb) in H. lra.
Qed.
Lemma add_comm a b : f_isnan (f_add a b) = f_isnan (f_add b a) /\ key (f_add a b) = key (f_add b a).
Proof.
  unfold f_add. rewrite (orb_comm (f_isnan b)). destruct (f_isnan a || f_isnan b) eqn:N; [auto|].
  apply orb_false_elim in N. destruct N as (Na & Nb).
  destruct (nn_cases a Na) as [[Ia Fa]|[Ia Fa]]; rewrite Ia; destruct (nn_cases b Nb) as [[Ib Fb]|[Ib Fb]]; rewrite Ib; cbn [andb]; auto.
  - rewrite (xorb_comm (f_neg b)). destruct (xorb (f_neg a) (f_neg b)) eqn:X; auto. rewrite Na, Nb, (key_inf a Ia), (key_inf b Ib).
    destruct (f_neg a), (f_neg b); try discriminate; auto.
  - destruct (round_parts (f_neg a && f_neg b) (f_val a + f_val b)) as (-> & -> & _).
    destruct (round_parts (f_neg b && f_neg a) (f_val b + f_val a)) as (-> & -> & _).
    split; [reflexivity|]. apply rk_comp. ring.
Qed.
Lemma add_mono2 a b c : f_isnan (f_add c a) = false -> f_isnan (f_add c b) = false -> key a <= key b ->
  key (f_add c a) <= key (f_add c b).
Proof.
  destruct (add_comm c a) as (E1 & E2). destruct (add_comm c b) as (E3 & E4). rewrite E1, E2, E3, E4. apply add_mono.
Qed.
Lemma sub_mono a b c : f_isnan (f_sub a c) = false -> f_isnan (f_sub b c) = false -> key a <= key b ->
  key (f_sub a c) <= key (f_sub b c).
Proof. unfold f_sub. apply add_mono. Qed.
Lemma sub_anti a b c : f_isnan (f_sub c a) = false -> f_isnan (f_sub c b) = false -> key a <= key b ->
  key (f_sub c b) <= key (f_sub c a).
Proof. unfold f_sub. intros A B H. apply add_mono2; [exact B|exact A|]. rewrite !opp_key. klia. Qed.

Lemma mul_mono a b c : 0 <= key c -> f_isnan (f_mul a c) = false -> f_isnan (f_mul b c) = false -> key a <= key b ->
  key (f_mul a c) <= key (f_mul b c).
Proof.
  intros C NA NB H. destruct (mul_nn a c NA) as (Na & Nc). destruct (mul_nn b c NB) as (Nb & _).
  revert NA NB. unfold f_mul. rewrite Na, Nb, Nc. cbn [orb]. cbv zeta.
  pose proof (key_zero a) as Za. pose proof (key_zero b) as Zb. pose proof (key_zero c) as Zc.
  assert (SG : forall x, f_iszero x = false -> key x < 0 /\ f_neg x = true \/ 0 < key x /\ f_neg x = false).
  { intros x Zx. pose proof (key_zero x) as K. destruct (Z_lt_le_dec (key x) 0); [left; split; [klia|apply key_neg; klia]|].
    right. assert (0 < key x) by (destruct (Z.eq_dec (key x) 0) as [E|E]; [apply K in E; congruence|klia]). split; [assumption|apply key_pos; assumption]. }
  destruct (nn_cases c Nc) as [[Ic Fc]|[Ic Fc]]; rewrite Ic.
  - assert (NC : f_neg c = false) by (apply key_pos; rewrite (key_inf c Ic) in *; destruct (f_neg c); klia).
    destruct (isinf_not c Ic) as (_ & _ & ZC). rewrite NC, ZC.
    assert (G : forall x, (if f_isinf x then signed (xorb (f_neg x) false) INF else if f_iszero x then NAN else signed (xorb (f_neg x) false) INF)
      = if f_iszero x then NAN else signed (f_neg x) INF).
    { intros x. rewrite xorb_false_r. destruct (f_isinf x) eqn:I; [|reflexivity]. destruct (isinf_not x I) as (_ & _ & ->). reflexivity. }
    rewrite !G. destruct (f_iszero a) eqn:A0; [rewrite nan_nan; discriminate|]. destruct (f_iszero b) eqn:B0; [rewrite nan_nan; discriminate|].
    intros _ _. rewrite !key_signed_inf.
    destruct (SG a A0) as [[? ->]|[? ->]], (SG b B0) as [[? ->]|[? ->]]; klia.
  - pose proof (key_range a Na) as Ra. pose proof (key_range b Nb) as Rb.
    assert (VC : (0 <= f_val c)%Q) by (apply val_nonneg_key; assumption).
    destruct (nn_cases a Na) as [[Ia Fa]|[Ia Fa]]; rewrite Ia; destruct (nn_cases b Nb) as [[Ib Fb]|[Ib Fb]]; rewrite Ib.
    + destruct (f_iszero c) eqn:C0; [rewrite nan_nan; discriminate|]. intros _ _. rewrite !key_signed_inf.
      destruct (SG c C0) as [[? ?]|[? ->]]; [klia|]. rewrite !xorb_false_r. rewrite (key_inf a Ia), (key_inf b Ib) in H. exact H.
    + destruct (f_iszero c) eqn:C0; [rewrite nan_nan; discriminate|]. intros _ NB. rewrite key_signed_inf.
      destruct (SG c C0) as [[? ?]|[? ->]]; [klia|]. rewrite !xorb_false_r in *. rewrite (key_inf a Ia) in H. apply key_finite in Fb.
      destruct (f_neg a); [|klia]. match goal with |- _ <= key (f_round ?s ?x) => destruct (round_parts s x) as (-> & _); pose proof (rk_range x) end. klia.
    + destruct (f_iszero c) eqn:C0; [rewrite nan_nan; discriminate|]. intros NA _. rewrite key_signed_inf.
      destruct (SG c C0) as [[? ?]|[? ->]]; [klia|]. rewrite !xorb_false_r in *. rewrite (key_inf b Ib) in H. apply key_finite in Fa.
      destruct (f_neg b); [klia|]. match goal with |- key (f_round ?s ?x) <= _ => destruct (round_parts s x) as (-> & _); pose proof (rk_range x) end. klia.
    + intros _ _. destruct (round_parts (xorb (f_neg a) (f_neg c)) (f_val a * f_val c)) as (-> & _).
      destruct (round_parts (xorb (f_neg b) (f_neg c)) (f_val b * f_val c)) as (-> & _).
      apply rk_mono. apply (val_le a b Fa Fb) in H. nra.
Qed.
Lemma mul_comm a b : f_isnan (f_mul a b) = f_isnan (f_mul b a) /\ key (f_mul a b) = key (f_mul b a).
Proof.
  unfold f_mul. rewrite (orb_comm (f_isnan b)), (xorb_comm (f_neg b)). destruct (f_isnan a || f_isnan b) eqn:N; [auto|].
  cbv zeta. destruct (f_isinf a) eqn:Ia, (f_isinf b) eqn:Ib; auto.
  - destruct (isinf_not a Ia) as (_ & _ & ->). destruct (isinf_not b Ib) as (_ & _ & ->). auto.
  - destruct (round_parts (xorb (f_neg a) (f_neg b)) (f_val a * f_val b)) as (-> & -> & _).
    destruct (round_parts (xorb (f_neg a) (f_neg b)) (f_val b * f_val a)) as (-> & -> & _).
    split; [reflexivity|]. apply rk_comp. ring.
Qed.
Lemma mul_mono2 a b c : 0 <= key c -> f_isnan (f_mul c a) = false -> f_isnan (f_mul c b) = false -> key a <= key b ->
  key (f_mul c a) <= key (f_mul c b).
Proof.
  destruct (mul_comm c a) as (E1 & E2). destruct (mul_comm c b) as (E3 & E4). rewrite E1, E2, E3, E4. apply mul_mono.
Qed.

Lemma div_mono a b c : 0 < key c -> f_isnan (f_div a c) = false -> f_isnan (f_div b c) = false -> key a <= key b ->
  key (f_div a c) <= key (f_div b c).
Proof.
  intros C NA NB H. destruct (div_nn a c NA) as (Na & Nc). destruct (div_nn b c NB) as (Nb & _).
  revert NA NB. unfold f_div. rewrite Na, Nb, Nc. cbn [orb]. cbv zeta.
  pose proof (key_range a Na) as Ra. pose proof (key_range b Nb) as Rb.
  assert (NC : f_neg c = false) by (apply key_pos; exact C). rewrite NC, !xorb_false_r.
  assert (C0 : f_iszero c = false) by (destruct (f_iszero c) eqn:E; [apply key_zero in E; klia|reflexivity]). rewrite C0.
  destruct (nn_cases c Nc) as [[Ic Fc]|[Ic Fc]]; rewrite Ic.
  - destruct (f_isinf a); [rewrite nan_nan; discriminate|]. destruct (f_isinf b); [rewrite nan_nan; discriminate|].
    intros _ _. rewrite !key_signed_0. klia.
  - assert (VC : (0 < f_val c)%Q) by (apply val_pos_key; assumption).
    assert (IC : (0 < / f_val c)%Q) by (apply Qinv_lt_0_compat; exact VC).
    destruct (nn_cases a Na) as [[Ia Fa]|[Ia Fa]]; rewrite Ia; destruct (nn_cases b Nb) as [[Ib Fb]|[Ib Fb]]; rewrite Ib; intros NA NB;
      rewrite ?key_signed_inf.
    + rewrite (key_inf a Ia), (key_inf b Ib) in H. exact H.
    + rewrite (key_inf a Ia) in H. apply key_finite in Fb. apply key_range in NB. destruct (f_neg a); klia.
    + rewrite (key_inf b Ib) in H. apply key_finite in Fa. apply key_range in NA. destruct (f_neg b); klia.
    + destruct (round_parts (f_neg a) (f_val a / f_val c)) as (-> & _). destruct (round_parts (f_neg b) (f_val b / f_val c)) as (-> & _).
      apply rk_mono. apply (val_le a b Fa Fb) in H. unfold Qdiv. nra.
Qed.

(** * The comparisons *)

Lemma f_lt_spec a b : f_lt a b = true <-> f_isnan a = false /\ f_isnan b = false /\ key a < key b.
Proof. unfold f_lt. destruct (f_isnan a), (f_isnan b); cbn [negb andb]; split; intros; try discriminate; try tauto; try lia; intuition (try discriminate; try lia). Qed.
Lemma f_le_spec a b : f_le a b = true <-> f_isnan a = false /\ f_isnan b = false /\ key a <= key b.
Proof. unfold f_le. destruct (f_isnan a), (f_isnan b); cbn [negb andb]; split; intros; try discriminate; try tauto; try lia; intuition (try discriminate; try lia). Qed.
Lemma f_eq_spec a b : f_eq a b = true <-> f_isnan a = false /\ f_isnan b = false /\ key a = key b.
Proof. unfold f_eq. destruct (f_isnan a), (f_isnan b); cbn [negb andb]; split; intros; try discriminate; try tauto; try lia; intuition (try discriminate; try lia). Qed.

(** * Conversion to an integer *)

Lemma quot_floor x : (0 <= x)%Q -> Z.quot (Qnum x) (Zpos (Qden x)) = Qfloor x.
Proof.
  destruct x as [n d]. unfold Qle, Qfloor. cbn [Qnum Qden]. intros H. apply Z.quot_div_nonneg; lia.
Qed.
Lemma to_u32_pos b : f_finite b = true -> (0 <= f_val b)%Q -> Qfloor (f_val b) < 2 ^ 32 -> f_to_u32 b = Some (Qfloor (f_val b)).
Proof.
  intros F P U. unfold f_to_u32. rewrite F. cbv zeta. rewrite quot_floor by exact P.
  assert (0 <= Qfloor (f_val b)) by (change 0 with (Qfloor 0); apply Qfloor_resp_le; exact P).
  destruct (Z.leb_spec 0 (Qfloor (f_val b))); [|lia]. destruct (Z.ltb_spec (Qfloor (f_val b)) (2 ^ 32)); [reflexivity|lia].
Qed.

(** * Agreement with the floats of the standard library on examples *)

Definition to_spec (b : Z) : spec_float :=
  if f_isnan b then S754_nan else if f_isinf b then S754_infinity (f_neg b) else if f_iszero b then S754_zero (f_neg b)
  else S754_finite (f_neg b) (Z.to_pos (f_m b)) (f_e b).
Definition of_spec (x : spec_float) : Z :=
  match x with
  | S754_nan => NAN
  | S754_infinity s => signed s INF
  | S754_zero s => signed s 0
  | S754_finite s m e => signed s ((e + 149) * 2 ^ 23 + Zpos m)
  end.
Definition samples : list Z :=
  [0; 2 ^ 31; 1; INF; 2 ^ 31 + INF; NAN; INF - 1; 2 ^ 23; 2 ^ 23 - 1; 1082130432; 3212836864; 1036831949;
   1078530011; 1078530012; 1086918619; 3226013659; 1082724315; 12345; 2 ^ 31 + 100000; 1700000001].
Definition agree (a b : Z) : bool :=
  (f_add a b =? of_spec (SFadd 24 128 (to_spec a) (to_spec b))) && (f_sub a b =? of_spec (SFsub 24 128 (to_spec a) (to_spec b)))
  && (f_mul a b =? of_spec (SFmul 24 128 (to_spec a) (to_spec b))) && (f_div a b =? of_spec (SFdiv 24 128 (to_spec a) (to_spec b)))
  && Bool.eqb (f_lt a b) (SFltb (to_spec a) (to_spec b)) && Bool.eqb (f_eq a b) (SFeqb (to_spec a) (to_spec b)).
Example float_agrees : forallb (fun a => forallb (agree a) samples) samples = true.
Proof. vm_compute. reflexivity. Qed.
