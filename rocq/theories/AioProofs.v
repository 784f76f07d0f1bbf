(** Lemmas about analog channels. *)
From Coq Require Import ZArith List Bool Lia QArith Qround Qpower Qabs Qminmax Lqa.
From Verif Require Import Base FTextModel FTextProofs FloatModel FloatProofs FloatProofs2 FloatProofs3 AioModel AioSpec.
Import ListNotations.
Open Scope Q_scope.

(** * Absolute values *)

Lemma abs_iff x e : Qabs x <= e <-> - e <= x /\ x <= e.
Proof. apply Qabs_Qle_condition. Qed.
Lemma abs_tri x y : Qabs (x + y) <= Qabs x + Qabs y.
Proof. apply Qabs_triangle. Qed.
Lemma abs_comp x y : x == y -> Qabs x == Qabs y.
Proof. intros ->. reflexivity. Qed.
Lemma abs_pos x : 0 <= Qabs x.
Proof. apply Qabs_nonneg. Qed.
Lemma abs_mul x y : Qabs (x * y) == Qabs x * Qabs y.
Proof. apply Qabs_Qmult. Qed.

Lemma mul_le_l a b c : 0 <= a -> b <= c -> a * b <= a * c.
Proof. intros. nra. Qed.

(** The quotient of approximate numbers. *)
Lemma quot_err p d t e : ~ d == 0 -> Qabs (p - t * d) <= e * Qabs d -> Qabs (p / d - t) <= e.
Proof.
  intros NZ H.
  assert (D : 0 < Qabs d).
  { pose proof (abs_pos d). destruct (Qlt_le_dec 0 (Qabs d)) as [L|L]; [exact L|]. exfalso. apply NZ.
    apply (proj1 (abs_iff d 0)) in L. lra. }
  assert (E : p - t * d == (p / d - t) * d) by (field; exact NZ).
  rewrite E, abs_mul in H.
  apply Qmult_lt_0_le_reg_r with (Qabs d); [exact D|exact H].
Qed.

(** * The operations, with relative errors *)

Notation u := (1 # 16777216).
Notation z := (p2 (-150)).
Lemma u_is : p2 (-24) == u.
Proof. reflexivity. Qed.

Lemma sub_rel a b : f_finite a = true -> f_finite b = true -> Qabs (f_val a - f_val b) <= p2 127 ->
  f_finite (f_sub a b) = true /\ Qabs (f_val (f_sub a b) - (f_val a - f_val b)) <= Qabs (f_val a - f_val b) * u + z.
Proof.
  intros A B H. pose proof (Qabs_Qle_condition (f_val a - f_val b) (Qabs (f_val a - f_val b))) as [C _]. specialize (C (Qle_refl _)).
  destruct (sub_near a b (Qabs (f_val a - f_val b)) A B (proj1 C) (proj2 C) H) as (F & G1 & G2).
  rewrite u_is in G1, G2. split; [exact F|]. apply abs_iff. split; assumption.
Qed.
Lemma add_rel a b : f_finite a = true -> f_finite b = true -> Qabs (f_val a + f_val b) <= p2 127 ->
  f_finite (f_add a b) = true /\ Qabs (f_val (f_add a b) - (f_val a + f_val b)) <= Qabs (f_val a + f_val b) * u + z.
Proof.
  intros A B H. pose proof (Qabs_Qle_condition (f_val a + f_val b) (Qabs (f_val a + f_val b))) as [C _]. specialize (C (Qle_refl _)).
  destruct (add_near a b (Qabs (f_val a + f_val b)) A B (proj1 C) (proj2 C) H) as (F & G1 & G2).
  rewrite u_is in G1, G2. split; [exact F|]. apply abs_iff. split; assumption.
Qed.
Lemma mul_rel a b : f_finite a = true -> f_finite b = true -> Qabs (f_val a * f_val b) <= p2 127 ->
  f_finite (f_mul a b) = true /\ Qabs (f_val (f_mul a b) - (f_val a * f_val b)) <= Qabs (f_val a * f_val b) * u + z.
Proof.
  intros A B H. pose proof (Qabs_Qle_condition (f_val a * f_val b) (Qabs (f_val a * f_val b))) as [C _]. specialize (C (Qle_refl _)).
  destruct (mul_near a b (Qabs (f_val a * f_val b)) A B (proj1 C) (proj2 C) H) as (F & G1 & G2).
  rewrite u_is in G1, G2. split; [exact F|]. apply abs_iff. split; assumption.
Qed.
Lemma div_rel a b : f_finite a = true -> f_finite b = true -> ~ f_val b == 0 -> Qabs (f_val a / f_val b) <= p2 127 ->
  f_finite (f_div a b) = true /\ Qabs (f_val (f_div a b) - (f_val a / f_val b)) <= Qabs (f_val a / f_val b) * u + z.
Proof.
  intros A B NZ H. pose proof (Qabs_Qle_condition (f_val a / f_val b) (Qabs (f_val a / f_val b))) as [C _]. specialize (C (Qle_refl _)).
  destruct (div_near a b (Qabs (f_val a / f_val b)) A B NZ (proj1 C) (proj2 C) H) as (F & G1 & G2).
  rewrite u_is in G1, G2. split; [exact F|]. apply abs_iff. split; assumption.
Qed.

Lemma fz k : (- 2 ^ 24 < k < 2 ^ 24)%Z -> f_finite (f_of_Z k) = true.
Proof. apply of_Z_exact. Qed.
Lemma vz k : (- 2 ^ 24 < k < 2 ^ 24)%Z -> f_val (f_of_Z k) == inject_Z k.
Proof. apply of_Z_exact. Qed.

(** * From a value to a current *)

Lemma to_mA_close v mn mx : sensible v -> sensible mn -> sensible mx -> p2 (-40) <= Qabs (f_val mx - f_val mn) ->
  let t := 16 * (f_val v - f_val mn) / (f_val mx - f_val mn) in
  f_finite (to_mA v mn mx) = true /\ Qabs (f_val (to_mA v mn mx) - (4 + t)) <= Qabs t * (11 # 2) * u + 5 * u.
Proof.
  intros (Fv & Bv) (Fn & Bn) (Fx & Bx) HD. cbv zeta.
  set (V := f_val v) in *. set (N := f_val mn) in *. set (X := f_val mx) in *.
  set (D := X - N) in *. set (t := 16 * (V - N) / D).
  assert (P127 : 100 * p2 60 + 100 <= p2 127) by (vm_compute; discriminate).
  assert (ZS : z <= p2 (-40) * (1 # 1267650600228229401496703205376)) by (vm_compute; discriminate).
  assert (Z1 : 0 <= z /\ z <= 1) by (split; vm_compute; discriminate). destruct Z1 as (Z0 & Z1).
  assert (P60 : 0 <= p2 60) by (apply Qlt_le_weak, p2_pos).
  assert (DN : ~ D == 0).
  { intros E. rewrite E in HD. change (Qabs 0) with 0 in HD. pose proof (p2_pos (-40)). lra. }
  set (A := Qabs D) in *. set (T := Qabs t).
  assert (A0 : 0 < A) by (pose proof (p2_pos (-40)); lra). assert (T0 : 0 <= T) by apply abs_pos.
  assert (TD : t * D == 16 * (V - N)) by (unfold t; field; exact DN).
  assert (TA : T * A == 16 * Qabs (V - N)).
  { unfold T, A. rewrite <- abs_mul, TD, abs_mul. reflexivity. }
  assert (VN : Qabs (V - N) <= 2 * p2 60).
  { unfold Qminus. eapply Qle_trans; [apply abs_tri|]. rewrite Qabs_opp. lra. }
  assert (AB : A <= 2 * p2 60).
  { unfold A, D, Qminus. eapply Qle_trans; [apply abs_tri|]. rewrite Qabs_opp. lra. }
  (* n *)
  destruct (sub_rel v mn Fv Fn) as (Fn1 & En); [fold V N; lra|]. fold V N in En. set (n := f_val (f_sub v mn)) in *.
  (* p = 16 n *)
  assert (V16 : f_val (f_of_Z 16) == 16) by (rewrite vz by lia; reflexivity).
  assert (N1 : Qabs n <= Qabs (V - N) * (1 + u) + z).
  { setoid_replace n with ((n - (V - N)) + (V - N)) by ring. eapply Qle_trans; [apply abs_tri|]. lra. }
  assert (M1 : Qabs (f_val (f_of_Z 16) * n) == 16 * Qabs n) by (rewrite V16, abs_mul; reflexivity).
  destruct (mul_rel (f_of_Z 16) (f_sub v mn)) as (Fp & Ep); [apply fz; lia|exact Fn1|fold n; rewrite M1; lra|].
  fold n in Ep. rewrite M1 in Ep. set (p := f_val (f_mul (f_of_Z 16) (f_sub v mn))) in *.
  assert (PT : Qabs (p - t * D) <= T * A * (2 * u + u * u) + 18 * z).
  { setoid_replace (p - t * D) with ((p - f_val (f_of_Z 16) * n) + 16 * (n - (V - N))) by (rewrite TD, V16; ring).
    eapply Qle_trans; [apply abs_tri|]. rewrite abs_mul. change (Qabs 16) with 16. rewrite TA. lra. }
  (* d *)
  destruct (sub_rel mx mn Fx Fn) as (Fd & Ed); [fold X N D A; lra|]. fold X N D A in Ed. set (d := f_val (f_sub mx mn)) in *.
  assert (ZA : z <= A * (1 # 1267650600228229401496703205376)) by lra.
  assert (DA : Qabs d <= A * (1 + 2 * u) /\ A * (1 - 2 * u) <= Qabs d).
  { split.
    - setoid_replace d with ((d - D) + D) by ring. eapply Qle_trans; [apply abs_tri|]. fold A. lra.
    - assert (A <= Qabs (d - D) + Qabs d).
      { pose proof (abs_tri (- (d - D)) d) as H1. rewrite Qabs_opp in H1.
        assert (H2 : A == Qabs (- (d - D) + d)) by (unfold A; apply abs_comp; ring). lra. }
      lra. }
  destruct DA as (DA1 & DA2).
  assert (dN : ~ d == 0).
  { intros E. rewrite E in DA2. change (Qabs 0) with 0 in DA2. lra. }
  (* p / d *)
  assert (Q1 : Qabs (p / d - t) <= T * ((13 # 4) * u) + p2 (-100)).
  { apply quot_err; [exact dN|].
    setoid_replace (p - t * d) with ((p - t * D) + - (t * (d - D))) by ring.
    eapply Qle_trans; [apply abs_tri|]. rewrite Qabs_opp, abs_mul. fold T.
    assert (T * Qabs (d - D) <= T * (A * u + A * (1 # 1267650600228229401496703205376))) by (apply mul_le_l; lra).
    assert (G : (T * ((13 # 4) * u) + p2 (-100)) * (A * (1 - 2 * u)) <= (T * ((13 # 4) * u) + p2 (-100)) * Qabs d).
    { apply mul_le_l; [|exact DA2]. pose proof (p2_pos (-100)). nra. }
    eapply Qle_trans; [|exact G].
    assert (P100 : p2 (-100) == 1 # 1267650600228229401496703205376) by (vm_compute; reflexivity). rewrite P100.
    assert (ZA2 : 18 * z <= A * (1 # 2535301200456458802993406410752)).
    {       assert (18 * z <= p2 (-40) * (1 # 2535301200456458802993406410752)) by (vm_compute; discriminate). lra. }
    assert (0 <= T * A) by (rewrite TA; pose proof (abs_pos (V - N)); lra).
    lra. }
  assert (PB : T <= 2 * p2 105).
  { assert (G : T * p2 (-40) <= T * A) by (apply mul_le_l; lra).
    assert (K : p2 (-40) * (2 * p2 105) == 64 * p2 60 /\ 0 < p2 (-40)) by (split; [vm_compute; reflexivity|apply p2_pos]).
    destruct K as (K1 & K2). apply Qmult_lt_0_le_reg_r with (p2 (-40)); [exact K2|]. lra. }
  assert (K5 : 0 <= p2 (-100) /\ p2 (-100) <= u * (1 # 1000)) by (split; vm_compute; discriminate). destruct K5 as (K5 & K6).
  assert (PDB : Qabs (p / d) <= T * (1 + (13 # 4) * u) + p2 (-100)).
  { setoid_replace (p / d) with ((p / d - t) + t) by ring. eapply Qle_trans; [apply abs_tri|]. fold T. lra. }
  assert (P127' : 10 * p2 105 + 10 <= p2 127) by (vm_compute; discriminate).
  destruct (div_rel (f_mul (f_of_Z 16) (f_sub v mn)) (f_sub mx mn) Fp Fd dN) as (Fq & Eq); [fold p d; lra|].
  fold p d in Eq. set (q := f_val (f_div (f_mul (f_of_Z 16) (f_sub v mn)) (f_sub mx mn))) in *.
  assert (ZU : z <= u * (1 # 1000)) by (vm_compute; discriminate).
  assert (QT : Qabs (q - t) <= T * ((35 # 8) * u) + (1 # 100) * u).
  { setoid_replace (q - t) with ((q - p / d) + (p / d - t)) by ring. eapply Qle_trans; [apply abs_tri|]. lra. }
  assert (QB : Qabs q <= T * (1 + (35 # 8) * u) + (1 # 100) * u).
  { setoid_replace q with ((q - t) + t) by ring. eapply Qle_trans; [apply abs_tri|]. fold T. lra. }
  assert (V4 : f_val (f_of_Z 4) == 4) by (rewrite vz by lia; reflexivity).
  assert (S4 : Qabs (f_val (f_of_Z 4) + q) <= 4 + Qabs q).
  { eapply Qle_trans; [apply abs_tri|]. rewrite V4. change (Qabs 4) with 4. lra. }
  destruct (add_rel (f_of_Z 4) (f_div (f_mul (f_of_Z 16) (f_sub v mn)) (f_sub mx mn))) as (Fr & Er); [apply fz; lia|exact Fq|fold q; lra|].
  fold q in Er. unfold to_mA. split; [exact Fr|].
  set (r := f_val (f_add (f_of_Z 4) (f_div (f_mul (f_of_Z 16) (f_sub v mn)) (f_sub mx mn)))) in *.
  setoid_replace (r - (4 + t)) with ((r - (f_val (f_of_Z 4) + q)) + (q - t)) by (rewrite V4; ring).
  eapply Qle_trans; [apply abs_tri|]. fold T. lra.
Qed.

(** * The code of an output *)

Definition clampF (v : Z) : Z :=
  let v := if f_lt v (f_of_Z 4) then f_of_Z 4 else v in
  if f_lt (f_of_Z 20) v then f_of_Z 20 else v.
Lemma clampF_key v : f_isnan v = false ->
  key (clampF v) = Z.max (key (f_of_Z 4)) (Z.min (key (f_of_Z 20)) (key v)) /\ f_isnan (clampF v) = false.
Proof.
  intros N. unfold clampF, f_lt. rewrite N.
  replace (f_isnan (f_of_Z 4)) with false by reflexivity. replace (f_isnan (f_of_Z 20)) with false by reflexivity. cbn [negb andb].
  assert (L : (key (f_of_Z 4) < key (f_of_Z 20))%Z) by reflexivity.
  destruct (Z.ltb_spec (key v) (key (f_of_Z 4))) as [A|A].
  - replace (f_isnan (f_of_Z 4)) with false by reflexivity. cbn [negb andb].
    destruct (Z.ltb_spec (key (f_of_Z 20)) (key (f_of_Z 4))) as [B|B]; [lia|]. split; [lia|reflexivity].
  - rewrite N. cbn [negb andb]. destruct (Z.ltb_spec (key (f_of_Z 20)) (key v)) as [B|B]; (split; [lia|]); [reflexivity|exact N].
Qed.
Lemma clampF_range v : f_isnan v = false -> f_finite (clampF v) = true /\ 4 <= f_val (clampF v) /\ f_val (clampF v) <= 20.
Proof.
  intros N. destruct (clampF_key v N) as (K & _).
  assert (V4 : f_val (f_of_Z 4) == 4) by reflexivity. assert (V20 : f_val (f_of_Z 20) == 20) by reflexivity.
  assert (L : (0 < key (f_of_Z 4) < key (f_of_Z 20) /\ key (f_of_Z 20) < INF)%Z) by (repeat split; reflexivity).
  assert (F : f_finite (clampF v) = true) by (apply key_finite; rewrite K; unfold INF in *; lia).
  split; [exact F|]. rewrite <- V4, <- V20. split; apply val_le; try exact F; try reflexivity; rewrite K; lia.
Qed.
Lemma clampF_val v : f_finite v = true -> f_val (clampF v) == limited (f_val v).
Proof.
  intros F. destruct (finite_not v F) as (N & _). unfold clampF, f_lt. rewrite N.
  replace (f_isnan (f_of_Z 4)) with false by reflexivity. replace (f_isnan (f_of_Z 20)) with false by reflexivity. cbn [negb andb].
  assert (V4 : f_val (f_of_Z 4) == 4) by reflexivity. assert (V20 : f_val (f_of_Z 20) == 20) by reflexivity.
  assert (F4 : f_finite (f_of_Z 4) = true) by reflexivity. assert (F20 : f_finite (f_of_Z 20) = true) by reflexivity.
  unfold limited.
  destruct (Z.ltb_spec (key v) (key (f_of_Z 4))) as [A|A].
  - replace (f_isnan (f_of_Z 4)) with false by reflexivity. cbn [negb andb].
    replace (key (f_of_Z 20) <? key (f_of_Z 4))%Z with false by reflexivity.
    apply (val_lt _ _ F F4) in A. rewrite V4 in *. rewrite Q.min_r, Q.max_l by lra. reflexivity.
  - rewrite N. cbn [negb andb]. apply (val_le _ _ F4 F) in A. rewrite V4 in A.
    destruct (Z.ltb_spec (key (f_of_Z 20)) (key v)) as [B|B].
    + apply (val_lt _ _ F20 F) in B. rewrite V20 in *. rewrite Q.min_l, Q.max_r by lra. reflexivity.
    + apply (val_le _ _ F F20) in B. rewrite V20 in B. rewrite Q.min_r, Q.max_r by lra. reflexivity.
Qed.

Lemma code_of k K top v : f_finite k = true -> f_val k == K -> 1 <= K -> K <= 4000 -> f_finite top = true -> f_val top == 16 * K ->
  f_finite v = true -> 4 <= f_val v -> f_val v <= 20 ->
  exists code, f_to_u32 (f_mul k (f_sub v (f_of_Z 4))) = Some code /\ (0 <= code)%Z /\ inject_Z code <= 16 * K /\
    K * (f_val v - 4 - 33 * u) - 1 <= inject_Z code /\ inject_Z code <= K * (f_val v - 4 + 33 * u).
Proof.
  intros Fk Vk K1 K2 Ft Vt Fv L H.
  assert (V4 : f_val (f_of_Z 4) == 4) by reflexivity. assert (V16 : f_val (f_of_Z 16) == 16) by reflexivity.
  assert (V0 : f_val (f_of_Z 0) == 0) by reflexivity.
  assert (ZU : 0 <= z /\ z <= u * (1 # 10000)) by (split; vm_compute; discriminate). destruct ZU as (Z0 & ZU).
  assert (P : 100000 <= p2 127) by (vm_compute; discriminate).
  destruct (sub_near v (f_of_Z 4) 16 Fv eq_refl) as (Fs & E1 & E2); [rewrite V4; lra|rewrite V4; lra|lra|].
  rewrite u_is in E1, E2. rewrite V4 in E1, E2.
  assert (R : 0 <= f_val (f_sub v (f_of_Z 4)) /\ f_val (f_sub v (f_of_Z 4)) <= 16).
  { destruct (sub_finite v (f_of_Z 4) Fv eq_refl) as (s & y & -> & E). rewrite V4 in E.
    destruct (round_between s (f_of_Z 0) (f_of_Z 16) y eq_refl eq_refl) as (_ & [G1 G2]); [rewrite V0, V16, E; lra|].
    rewrite V0 in G1. rewrite V16 in G2. auto. }
  set (s := f_val (f_sub v (f_of_Z 4))) in *. destruct R as (R1 & R2).
  assert (M1 : 0 <= K * s) by nra. assert (M2 : K * s <= 16 * K) by nra.
  destruct (mul_near k (f_sub v (f_of_Z 4)) (16 * K) Fk Fs) as (Fr & E3 & E4); [fold s; rewrite Vk; lra|fold s; rewrite Vk; lra|lra|].
  fold s in E3, E4. rewrite u_is in E3, E4. rewrite Vk in E3, E4.
  assert (RR : 0 <= f_val (f_mul k (f_sub v (f_of_Z 4))) /\ f_val (f_mul k (f_sub v (f_of_Z 4))) <= 16 * K).
  { rewrite (mul_finite k _ Fk Fs). 
    match goal with |- context [f_round ?b ?y] => destruct (round_between b (f_of_Z 0) top y eq_refl Ft) as (_ & [G1 G2]) end;
      [fold s; rewrite V0, Vt, Vk; lra|]. rewrite V0 in G1. rewrite Vt in G2. auto. }
  set (r := f_val (f_mul k (f_sub v (f_of_Z 4)))) in *. destruct RR as (R3 & R4).
  pose proof (Qfloor_le r) as FL. pose proof (Qlt_floor r) as FU. rewrite inject_Z_plus in FU. change (inject_Z 1) with 1 in FU.
  assert (C0 : (0 <= Qfloor r)%Z) by (change 0%Z with (Qfloor 0); apply Qfloor_resp_le; exact R3).
  exists (Qfloor r). split.
  { apply to_u32_pos; [exact Fr|exact R3|]. fold r.
    assert (inject_Z (Qfloor r) < inject_Z (2 ^ 32)); [|rewrite <- Zlt_Qlt in *; assumption].
    assert (64000 < inject_Z (2 ^ 32)) by reflexivity. lra. }
  split; [exact C0|]. split; [lra|].
  assert (X1 : K * (f_val v - 4 - 16 * u - z) <= K * s) by (apply mul_le_l; lra).
  assert (X2 : K * s <= K * (f_val v - 4 + 16 * u + z)) by (apply mul_le_l; lra).
  assert (X3 : K * z <= K * (u * (1 # 10000))) by (apply mul_le_l; lra).
  split; lra.
Qed.
