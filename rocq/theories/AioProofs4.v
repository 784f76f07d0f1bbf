(** Lemmas about analog channels: the ends of a scale. *)
From Coq Require Import ZArith List Bool Lia QArith Qround Qpower Qabs Qminmax Lqa.
From Verif Require Import Base FTextModel FTextProofs FloatModel FloatProofs FloatProofs2 FloatProofs3 AioModel AioSpec AioProofs AioProofs2 AioProofs3.
Import ListNotations.
Open Scope Q_scope.

(** A rational that is a float stays as it is. *)
Lemma round_exact s g x : f_finite g = true -> f_val g == x -> f_finite (f_round s x) = true /\ f_val (f_round s x) == x.
Proof.
  intros F V. destruct (round_between s g g x F F) as (F1 & G1 & G2); [rewrite V; split; apply Qle_refl|].
  split; [exact F1|lra].
Qed.

Lemma abs_val b : f_finite b = true -> Qabs (f_val b) == f_abs b.
Proof.
  intros F. pose proof (f_abs_pos b F). unfold f_val. destruct (f_neg b); [rewrite Qabs_opp|]; rewrite Qabs_pos by assumption; reflexivity.
Qed.

(** 16 times a float that is not too small and not too large is a float. *)
Lemma times16 d : f_finite d = true -> p2 (-100) <= Qabs (f_val d) -> Qabs (f_val d) <= p2 100 ->
  exists g, f_finite g = true /\ f_val g == 16 * f_val d.
Proof.
  intros F L H. rewrite (abs_val d F) in L, H. destruct (f_mk d F) as (E & M & N & _). cbv zeta in *.
  assert (M0 : (0 < f_m d)%Z).
  { destruct (Z.eq_dec (f_m d) 0) as [Z0|Z0]; [|lia]. exfalso. unfold f_abs in L. rewrite Z0 in L.
    change (inject_Z 0) with 0 in L. pose proof (p2_pos (-100)). lra. }
  assert (E104 : (f_e d + 4 <= 104)%Z).
  { destruct (Z_le_gt_dec (f_e d + 4) 104) as [G|G]; [exact G|]. exfalso.
    assert (A : p2 101 <= f_abs d).
    { unfold f_abs. assert (1 <= inject_Z (f_m d)) by (change 1 with (inject_Z 1); rewrite <- Zle_Qle; lia).
      pose proof (qpow_le 2 101 (f_e d) ltac:(discriminate) ltac:(lia)) as X. fold (p2 101) in X. fold (p2 (f_e d)) in X.
      pose proof (p2_pos (f_e d)). nra. }
    assert (p2 100 < p2 101) by reflexivity. lra. }
  assert (M23 : (2 ^ 23 <= f_m d)%Z).
  { destruct N as [N|N]; [|exact N]. exfalso. unfold f_abs in L. rewrite N in L.
    assert (inject_Z (f_m d) <= inject_Z (2 ^ 24)) by (rewrite <- Zle_Qle; lia).
    pose proof (p2_pos (-149)). assert (inject_Z (f_m d) * p2 (-149) <= inject_Z (2 ^ 24) * p2 (-149)) by nra.
    assert (inject_Z (2 ^ 24) * p2 (-149) < p2 (-100)) by reflexivity. lra. }
  destruct (mk_val (f_e d + 4) (f_m d) ltac:(lia) ltac:(lia) ltac:(lia)) as (MG & MV).
  exists (signed (f_neg d) (mk (f_e d + 4) (f_m d))).
  assert (R : (0 <= mk (f_e d + 4) (f_m d) < INF)%Z) by (unfold mk, INF; lia).
  destruct (key_signed (f_neg d) (mk (f_e d + 4) (f_m d)) ltac:(lia)) as (_ & _ & KM).
  split; [unfold f_finite; rewrite KM; unfold INF in R; lia|].
  rewrite val_signed by (destruct R as (R1 & R2); split; [exact R1|exact (lt_inf _ R2)]).
  assert (QQ : f_abs (mk (f_e d + 4) (f_m d)) == 16 * f_abs d).
  { rewrite MV. unfold f_abs. rewrite p2_plus. change (p2 4) with 16. ring. }
  unfold f_val. destruct (f_neg d); rewrite QQ; ring.
Qed.

(** 16 d / d is exactly 16. *)
Lemma div16 d : f_finite d = true -> p2 (-100) <= Qabs (f_val d) -> Qabs (f_val d) <= p2 100 ->
  f_finite (f_div (f_mul (f_of_Z 16) d) d) = true /\ f_val (f_div (f_mul (f_of_Z 16) d) d) == 16.
Proof.
  intros F L H. destruct (times16 d F L H) as (g & Fg & Vg).
  assert (V16 : f_val (f_of_Z 16) == 16) by reflexivity.
  assert (EX : f_finite (f_mul (f_of_Z 16) d) = true /\ f_val (f_mul (f_of_Z 16) d) == 16 * f_val d).
  { rewrite (mul_finite (f_of_Z 16) d eq_refl F).
    destruct (round_exact (xorb (f_neg (f_of_Z 16)) (f_neg d)) g (f_val (f_of_Z 16) * f_val d) Fg) as (A & B); [rewrite Vg, V16; reflexivity|].
    split; [exact A|]. rewrite B, V16. reflexivity. }
  destruct EX as (Fm & Vm).
  assert (NZ : ~ f_val d == 0).
  { intros E. rewrite (abs_comp _ _ E) in L. change (Qabs 0) with 0 in L. pose proof (p2_pos (-100)). lra. }
  rewrite (div_finite _ _ Fm F) by (intros E; apply NZ, (val_zero_key d F), E).
  assert (Q16 : f_val (f_mul (f_of_Z 16) d) / f_val d == 16) by (rewrite Vm; field; exact NZ).
  destruct (round_exact (xorb (f_neg (f_mul (f_of_Z 16) d)) (f_neg d)) (f_of_Z 16) (f_val (f_mul (f_of_Z 16) d) / f_val d) eq_refl) as (A & B);
  [rewrite Q16; exact V16|]. split; [exact A|]. rewrite B. exact Q16.
Qed.

(** Conversion of an exact number. *)
Lemma to_u32_int v w : f_finite v = true -> f_val v == inject_Z w -> (0 <= w < 2 ^ 32)%Z -> f_to_u32 v = Some w.
Proof.
  intros F V W. unfold f_to_u32. rewrite F. cbv zeta. destruct (f_val v) as [n d] eqn:E. unfold Qeq in V. cbn [Qnum Qden inject_Z] in *.
  assert (Q : (Z.quot n (Zpos d) = w)%Z).
  { replace n with (w * Zpos d)%Z by lia. apply Z.quot_mul. lia. }
  rewrite Q. destruct (Z.leb_spec 0 w); [|lia]. destruct (Z.ltb_spec w (2 ^ 32)); [reflexivity|lia].
Qed.

(** The ends of a scale. *)
Lemma to_mA_low mn mx : f_finite mn = true -> f_finite mx = true -> ~ f_val mn == f_val mx -> Qabs (f_val mx - f_val mn) <= p2 127 ->
  f_finite (to_mA mn mn mx) = true /\ f_val (to_mA mn mn mx) == 4.
Proof.
  intros Fn Fx NE B. assert (V4 : f_val (f_of_Z 4) == 4) by reflexivity. assert (V16 : f_val (f_of_Z 16) == 16) by reflexivity.
  assert (Z0 : f_finite 0%Z = true /\ f_val 0%Z == 0) by (split; reflexivity). destruct Z0 as (F0 & V0).
  destruct (sub_nonzero mx mn Fx Fn) as (NZ & _); [intros E; apply NE; symmetry; exact E|].
  destruct (sub_rel mx mn Fx Fn B) as (Fd & _). unfold to_mA.
  assert (A : f_finite (f_sub mn mn) = true /\ f_val (f_sub mn mn) == 0).
  { destruct (sub_finite mn mn Fn Fn) as (s & y & -> & Ey). assert (Y0 : f_val 0%Z == y) by (rewrite V0, Ey; ring).
    destruct (round_exact s 0%Z y F0 Y0) as (P & Q). split; [exact P|]. rewrite Q, <- Y0. exact V0. }
  destruct A as (FA & VA). set (a := f_sub mn mn) in *. set (d := f_sub mx mn) in *. clearbody a d.
  assert (C : f_finite (f_mul (f_of_Z 16) a) = true /\ f_val (f_mul (f_of_Z 16) a) == 0).
  { rewrite (mul_finite (f_of_Z 16) a eq_refl FA).
    assert (Y : f_val (f_of_Z 16) * f_val a == 0) by (rewrite VA; ring).
    assert (Y0 : f_val 0%Z == f_val (f_of_Z 16) * f_val a) by (rewrite Y; exact V0).
    destruct (round_exact (xorb (f_neg (f_of_Z 16)) (f_neg a)) 0%Z _ F0 Y0) as (P & Q). split; [exact P|]. rewrite Q. exact Y. }
  destruct C as (FC & VC). set (c := f_mul (f_of_Z 16) a) in *. clearbody c.
  assert (D : f_finite (f_div c d) = true /\ f_val (f_div c d) == 0).
  { rewrite (div_finite c d FC Fd NZ). assert (Y : f_val c / f_val d == 0) by (rewrite VC; unfold Qdiv; ring).
    assert (Y0 : f_val 0%Z == f_val c / f_val d) by (rewrite Y; exact V0).
    destruct (round_exact (xorb (f_neg c) (f_neg d)) 0%Z _ F0 Y0) as (P & Q). split; [exact P|]. rewrite Q. exact Y. }
  destruct D as (FD & VD). set (e := f_div c d) in *. clearbody e.
  rewrite (add_finite (f_of_Z 4) e eq_refl FD). assert (Y : f_val (f_of_Z 4) + f_val e == 4) by (rewrite V4, VD; reflexivity).
  destruct (round_exact (f_neg (f_of_Z 4) && f_neg e) (f_of_Z 4) (f_val (f_of_Z 4) + f_val e) eq_refl) as (P & Q); [rewrite Y; exact V4|].
  split; [exact P|]. rewrite Q. exact Y.
Qed.
Lemma to_mA_high mn mx : sensible_scale mn mx -> no_scale (f_val mn) (f_val mx) = false ->
  f_finite (to_mA mx mn mx) = true /\ f_val (to_mA mx mn mx) == 20.
Proof.
  intros SS NS. pose proof (sensible_usable mn mx SS) as (_ & _ & US). destruct SS as ((Fn & Bn) & (Fx & Bx) & S).
  destruct S as [S|S]; [congruence|]. destruct US as [US|(US & UB)]; [congruence|].
  destruct (sub_rel mx mn Fx Fn UB) as (Fd & Ed). unfold to_mA. set (d := f_sub mx mn) in *. clearbody d.
  set (q := f_val mx - f_val mn) in *.
  assert (L : Qabs q <= 2 * p2 60).
  { unfold q, Qminus. eapply Qle_trans; [apply abs_tri|]. rewrite Qabs_opp. lra. }
  assert (T1 : Qabs (f_val d) <= Qabs (f_val d - q) + Qabs q).
  { rewrite (abs_comp (f_val d) ((f_val d - q) + q)) by ring. apply abs_tri. }
  assert (T2 : Qabs q <= Qabs (f_val d - q) + Qabs (f_val d)).
  { rewrite (abs_comp q (- (f_val d - q) + f_val d)) by ring. eapply Qle_trans; [apply abs_tri|]. rewrite Qabs_opp. lra. }
  set (aq := Qabs q) in *. set (ad := Qabs (f_val d)) in *. set (ae := Qabs (f_val d - q)) in *. 
  assert (L1 : p2 (-100) <= ad).
  { assert (2 * p2 (-100) + 2 * z <= p2 (-40)) by (vm_compute; discriminate). pose proof (p2_pos (-150)). pose proof (p2_pos (-100)). lra. }
  assert (L2 : ad <= p2 100).
  { assert (4 * p2 60 + 2 * z <= p2 100) by (vm_compute; discriminate). pose proof (p2_pos 60). pose proof (p2_pos (-150)). lra. }
  destruct (div16 d Fd L1 L2) as (Fe & Ve). set (e := f_div _ _) in *. clearbody e.
  rewrite (add_finite (f_of_Z 4) e eq_refl Fe). assert (Y : f_val (f_of_Z 4) + f_val e == 20) by (rewrite Ve; reflexivity).
  destruct (round_exact (f_neg (f_of_Z 4) && f_neg e) (f_of_Z 20) (f_val (f_of_Z 4) + f_val e) eq_refl) as (P & Q); [rewrite Y; reflexivity|].
  split; [exact P|]. rewrite Q. exact Y.
Qed.

(** The code of an exact current. *)
Lemma code_exact k K y n w : f_finite k = true -> f_val k == K -> f_finite y = true -> f_val y == inject_Z n -> (4 <= n <= 20)%Z ->
  K * inject_Z (n - 4) == inject_Z w -> (0 <= w < 2 ^ 24)%Z ->
  f_to_u32 (f_mul k (f_sub (clampF y) (f_of_Z 4))) = Some w.
Proof.
  intros Fk Vk Fy Vy N HW W.
  assert (VC : f_val (clampF y) == inject_Z n).
  { rewrite (clampF_val y Fy). unfold limited. assert (4 <= f_val y) by (rewrite Vy; change 4 with (inject_Z 4); rewrite <- Zle_Qle; lia).
    assert (f_val y <= 20) by (rewrite Vy; change 20 with (inject_Z 20); rewrite <- Zle_Qle; lia).
    rewrite Q.min_r, Q.max_r by assumption. exact Vy. }
  destruct (clampF_range y (proj1 (finite_not y Fy))) as (FC & _). set (c := clampF y) in *. clearbody c.
  destruct (of_Z_exact (n - 4) ltac:(lia)) as (F1 & V1). destruct (of_Z_exact w ltac:(lia)) as (F2 & V2).
  assert (A : f_finite (f_sub c (f_of_Z 4)) = true /\ f_val (f_sub c (f_of_Z 4)) == inject_Z (n - 4)).
  { destruct (sub_finite c (f_of_Z 4) FC eq_refl) as (s & x & -> & Ex).
    assert (X : x == inject_Z (n - 4)) by (assert (V4 : f_val (f_of_Z 4) == 4) by reflexivity; rewrite Ex, VC, V4; unfold Z.sub; rewrite inject_Z_plus; change (inject_Z (- (4))) with (- (4)); ring).
    destruct (round_exact s (f_of_Z (n - 4)) x F1) as (P & Q); [rewrite X; exact V1|]. split; [exact P|]. rewrite Q. exact X. }
  destruct A as (FA & VA). set (a := f_sub c (f_of_Z 4)) in *. clearbody a.
  rewrite (mul_finite k a Fk FA).
  assert (X : f_val k * f_val a == inject_Z w) by (rewrite Vk, VA; exact HW).
  destruct (round_exact (xorb (f_neg k) (f_neg a)) (f_of_Z w) (f_val k * f_val a) F2) as (P & Q); [rewrite X; exact V2|].
  apply to_u32_int; [exact P|rewrite Q; exact X|lia].
Qed.
