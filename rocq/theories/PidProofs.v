(** Lemmas about approximate results and the law of the regulator. *)
From Coq Require Import ZArith List Bool Lia QArith Qround Qpower Qabs Qminmax Lqa.
From Verif Require Import Base FTextModel FTextProofs FloatModel FloatProofs FloatProofs2 FloatProofs3 AioProofs PidModel PidSpec.
Import ListNotations.
Open Scope Q_scope.

(** * Approximate numbers *)

(** [b] is [x], a number of size [m], with an error of [k] units. *)
Definition near (b : Z) (x m k : Q) : Prop :=
  f_finite b = true /\ Qabs (f_val b - x) <= k * u * m /\ Qabs x <= m /\ 0 <= k /\ k <= 1000.

Definition fits (m : Q) : Prop := p2 (-100) <= m /\ m <= p2 120.
Lemma fits_pos m : fits m -> 0 < m /\ z <= u * m * (1 # 1000) /\ m + m <= p2 127.
Proof.
  intros (A & B).
  assert (0 < p2 (-100)) by reflexivity.
  assert (z <= u * p2 (-100) * (1 # 1000)) by (vm_compute; discriminate).
  assert (p2 120 + p2 120 <= p2 127) by (vm_compute; discriminate).
  repeat split; lra.
Qed.
Lemma near_exact b m : f_finite b = true -> Qabs (f_val b) <= m -> near b (f_val b) m 0.
Proof.
  intros F H. pose proof (abs_pos (f_val b)). repeat split; try assumption; try lra.
  rewrite (abs_comp (f_val b - f_val b) 0) by ring. change (Qabs 0) with 0. lra.
Qed.
Lemma near_is b x y m k : near b x m k -> x == y -> near b y m k.
Proof. intros (F & H1 & H2 & H3) E. unfold near. rewrite (abs_comp (f_val b - y) (f_val b - x)) by (rewrite E; reflexivity).
  rewrite (abs_comp y x) by (symmetry; exact E). auto. Qed.
Lemma near_more b x m k n l : near b x m k -> m <= n -> k <= l -> l <= 1000 -> near b x n l.
Proof.
  intros (F & H1 & H2 & H3 & H4) M K L. pose proof (abs_pos x). repeat split; try assumption; try lra.
  assert (k * m <= l * n) by nra. lra.
Qed.
Lemma near_size b x m k : near b x m k -> Qabs (f_val b) <= m + k * u * m.
Proof.
  intros (F & H1 & H2 & _). assert (Qabs (f_val b) <= Qabs (f_val b - x) + Qabs x); [|lra].
  pose proof (abs_tri (f_val b - x) x) as T. rewrite (abs_comp (f_val b - x + x) (f_val b)) in T by ring. exact T.
Qed.

Lemma near_add a b x y m n k : near a x m k -> near b y n k -> fits (m + n) -> k <= 990 -> near (f_add a b) (x + y) (m + n) (k + 2).
Proof.
  intros A B M K. destruct (fits_pos _ M) as (P & Z1 & T). clear M.
  destruct A as (FA & A1 & A2 & K0 & _). destruct B as (FB & B1 & B2 & _).
  assert (E1 : Qabs (f_val a + f_val b - (x + y)) <= k * u * (m + n)).
  { pose proof (abs_tri (f_val a - x) (f_val b - y)) as X.
    rewrite (abs_comp (f_val a - x + (f_val b - y)) (f_val a + f_val b - (x + y))) in X by ring. lra. }
  assert (E2 : Qabs (x + y) <= m + n) by (pose proof (abs_tri x y); lra).
  assert (E3 : Qabs (f_val a + f_val b) <= (m + n) + k * u * (m + n)).
  { pose proof (abs_tri (f_val a + f_val b - (x + y)) (x + y)) as X.
    rewrite (abs_comp (f_val a + f_val b - (x + y) + (x + y)) (f_val a + f_val b)) in X by ring. lra. }
  set (M := m + n) in *. assert (KM : k * M <= 990 * M) by nra. assert (0 <= k * M) by nra.
  destruct (add_rel a b FA FB) as (F & R); [lra|].
  repeat split; try assumption; try lra.
  pose proof (abs_tri (f_val (f_add a b) - (f_val a + f_val b)) (f_val a + f_val b - (x + y))) as X.
  rewrite (abs_comp _ (f_val (f_add a b) - (x + y))) in X by ring. lra.
Qed.
Lemma near_opp a x m k : near a x m k -> near (f_opp a) (- x) m k.
Proof.
  intros (FA & A1 & A2 & K0 & K1). unfold near. rewrite opp_finite. repeat split; try assumption.
  - rewrite opp_val. rewrite (abs_comp (- f_val a - - x) (- (f_val a - x))) by ring. rewrite Qabs_opp. exact A1.
  - rewrite Qabs_opp. exact A2.
Qed.
Lemma near_sub a b x y m n k : near a x m k -> near b y n k -> fits (m + n) -> k <= 990 -> near (f_sub a b) (x - y) (m + n) (k + 2).
Proof. intros A B H1 H2. unfold f_sub, Qminus. exact (near_add _ _ _ _ _ _ _ A (near_opp _ _ _ _ B) H1 H2). Qed.

Lemma near_mul a b x y m n k l : near a x m k -> near b y n l -> fits (m * n) -> k + l <= 500 -> near (f_mul a b) (x * y) (m * n) (k + l + 2).
Proof.
  intros A B M K. destruct (fits_pos _ M) as (P & Z1 & T). clear M.
  destruct A as (FA & A1 & A2 & K0 & _). destruct B as (FB & B1 & B2 & L0 & _).
  pose proof (abs_pos x). pose proof (abs_pos y).
  assert (0 <= m) by lra. assert (0 <= n) by lra.
  assert (E0 : Qabs (f_val b) <= n + l * u * n) by (apply (near_size b y n l); repeat split; lra || assumption).
  assert (E1 : Qabs (f_val a * f_val b - x * y) <= k * u * m * (n + l * u * n) + m * (l * u * n)).
  { pose proof (abs_tri ((f_val a - x) * f_val b) (x * (f_val b - y))) as X.
    rewrite (abs_comp (_ + _) (f_val a * f_val b - x * y)) in X by ring. rewrite !abs_mul in X.
    pose proof (abs_pos (f_val b)). pose proof (abs_pos (f_val a - x)). pose proof (abs_pos (f_val b - y)).
    assert (Qabs (f_val a - x) * Qabs (f_val b) <= k * u * m * (n + l * u * n)) by (apply Qmult_le_compat_nonneg; split; assumption).
    assert (Qabs x * Qabs (f_val b - y) <= m * (l * u * n)) by (apply Qmult_le_compat_nonneg; split; assumption).
    lra. }
  assert (E2 : Qabs (x * y) <= m * n) by (rewrite abs_mul; apply Qmult_le_compat_nonneg; split; assumption).
  set (M := m * n) in *.
  assert (E4 : k * u * m * (n + l * u * n) + m * (l * u * n) == (k + l) * M * u + (k * l) * M * (u * u)) by (unfold M; ring).
  rewrite E4 in E1. clear E4.
  assert (KL : k * l <= 500 * l) by nra. assert (KL0 : 0 <= k * l) by nra.
  assert (KLM : (k * l) * M <= 500 * 500 * M) by nra. assert (KLM0 : 0 <= (k * l) * M) by nra.
  assert (KM : (k + l) * M <= 500 * M) by nra. assert (0 <= (k + l) * M) by nra.
  assert (U2 : u * u <= u * (1 # 16000000)) by (vm_compute; discriminate).
  assert (Q1 : (k * l) * M * (u * u) <= (1 # 32) * u * M) by lra.
  assert (E3 : Qabs (f_val a * f_val b) <= M + (k + l) * M * u + (1 # 32) * u * M).
  { pose proof (abs_tri (f_val a * f_val b - x * y) (x * y)) as X.
    rewrite (abs_comp (f_val a * f_val b - x * y + x * y) (f_val a * f_val b)) in X by ring. lra. }
  destruct (mul_rel a b FA FB) as (F & R); [lra|].
  repeat split; try assumption; try lra.
  pose proof (abs_tri (f_val (f_mul a b) - (f_val a * f_val b)) (f_val a * f_val b - x * y)) as X.
  rewrite (abs_comp _ (f_val (f_mul a b) - x * y)) in X by ring. lra.
Qed.

Lemma near_div a b x y m k l : near a x m k -> near b y (Qabs y) l -> ~ y == 0 -> fits (m / Qabs y) -> k + l <= 200 ->
  near (f_div a b) (x / y) (m / Qabs y) (k + l + 2).
Proof.
  intros A B NZ M K. destruct (fits_pos _ M) as (P & Z1 & T). clear M.
  destruct A as (FA & A1 & A2 & K0 & _). destruct B as (FB & B1 & B2 & L0 & _).
  pose proof (abs_pos x).
  assert (Y : 0 < Qabs y).
  { pose proof (abs_pos y). destruct (Qlt_le_dec 0 (Qabs y)) as [L|L]; [exact L|]. exfalso. apply NZ.
    apply (proj1 (abs_iff y 0)) in L. lra. }
  set (M := m / Qabs y) in *.
  assert (MY : m == M * Qabs y) by (unfold M; field; lra).
  assert (LY : l * Qabs y <= 200 * Qabs y) by nra. assert (LY0 : 0 <= l * Qabs y) by nra.
  assert (BB : Qabs y * (99998 # 100000) <= Qabs (f_val b)).
  { pose proof (abs_tri (f_val b) (y - f_val b)) as X. rewrite (abs_comp (f_val b + (y - f_val b)) y) in X by ring.
    rewrite (Qabs_Qminus y (f_val b)) in X. lra. }
  assert (NB : ~ f_val b == 0).
  { intros E. rewrite E in BB. change (Qabs 0) with 0 in BB. lra. }
  assert (KM : (k + l) * M <= 200 * M) by nra. assert (KM0 : 0 <= (k + l) * M) by nra.
  assert (E1 : Qabs (f_val a / f_val b - x / y) <= (k + l) * M * u * (1001 # 1000)).
  { apply quot_err; [exact NB|].
    assert (X1 : Qabs (f_val a - x / y * f_val b) <= Qabs (f_val a - x) + Qabs (x / y) * Qabs (f_val b - y)).
    { pose proof (abs_tri (f_val a - x) (- (x / y * (f_val b - y)))) as X.
      rewrite (abs_comp (_ + _) (f_val a - x / y * f_val b)) in X by (field; exact NZ).
      rewrite Qabs_opp, abs_mul in X. exact X. }
    assert (X2 : Qabs (x / y) <= M).
    { unfold Qdiv. rewrite abs_mul, Qabs_Qinv. unfold M, Qdiv. apply Qmult_le_compat_r; [exact A2|]. apply Qinv_le_0_compat. lra. }
    assert (X3 : Qabs (x / y) * Qabs (f_val b - y) <= M * (l * u * Qabs y)).
    { apply Qmult_le_compat_nonneg; split; try assumption; apply abs_pos. }
    assert (X4 : Qabs (f_val a - x / y * f_val b) <= (k + l) * M * u * Qabs y).
    { rewrite MY in A1. assert (E : (k + l) * M * u * Qabs y == k * u * (M * Qabs y) + M * (l * u * Qabs y)) by ring. lra. }
    assert (X5 : (k + l) * M * u * (1001 # 1000) * (Qabs y * (99998 # 100000)) <= (k + l) * M * u * (1001 # 1000) * Qabs (f_val b)).
    { apply mul_le_l; lra. }
    assert (X6 : 0 <= (k + l) * M * u * Qabs y) by (apply Qmult_le_0_compat; lra).
    lra. }
  assert (E2 : Qabs (x / y) <= M).
  { unfold Qdiv. rewrite abs_mul, Qabs_Qinv. unfold M, Qdiv. apply Qmult_le_compat_r; [exact A2|]. apply Qinv_le_0_compat. lra. }
  assert (E3 : Qabs (f_val a / f_val b) <= M + (k + l) * M * u * (1001 # 1000)).
  { pose proof (abs_tri (f_val a / f_val b - x / y) (x / y)) as X.
    rewrite (abs_comp (f_val a / f_val b - x / y + x / y) (f_val a / f_val b)) in X by ring. lra. }
  destruct (div_rel a b FA FB NB) as (F & R); [lra|].
  repeat split; try assumption; try lra.
  pose proof (abs_tri (f_val (f_div a b) - (f_val a / f_val b)) (f_val a / f_val b - x / y)) as X.
  rewrite (abs_comp _ (f_val (f_div a b) - x / y)) in X by ring. lra.
Qed.

(** * Sizes *)

Definition bp (x : Q) (n m : Z) : Prop := p2 n <= x /\ x <= p2 m.
Lemma bp_fits x n m : bp x n m -> (-100 <= n)%Z -> (m <= 120)%Z -> fits x.
Proof. intros (A & B) H1 H2. pose proof (p2_le (-100) n H1). pose proof (p2_le m 120 H2). split; lra. Qed.
Lemma bp_mul x y n m n' m' : bp x n m -> bp y n' m' -> bp (x * y) (n + n') (m + m').
Proof.
  intros (A & B) (C & D). unfold bp. rewrite !p2_plus. pose proof (p2_pos n). pose proof (p2_pos n').
  split; apply Qmult_le_compat_nonneg; split; lra.
Qed.
Lemma bp_inv y n m : bp y n m -> bp (/ y) (- m) (- n).
Proof.
  intros (A & B). pose proof (p2_pos n). pose proof (p2_pos m).
  assert (forall k, p2 (- k) == / p2 k). { intros k. unfold p2. apply Qpower_opp. }
  unfold bp. rewrite !H1. split.
  - apply Qle_shift_inv_l; [lra|]. apply Qmult_lt_0_le_reg_r with (p2 m); [lra|].
    assert (E : / p2 m * y * p2 m == y) by (field; lra). rewrite E. lra.
  - apply Qle_shift_inv_r; [lra|]. apply Qmult_lt_0_le_reg_r with (p2 n); [lra|].
    assert (E : / p2 n * y * p2 n == y) by (field; lra). rewrite E. lra.
Qed.
Lemma bp_div x y n m n' m' : bp x n m -> bp y n' m' -> bp (x / y) (n - m') (m - n').
Proof. intros A B. unfold Qdiv, Z.sub. apply bp_mul; [exact A|]. apply bp_inv. exact B. Qed.
Lemma bp_more x n m n' m' : bp x n m -> (n' <= n)%Z -> (m <= m')%Z -> bp x n' m'.
Proof. intros (A & B) H1 H2. pose proof (p2_le n' n H1). pose proof (p2_le m m' H2). split; lra. Qed.
Lemma bp_add x y n m : bp x n m -> bp y n m -> bp (x + y) n (m + 1).
Proof.
  intros (A & B) (C & D). pose proof (p2_pos n). assert (p2 (m + 1) == 2 * p2 m) by (rewrite p2_plus; change (p2 1) with 2; ring).
  split; lra.
Qed.

(** * The law *)

Lemma small_bp n b : small n b -> (0 <= n)%Z -> bp (Qabs (f_val b) + 1) 0 (n + 1).
Proof.
  intros (F & H) N. change (Qpower 2 n) with (p2 n) in H. pose proof (abs_pos (f_val b)).
  pose proof (p2_le 0 n N) as P. change (p2 0) with 1 in P.
  assert (p2 (n + 1) == 2 * p2 n) by (rewrite p2_plus; change (p2 1) with 2; ring).
  split; [change (p2 0) with 1|]; lra.
Qed.
Lemma small_near n b : small n b -> near b (f_val b) (Qabs (f_val b) + 1) 0.
Proof. intros (F & H). apply near_exact; [exact F|lra]. Qed.
Lemma const_near k : (- 2 ^ 24 < k < 2 ^ 24)%Z -> near (f_of_Z k) (inject_Z k) (Qabs (inject_Z k)) 0.
Proof.
  intros H. apply near_is with (f_val (f_of_Z k)); [|apply vz; exact H].
  apply near_exact; [apply fz; exact H|]. rewrite (abs_comp _ _ (vz k H)). apply Qle_refl.
Qed.

Lemma increment_near K TI TD dt e e1 e2 tI T : small 10 K -> small 20 TD ->
  near dt T T 2 -> bp T (-10) 20 -> near TI tI (Qabs tI) 1 -> bp (Qabs tI) (-20) 20 ->
  small 59 e -> small 59 e1 -> small 59 e2 ->
  near (increment K TI TD dt e e1 e2)
    (change (f_val K) tI (f_val TD) T (f_val e) (f_val e1) (f_val e2))
    (size (f_val K) tI (f_val TD) T (f_val e) (f_val e1) (f_val e2)) 18 /\
  bp (size (f_val K) tI (f_val TD) T (f_val e) (f_val e1) (f_val e2)) 0 116.
Proof.
  intros SK SD ND BT NI BI Se Se1 Se2.
  pose proof (small_bp 10 K SK ltac:(lia)) as BK. pose proof (small_near _ _ SK) as NK.
  pose proof (small_bp 59 e Se ltac:(lia)) as Be. pose proof (small_near _ _ Se) as Ne.
  pose proof (small_bp 59 e1 Se1 ltac:(lia)) as Be1. pose proof (small_near _ _ Se1) as Ne1.
  pose proof (small_bp 59 e2 Se2 ltac:(lia)) as Be2. pose proof (small_near _ _ Se2) as Ne2.
  destruct SD as (FD & HD). change (Qpower 2 20) with (p2 20) in HD.
  pose proof (p2_pos (-10)) as P10. assert (T0 : 0 < T) by (destruct BT; lra).
  assert (I0 : 0 < Qabs tI) by (destruct BI; pose proof (p2_pos (-20)); lra).
  assert (NT : ~ T == 0) by lra.
  assert (NtI : ~ tI == 0). { intros E. rewrite (abs_comp _ _ E) in I0. change (Qabs 0) with 0 in I0. lra. }
  assert (AT : Qabs T == T) by (apply Qabs_pos; lra).
  pose proof (abs_pos (f_val TD)) as PD.
  assert (BD : bp (Qabs (f_val TD) + T) (-10) 21).
  { destruct BT as (B1 & B2). assert (p2 21 == 2 * p2 20) by reflexivity. split; lra. }
  assert (NTD : near TD (f_val TD) (Qabs (f_val TD) + T) 0) by (apply near_exact; [exact FD|lra]).
  assert (ND' : near dt T (Qabs T) 2) by (apply near_more with T 2; [exact ND|rewrite AT; apply Qle_refl|lra|lra]).
  assert (BT' : bp (Qabs T) (-10) 20) by (unfold bp; rewrite !AT; exact BT).
  remember (f_val K) as k eqn:Ek. remember (f_val TD) as td eqn:Ed. remember (f_val e) as x eqn:Ex.
  remember (f_val e1) as x1 eqn:Ex1. remember (f_val e2) as x2 eqn:Ex2. clear Ek Ed Ex Ex1 Ex2 SK Se Se1 Se2 ND.
  pose proof (const_near 1 ltac:(lia)) as N1. change (Qabs (inject_Z 1)) with 1 in N1. change (inject_Z 1) with 1 in N1.
  pose proof (const_near 2 ltac:(lia)) as N2. change (Qabs (inject_Z 2)) with 2 in N2. change (inject_Z 2) with 2 in N2.
  pose proof (const_near (-1) ltac:(lia)) as Nm. change (Qabs (inject_Z (-1))) with 1 in Nm. change (inject_Z (-1)) with (-1) in Nm.
  assert (B1 : bp 1 0 0) by (split; vm_compute; discriminate).
  assert (B2 : bp 2 0 1) by (split; vm_compute; discriminate).
  set (A := Qabs k + 1) in *. set (D := Qabs td + T) in *.
  (* q0 *)
  pose proof (bp_div _ _ _ _ _ _ BD BT') as BDT.
  assert (Q1 : near (f_div TD dt) (td / T) (D / Qabs T) 4).
  { apply near_more with (D / Qabs T) (0 + 2 + 2); [|apply Qle_refl|lra|lra]. apply near_div; [exact NTD|exact ND'|exact NT| |lra].
    apply (bp_fits _ _ _ BDT); lia. }
  pose proof (bp_add 1 (D / Qabs T) (-30) 31 (bp_more _ _ _ (-30) 31 B1 ltac:(lia) ltac:(lia)) (bp_more _ _ _ (-30) 31 BDT ltac:(lia) ltac:(lia))) as B3.
  assert (Q2 : near (f_add (f_of_Z 1) (f_div TD dt)) (1 + td / T) (1 + D / Qabs T) 6).
  { apply near_more with (1 + D / Qabs T) (4 + 2); [|apply Qle_refl|lra|lra]. apply near_add; [|exact Q1|apply (bp_fits _ _ _ B3); lia|lra].
    refine (near_more _ 1 1 0 1 4 N1 _ _ _); lra. }
  pose proof (bp_mul _ _ _ _ _ _ BK B3) as B4.
  assert (Q3 : near (f_mul K (f_add (f_of_Z 1) (f_div TD dt))) (k * (1 + td / T)) (A * (1 + D / Qabs T)) 8).
  { apply near_more with (A * (1 + D / Qabs T)) (0 + 6 + 2); [|apply Qle_refl|lra|lra]. apply near_mul; [exact NK|exact Q2| |lra]. apply (bp_fits _ _ _ B4); lia. }
  (* q1 *)
  pose proof (bp_mul _ _ _ _ _ _ B2 BD) as B5.
  assert (Q4 : near (f_mul (f_of_Z 2) TD) (2 * td) (2 * D) 2).
  { apply near_more with (2 * D) (0 + 0 + 2); [|apply Qle_refl|lra|lra]. apply near_mul; [exact N2|exact NTD| |lra]. apply (bp_fits _ _ _ B5); lia. }
  pose proof (bp_div _ _ _ _ _ _ B5 BT') as B6.
  assert (Q5 : near (f_div (f_mul (f_of_Z 2) TD) dt) (2 * td / T) (2 * D / Qabs T) 6).
  { apply near_more with (2 * D / Qabs T) (2 + 2 + 2); [|apply Qle_refl|lra|lra]. apply near_div; [exact Q4|exact ND'|exact NT| |lra].
    apply (bp_fits _ _ _ B6); lia. }
  pose proof (bp_add 1 (2 * D / Qabs T) (-31) 32 (bp_more _ _ _ (-31) 32 B1 ltac:(lia) ltac:(lia)) (bp_more _ _ _ (-31) 32 B6 ltac:(lia) ltac:(lia))) as B7.
  assert (Q6 : near (f_sub (f_of_Z (-1)) (f_div (f_mul (f_of_Z 2) TD) dt)) (- 1 - 2 * td / T) (1 + 2 * D / Qabs T) 8).
  { apply near_more with (1 + 2 * D / Qabs T) (6 + 2); [|apply Qle_refl|lra|lra]. apply near_sub; [|exact Q5|apply (bp_fits _ _ _ B7); lia|lra].
    refine (near_more _ (-1) 1 0 1 6 Nm _ _ _); lra. }
  pose proof (bp_mul _ _ _ _ _ _ B2 BT) as B8.
  assert (Q7 : near (f_mul (f_of_Z 2) dt) (2 * T) (2 * T) 4).
  { apply near_more with (2 * T) (0 + 2 + 2); [|apply Qle_refl|lra|lra]. apply near_mul; [exact N2| |apply (bp_fits _ _ _ B8); lia|lra].
    apply near_more with (Qabs T) 2; [exact ND'|rewrite AT; apply Qle_refl|lra|lra]. }
  pose proof (bp_div _ _ _ _ _ _ B8 BI) as B9.
  assert (Q8 : near (f_div (f_mul (f_of_Z 2) dt) TI) (2 * T / tI) (2 * T / Qabs tI) 8).
  { apply near_more with (2 * T / Qabs tI) (4 + 1 + 2); [|apply Qle_refl|lra|lra]. apply near_div; [exact Q7|exact NI|exact NtI| |lra].
    apply (bp_fits _ _ _ B9); lia. }
  pose proof (bp_add _ _ (-31) 41 (bp_more _ _ _ (-31) 41 B7 ltac:(lia) ltac:(lia)) (bp_more _ _ _ (-31) 41 B9 ltac:(lia) ltac:(lia))) as B10.
  pose proof (near_add _ _ _ _ _ _ _ Q6 Q8 (bp_fits _ _ _ B10 ltac:(lia) ltac:(lia)) ltac:(lra)) as Q9.
  pose proof (bp_mul _ _ _ _ _ _ BK B10) as B11.
  pose proof (near_mul _ _ _ _ _ _ _ _ NK Q9 (bp_fits _ _ _ B11 ltac:(lia) ltac:(lia)) ltac:(lra)) as Q10.
  (* q2 *)
  pose proof (bp_mul _ _ _ _ _ _ BK BD) as B12.
  pose proof (near_mul _ _ _ _ _ _ _ _ NK NTD (bp_fits _ _ _ B12 ltac:(lia) ltac:(lia)) ltac:(lra)) as Q11.
  pose proof (bp_div _ _ _ _ _ _ B12 BT') as B13.
  pose proof (near_div _ _ _ _ _ _ _ Q11 ND' NT (bp_fits _ _ _ B13 ltac:(lia) ltac:(lia)) ltac:(lra)) as Q12.
  (* the sum *)
  pose proof (bp_mul _ _ _ _ _ _ B4 Be) as B14.
  pose proof (near_mul _ _ _ _ _ _ _ _ Q3 Ne (bp_fits _ _ _ B14 ltac:(lia) ltac:(lia)) ltac:(lra)) as Q13.
  pose proof (bp_mul _ _ _ _ _ _ B11 Be1) as B15.
  pose proof (near_mul _ _ _ _ _ _ _ _ Q10 Ne1 (bp_fits _ _ _ B15 ltac:(lia) ltac:(lia)) ltac:(lra)) as Q14.
  pose proof (bp_mul _ _ _ _ _ _ B13 Be2) as B16.
  pose proof (near_mul _ _ _ _ _ _ _ _ Q12 Ne2 (bp_fits _ _ _ B16 ltac:(lia) ltac:(lia)) ltac:(lra)) as Q15.
  pose proof (bp_add _ _ (-31) 114 (bp_more _ _ _ (-31) 114 B14 ltac:(lia) ltac:(lia)) (bp_more _ _ _ (-31) 114 B15 ltac:(lia) ltac:(lia))) as B17.
  pose proof (near_add _ _ _ _ _ _ 14 (near_more _ _ _ _ _ 14 Q13 (Qle_refl _) ltac:(lra) ltac:(lra))
    (near_more _ _ _ _ _ 14 Q14 (Qle_refl _) ltac:(lra) ltac:(lra)) (bp_fits _ _ _ B17 ltac:(lia) ltac:(lia)) ltac:(lra)) as Q16.
  pose proof (bp_add _ _ (-31) 115 (bp_more _ _ _ (-31) 115 B17 ltac:(lia) ltac:(lia)) (bp_more _ _ _ (-31) 115 B16 ltac:(lia) ltac:(lia))) as B18.
  pose proof (near_add _ _ _ _ _ _ 16 (near_more _ _ _ _ _ 16 Q16 (Qle_refl _) ltac:(lra) ltac:(lra))
    (near_more _ _ _ _ _ 16 Q15 (Qle_refl _) ltac:(lra) ltac:(lra)) (bp_fits _ _ _ B18 ltac:(lia) ltac:(lia)) ltac:(lra)) as Q17.
  assert (S : A * (1 + D / Qabs T) * (Qabs x + 1) + A * (1 + 2 * D / Qabs T + 2 * T / Qabs tI) * (Qabs x1 + 1)
     + A * D / Qabs T * (Qabs x2 + 1) == size k tI td T x x1 x2).
  { unfold size, A, D. rewrite AT. field. split; lra. }
  split.
  - apply near_is with (k * (1 + td / T) * x + k * (-1 - 2 * td / T + 2 * T / tI) * x1 + k * td / T * x2); [|unfold change; reflexivity].
    apply near_more with (A * (1 + D / Qabs T) * (Qabs x + 1) + A * (1 + 2 * D / Qabs T + 2 * T / Qabs tI) * (Qabs x1 + 1)
     + A * D / Qabs T * (Qabs x2 + 1)) (16 + 2); [exact Q17|rewrite S; apply Qle_refl|lra|lra].
  - split; [|rewrite <- S; destruct B18; assumption].
    change (p2 0) with 1. unfold size.
    assert (X0 : 0 <= Qabs td / T). { apply Qle_shift_div_l; [exact T0|]. lra. }
    assert (X1 : 0 <= 2 * Qabs td / T). { apply Qle_shift_div_l; [exact T0|]. lra. }
    assert (X2 : 0 <= 2 * T / Qabs tI). { apply Qle_shift_div_l; [exact I0|]. lra. }
    pose proof (abs_pos k). pose proof (abs_pos x). pose proof (abs_pos x1). pose proof (abs_pos x2).
    assert (1 <= (2 + Qabs td / T) * (Qabs x + 1)) by nra.
    assert (0 <= (3 + 2 * Qabs td / T + 2 * T / Qabs tI) * (Qabs x1 + 1)) by (apply Qmult_le_0_compat; lra).
    assert (0 <= (1 + Qabs td / T) * (Qabs x2 + 1)) by (apply Qmult_le_0_compat; lra).
    generalize dependent ((2 + Qabs td / T) * (Qabs x + 1)). generalize dependent ((3 + 2 * Qabs td / T + 2 * T / Qabs tI) * (Qabs x1 + 1)).
    generalize dependent ((1 + Qabs td / T) * (Qabs x2 + 1)). intros c C b B a A1.
    assert (1 <= a + b + c) by lra. assert (1 * 1 <= (Qabs k + 1) * (a + b + c)); [|lra]. apply Qmult_le_compat_nonneg; split; lra.
Qed.
