(** Lemmas about numbers as text: rounding. *)
From Coq Require Import ZArith List Bool Lia QArith Qround Qpower Lqa.
From Verif Require Import Base FTextModel.
Import ListNotations.
Open Scope Q_scope.

(** * Rounding to an integer *)

Lemma rne_cases x : let d := Qfloor x in
  inject_Z d <= x < inject_Z d + 1 /\
  ((rne x = d /\ x - inject_Z d <= 1 # 2) \/ (rne x = (d + 1)%Z /\ 1 # 2 <= x - inject_Z d)).
Proof.
  cbv zeta. split.
  - split; [apply Qfloor_le|]. pose proof (Qlt_floor x) as H. rewrite inject_Z_plus in H. exact H.
  - unfold rne. cbv zeta. destruct (Qcompare_spec (x - inject_Z (Qfloor x)) (1 # 2)) as [E|E|E].
    + destruct (Z.even _); [left|right]; split; try reflexivity; rewrite E; apply Qle_refl.
    + left. split; [reflexivity|]. lra.
    + right. split; [reflexivity|]. lra.
Qed.

Lemma rne_near x : - (1 # 2) <= x - inject_Z (rne x) <= 1 # 2.
Proof.
  destruct (rne_cases x) as [[A B] [[-> C]|[-> C]]]; [|rewrite inject_Z_plus; change (inject_Z 1) with 1]; lra.
Qed.

Lemma int_gap (a b : Z) : inject_Z a < inject_Z b + 1 -> inject_Z b < inject_Z a + 1 -> a = b.
Proof.
  intros H1 H2. change 1 with (inject_Z 1) in *. rewrite <- inject_Z_plus in *.
  rewrite <- Zlt_Qlt in *. lia.
Qed.

Lemma rne_unique x n : - (1 # 2) < x - inject_Z n -> x - inject_Z n < 1 # 2 -> rne x = n.
Proof. intros H1 H2. pose proof (rne_near x) as [A B]. apply int_gap; lra. Qed.

Lemma rne_comp x y : x == y -> rne x = rne y.
Proof.
  intros E. unfold rne. cbv zeta. rewrite (Qfloor_comp _ _ E).
  assert (H : (x - inject_Z (Qfloor y) ?= 1 # 2) = (y - inject_Z (Qfloor y) ?= 1 # 2)) by (rewrite E; reflexivity).
  rewrite H. reflexivity.
Qed.

(** * Powers *)

Lemma qpow_pos b e : 0 < b -> 0 < Qpower b e.
Proof. intros H. apply Qpower_0_lt. exact H. Qed.
Lemma p10_pos e : 0 < p10 e.
Proof. apply qpow_pos. reflexivity. Qed.
Lemma p2_pos e : 0 < p2 e.
Proof. apply qpow_pos. reflexivity. Qed.
Lemma p10_plus a b : p10 (a + b) == p10 a * p10 b.
Proof. unfold p10. apply Qpower_plus. discriminate. Qed.
Lemma p2_plus a b : p2 (a + b) == p2 a * p2 b.
Proof. unfold p2. apply Qpower_plus. discriminate. Qed.
Lemma p10_succ a : p10 (a + 1) == p10 a * 10.
Proof. rewrite p10_plus. reflexivity. Qed.
Lemma p2_inv e : p2 e * p2 (- e) == 1.
Proof. rewrite <- p2_plus. rewrite Z.add_opp_diag_r. reflexivity. Qed.
Lemma p10_inv e : p10 e * p10 (- e) == 1.
Proof. rewrite <- p10_plus. rewrite Z.add_opp_diag_r. reflexivity. Qed.

Lemma qpow_le b a c : 1 <= b -> (a <= c)%Z -> Qpower b a <= Qpower b c.
Proof.
  intros H L. replace c with (a + (c - a))%Z by lia. rewrite Qpower_plus by lra.
  assert (P : 0 < Qpower b a) by (apply qpow_pos; lra).
  assert (G : 1 <= Qpower b (c - a)).
  { destruct (c - a)%Z eqn:E; [apply Qle_refl| |lia]. cbn [Qpower]. clear -H. 
    induction p as [p IH|p IH|]; cbn [Qpower_positive]; simpl; [| |exact H].
    - assert (0 <= Qpower_positive b p) by lra. 
      assert (X : 1 <= Qpower_positive b p * Qpower_positive b p) by nra. nra.
    - nra. }
  nra.
Qed.
Lemma qpow_lt_inv b a c : 1 <= b -> Qpower b a < Qpower b c -> (a < c)%Z.
Proof.
  intros H L. destruct (Z_lt_le_dec a c) as [|G]; [assumption|]. pose proof (qpow_le b c a H G). lra.
Qed.

(** * Exponents *)

Lemma lg_spec b n : 1 <= b -> forall top x, x < Qpower b (top + 1) -> Qpower b (top - Z.of_nat n) <= x ->
  Qpower b (lg b n top x) <= x < Qpower b (lg b n top x + 1).
Proof.
  intros Hb. induction n as [|n IH]; intros top x H1 H2; cbn [lg].
  - replace (top - Z.of_nat 0)%Z with top in H2 by lia. auto.
  - destruct (Qle_bool (Qpower b top) x) eqn:E.
    + apply Qle_bool_iff in E. auto.
    + apply IH.
      * replace (top - 1 + 1)%Z with top by lia. destruct (Qlt_le_dec x (Qpower b top)) as [L|L]; [exact L|].
        apply Qle_bool_iff in L. congruence.
      * replace (top - 1 - Z.of_nat n)%Z with (top - Z.of_nat (S n))%Z by lia. exact H2.
Qed.
Lemma lg_unique b k l x : 1 <= b -> Qpower b k <= x < Qpower b (k + 1) -> Qpower b l <= x < Qpower b (l + 1) -> k = l.
Proof.
  intros Hb [A1 A2] [B1 B2].
  assert (k < l + 1)%Z by (apply (qpow_lt_inv b); [exact Hb|lra]).
  assert (l < k + 1)%Z by (apply (qpow_lt_inv b); [exact Hb|lra]). lia.
Qed.
Lemma lg_is b n top x k : 1 <= b -> (top - Z.of_nat n <= k <= top)%Z -> Qpower b k <= x < Qpower b (k + 1) -> lg b n top x = k.
Proof.
  intros Hb R H. apply (lg_unique b _ _ x Hb); [|exact H]. apply lg_spec; [exact Hb| |].
  - pose proof (qpow_le b (k + 1) (top + 1) Hb ltac:(lia)). lra.
  - pose proof (qpow_le b (top - Z.of_nat n) k Hb ltac:(lia)). lra.
Qed.
Lemma lg_comp b n x y : x == y -> forall top, lg b n top x = lg b n top y.
Proof.
  intros E. induction n as [|n IH]; intros top; cbn [lg]; [reflexivity|].
  rewrite (Qleb_comp _ _ (Qeq_refl (Qpower b top)) _ _ E). rewrite IH. reflexivity.
Qed.

Lemma dec6_comp x y : x == y -> dec6 x = dec6 y.
Proof.
  intros E. unfold dec6. cbv zeta. rewrite (lg_comp 10 90 x y E). 
  rewrite (rne_comp (x * p10 (5 - lg 10 90 40 y)) (y * p10 (5 - lg 10 90 40 y))); [reflexivity|]. rewrite E. reflexivity.
Qed.
Lemma nearest_comp x y : x == y -> nearest x = nearest y.
Proof.
  intros E. unfold nearest. cbv zeta. rewrite (lg_comp 2 300 x y E).
  set (e := if (_ <? -149)%Z then _ else _). rewrite (rne_comp (x * p2 (- e)) (y * p2 (- e))); [reflexivity|]. rewrite E. reflexivity.
Qed.

(** * Six digits *)

Definition dval (dk : Z * Z) : Q := inject_Z (fst dk) * p10 (snd dk - 5).
Definition six (d : Z) : Prop := (100000 <= d < 1000000)%Z.

Lemma p10_5 k : p10 k == p10 (k - 5) * 100000.
Proof. replace k with (k - 5 + 5)%Z at 1 by lia. rewrite p10_plus. reflexivity. Qed.
Lemma p10_6 k : p10 (k + 1) == p10 (k - 5) * 1000000.
Proof. replace (k + 1)%Z with (k - 5 + 6)%Z at 1 by lia. rewrite p10_plus. reflexivity. Qed.

Lemma scaled x k d : x * p10 (5 - k) - inject_Z d == (x - inject_Z d * p10 (k - 5)) * p10 (5 - k).
Proof.
  replace (5 - k)%Z with (- (k - 5))%Z by lia. pose proof (p10_inv (k - 5)) as I.
  setoid_replace ((x - inject_Z d * p10 (k - 5)) * p10 (- (k - 5))) with (x * p10 (- (k - 5)) - inject_Z d * (p10 (k - 5) * p10 (- (k - 5)))) by ring.
  rewrite I. ring.
Qed.

Definition wide (x : Q) : Prop := p10 (-50) <= x /\ x < p10 41.

(** The digits are at most half a unit away. *)
Lemma dec6_spec x : wide x -> let k := lg 10 90 40 x in
  p10 k <= x < p10 (k + 1) /\ six (fst (dec6 x)) /\
  - (p10 (k - 5) * (1 # 2)) <= x - dval (dec6 x) <= p10 (k - 5) * (1 # 2) /\
  (dec6 x = (rne (x * p10 (5 - k)), k) \/ dec6 x = (100000%Z, (k + 1)%Z) /\ rne (x * p10 (5 - k)) = 1000000%Z).
Proof.
  intros [W1 W2] k. assert (L : p10 k <= x < p10 (k + 1)).
  { apply lg_spec; [discriminate|exact W2|]. exact W1. }
  split; [exact L|].
  pose proof (rne_near (x * p10 (5 - k))) as R. rewrite scaled in R. set (d := rne (x * p10 (5 - k))) in *.
  pose proof (p10_pos (k - 5)) as P. pose proof (p10_pos (5 - k)) as P'.
  assert (I : p10 (k - 5) * p10 (5 - k) == 1) by (rewrite <- p10_plus; replace (k - 5 + (5 - k))%Z with 0%Z by lia; reflexivity).
  assert (N : - (p10 (k - 5) * (1 # 2)) <= x - inject_Z d * p10 (k - 5) <= p10 (k - 5) * (1 # 2)).
  { set (t := x - inject_Z d * p10 (k - 5)) in *. set (u := p10 (k - 5)) in *. set (v := p10 (5 - k)) in *.
    assert (E : t == (t * v) * u) by (setoid_replace (t * v * u) with (t * (u * v)) by ring; rewrite I; ring).
    destruct R as [R1 R2]. split; rewrite E; nra. }
  rewrite p10_5, p10_6 in L. destruct L as [L1 L2]. destruct N as [N1 N2].
  assert (D : (100000 <= d <= 1000000)%Z).
  { set (u := p10 (k - 5)) in *. split.
    - destruct (Z_lt_le_dec d 100000) as [H|H]; [|exact H]. exfalso.
      assert (inject_Z d <= 99999) by (change 99999 with (inject_Z 99999); rewrite <- Zle_Qle; lia). nra.
    - destruct (Z_le_gt_dec d 1000000) as [H|H]; [exact H|]. exfalso.
      assert (1000001 <= inject_Z d) by (change 1000001 with (inject_Z 1000001); rewrite <- Zle_Qle; lia). nra. }
  unfold dec6. cbv zeta. fold k. fold d. destruct (Z.eqb_spec d 1000000) as [E|E]; cbn [fst snd].
  - split; [unfold six; lia|]. split.
    + unfold dval. cbn [fst snd]. replace (k + 1 - 5)%Z with (k - 5 + 1)%Z by lia. rewrite p10_succ.
      rewrite E in N1, N2. change (inject_Z 1000000) with 1000000 in *. change (inject_Z 100000) with 100000. lra.
    + auto.
  - split; [unfold six; lia|]. split; [unfold dval; cbn [fst snd]; lra|]. auto.
Qed.

Lemma dec6_is x d k : six d -> (-50 <= k <= 39)%Z -> p10 k <= x < p10 (k + 1) ->
  - (1 # 2) < x * p10 (5 - k) - inject_Z d -> x * p10 (5 - k) - inject_Z d < 1 # 2 -> dec6 x = (d, k).
Proof.
  intros S K L H1 H2. unfold dec6. cbv zeta.
  rewrite (lg_is 10 90 40 x k) by (try discriminate; try lia; exact L).
  rewrite (rne_unique _ d H1 H2). unfold six in S. replace (d =? 1000000)%Z with false by lia. reflexivity.
Qed.
Lemma dec6_carry x k : (-50 <= k <= 39)%Z -> p10 k <= x < p10 (k + 1) ->
  - (1 # 2) < x * p10 (5 - k) - 1000000 -> x * p10 (5 - k) - 1000000 < 1 # 2 -> dec6 x = (100000%Z, (k + 1)%Z).
Proof.
  intros K L H1 H2. unfold dec6. cbv zeta.
  rewrite (lg_is 10 90 40 x k) by (try discriminate; try lia; exact L).
  rewrite (rne_unique _ 1000000 H1 H2). reflexivity.
Qed.

(** A value close enough to six digits has these digits. *)
Lemma dec6_close y d k : six d -> (-49 <= k <= 39)%Z ->
  let u := p10 (k - 5) in
  - (u * (1 # 14)) <= y - inject_Z d * u <= u * (1 # 14) ->
  (y < p10 k -> - (u * (1 # 14)) * (1 # 10) <= y - inject_Z d * u) ->
  dec6 y = (d, k).
Proof.
  intros S K u [C1 C2] C3. unfold six in S.
  assert (D1 : 100000 <= inject_Z d) by (change 100000 with (inject_Z 100000); rewrite <- Zle_Qle; lia).
  assert (D2 : inject_Z d <= 999999) by (change 999999 with (inject_Z 999999); rewrite <- Zle_Qle; lia).
  pose proof (p10_pos (k - 5)) as P. fold u in P.
  assert (K1 : p10 k == u * 100000) by apply p10_5.
  assert (K2 : p10 (k + 1) == u * 1000000) by apply p10_6.
  assert (I : u * p10 (5 - k) == 1) by (unfold u; rewrite <- p10_plus; replace (k - 5 + (5 - k))%Z with 0%Z by lia; reflexivity).
  pose proof (p10_pos (5 - k)) as P'. 
  destruct (Qlt_le_dec y (p10 k)) as [B|B].
  - specialize (C3 B).
    assert (d = 100000)%Z as ->.
    { destruct (Z.eq_dec d 100000) as [|N]; [assumption|]. exfalso.
      assert (100001 <= inject_Z d) by (change 100001 with (inject_Z 100001); rewrite <- Zle_Qle; lia). nra. }
    change (inject_Z 100000) with 100000 in *. replace k with (k - 1 + 1)%Z at 1 by lia.
    assert (E : dec6 y = (100000%Z, (k - 1 + 1)%Z)).
    { assert (V : p10 (5 - (k - 1)) == p10 (5 - k) * 10) by (replace (5 - (k - 1))%Z with (5 - k + 1)%Z by lia; apply p10_succ).
      apply dec6_carry; [lia| | |].
      - split; [|replace (k - 1 + 1)%Z with k by lia; exact B].
        assert (X : p10 k == p10 (k - 1) * 10) by (replace k with (k - 1 + 1)%Z at 1 by lia; apply p10_succ).
        nra.
      - rewrite V. set (v := p10 (5 - k)) in *.
        setoid_replace (y * (v * 10) - 1000000) with ((y - 100000 * u) * v * 10 + 1000000 * (u * v) - 1000000) by ring.
        rewrite I. assert (- (1 # 140) <= (y - 100000 * u) * v).
        { setoid_replace (- (1 # 140)) with (- (u * (1 # 14)) * (1 # 10) * v)
            by (setoid_replace (- (u * (1 # 14)) * (1 # 10) * v) with (- (1 # 140) * (u * v)) by ring; rewrite I; ring).
          nra. }
        lra.
      - rewrite V. set (v := p10 (5 - k)) in *.
        setoid_replace (y * (v * 10) - 1000000) with ((y - 100000 * u) * v * 10 + 1000000 * (u * v) - 1000000) by ring.
        rewrite I. assert ((y - 100000 * u) * v <= 0) by nra. lra. }
    rewrite E. f_equal.
  - apply dec6_is; [exact S|lia|split; [exact B|nra]| |].
    + rewrite scaled. fold u. set (t := y - inject_Z d * u) in *. set (v := p10 (5 - k)) in *.
      assert (- (1 # 14) <= t * v).
      { setoid_replace (- (1 # 14)) with (- (u * (1 # 14)) * v)
          by (setoid_replace (- (u * (1 # 14)) * v) with (- (1 # 14) * (u * v)) by ring; rewrite I; ring). nra. }
      lra.
    + rewrite scaled. fold u. set (t := y - inject_Z d * u) in *. set (v := p10 (5 - k)) in *.
      assert (t * v <= 1 # 14).
      { setoid_replace (1 # 14) with (u * (1 # 14) * v)
          by (setoid_replace (u * (1 # 14) * v) with ((1 # 14) * (u * v)) by ring; rewrite I; ring). nra. }
      lra.
Qed.

(** * Floats *)

Lemma p2_Z n : (0 <= n)%Z -> p2 n == inject_Z (2 ^ n).
Proof.
  intros H. unfold p2. destruct n as [|p|p]; [reflexivity| |lia]. 
  change 2 with (inject_Z 2). rewrite <- Zpower_Qpower by lia. reflexivity.
Qed.

(** The float with significand [m] and exponent [e]. *)
Definition mk (e m : Z) : Z := ((e + 149) * 2 ^ 23 + m)%Z.

Lemma mk_val e m : (-149 <= e <= 104)%Z -> (0 <= m <= 2 ^ 24)%Z -> (e = -149 \/ 2 ^ 23 <= m)%Z ->
  (f_mag (mk e m) = mk e m)%Z /\ f_abs (mk e m) == inject_Z m * p2 e.
Proof.
  intros E M N. assert (B : (0 <= mk e m < 2 ^ 31)%Z) by (unfold mk; lia).
  assert (F : f_mag (mk e m) = mk e m) by (unfold f_mag; apply Z.mod_small; exact B).
  split; [exact F|]. unfold f_abs, f_m, f_e. rewrite F. cbv zeta.
  assert (C : (m < 2 ^ 23 \/ 2 ^ 23 <= m < 2 ^ 24 \/ m = 2 ^ 24)%Z) by lia. unfold mk in *. destruct C as [C|[C|C]].
  - assert (e = -149)%Z as -> by lia. replace ((-149 + 149) * 2 ^ 23 + m)%Z with m by lia.
    rewrite Z.div_small, Z.mod_small by lia. reflexivity.
  - replace ((e + 149) * 2 ^ 23 + m)%Z with ((m - 2 ^ 23) + (e + 150) * 2 ^ 23)%Z by lia.
    rewrite Z.div_add, Z.mod_add, Z.div_small, Z.mod_small by lia.
    replace (0 + (e + 150) =? 0)%Z with false by lia.
    replace (2 ^ 23 + (m - 2 ^ 23))%Z with m by lia. replace (0 + (e + 150) - 150)%Z with e by lia. reflexivity.
  - subst m. replace ((e + 149) * 2 ^ 23 + 2 ^ 24)%Z with (0 + (e + 151) * 2 ^ 23)%Z by lia.
    rewrite Z.div_add, Z.mod_add, Z.div_small, Z.mod_small by lia.
    replace (0 + (e + 151) =? 0)%Z with false by lia. replace (0 + (e + 151) - 150)%Z with (e + 1)%Z by lia.
    rewrite p2_plus. change (p2 1) with 2. change (inject_Z (2 ^ 23 + 0)) with 8388608. change (inject_Z (2 ^ 24)) with 16777216. ring.
Qed.

(** Every finite float has that form. *)
Lemma f_mk b : f_finite b = true ->
  let e := f_e b in let m := f_m b in
  (-149 <= e <= 104)%Z /\ (0 <= m < 2 ^ 24)%Z /\ (e = -149 \/ 2 ^ 23 <= m)%Z /\ f_mag b = mk e m.
Proof.
  intros F. cbv zeta. unfold f_finite, f_e, f_m, mk in *. 
  assert (R : (0 <= f_mag b < 255 * 2 ^ 23)%Z).
  { split; [unfold f_mag; apply Z.mod_pos_bound; lia|lia]. }
  set (x := f_mag b) in *. clearbody x. clear F b.
  pose proof (Z.div_mod x (2 ^ 23) ltac:(lia)) as DM. pose proof (Z.mod_pos_bound x (2 ^ 23) ltac:(lia)) as MB.
  assert (0 <= x / 2 ^ 23 < 255)%Z.
  { split; [apply Z.div_pos; lia|apply Z.div_lt_upper_bound; lia]. }
  destruct (Z.eqb_spec (x / 2 ^ 23) 0) as [E|E]; lia.
Qed.

Lemma nearest_spec x : p2 (-173) <= x < p2 128 ->
  exists e m, nearest x = mk e m /\ (-149 <= e <= 104)%Z /\ (0 <= m <= 2 ^ 24)%Z /\ (e = -149 \/ 2 ^ 23 <= m)%Z /\
    (e = (-149)%Z \/ p2 (e + 23) <= x) /\ x < p2 (e + 24) /\ m = rne (x * p2 (- e)) /\
    - (p2 e * (1 # 2)) <= x - inject_Z m * p2 e <= p2 e * (1 # 2).
Proof.
  intros [W1 W2]. pose proof (lg_spec 2 300 ltac:(discriminate) 127 x W2 W1) as L. unfold nearest. cbv zeta.
  set (l := lg 2 300 127 x) in *. fold (p2 l) in L. fold (p2 (l + 1)) in L. destruct L as [L1 L2].
  assert (TOP : (l <= 127)%Z).
  { assert (l < 128)%Z; [|lia]. apply (qpow_lt_inv 2); [discriminate|]. fold (p2 l). fold (p2 128). lra. }
  set (e := if (l - 23 <? -149)%Z then (-149)%Z else (l - 23)%Z).
  assert (E : (-149 <= e <= 104)%Z) by (unfold e; destruct (_ <? _)%Z eqn:?; lia).
  assert (E1 : e = (-149)%Z \/ p2 (e + 23) <= x).
  { unfold e. destruct (_ <? _)%Z; [auto|]. right. replace (l - 23 + 23)%Z with l by lia. exact L1. }
  assert (E2 : x < p2 (e + 24)).
  { assert (p2 (l + 1) <= p2 (e + 24)); [|lra]. apply qpow_le; [discriminate|]. unfold e. destruct (_ <? _)%Z eqn:?; lia. }
  clearbody e. clear l L1 L2 TOP.
  set (m := rne (x * p2 (- e))). exists e, m. split; [reflexivity|]. split; [exact E|].
  pose proof (rne_near (x * p2 (- e))) as R. fold m in R. destruct R as [R1 R2].
  pose proof (p2_inv e) as I. pose proof (p2_pos e) as P. pose proof (p2_pos (- e)) as P'.
  assert (X1 : x * p2 (- e) < 16777216).
  { rewrite p2_plus in E2. change (p2 24) with 16777216 in E2.
    setoid_replace 16777216 with (16777216 * (p2 e * p2 (- e))) by (rewrite I; reflexivity). nra. }
  assert (X0 : 0 < x * p2 (- e)) by (pose proof (p2_pos (-173)); nra).
  assert (M : (0 <= m <= 2 ^ 24)%Z).
  { split.
    - destruct (Z_lt_le_dec m 0) as [G|G]; [|exact G]. exfalso.
      assert (inject_Z m <= -1) by (change (-1) with (inject_Z (-1)); rewrite <- Zle_Qle; lia). lra.
    - destruct (Z_le_gt_dec m (2 ^ 24)) as [G|G]; [exact G|]. exfalso.
      assert (16777217 <= inject_Z m) by (change 16777217 with (inject_Z 16777217); rewrite <- Zle_Qle; lia). lra. }
  split; [exact M|]. split.
  { destruct E1 as [E1|E1]; [left; exact E1|right].
    assert (Y : 8388608 <= x * p2 (- e)).
    { rewrite p2_plus in E1. change (p2 23) with 8388608 in E1.
      setoid_replace 8388608 with (8388608 * (p2 e * p2 (- e))) by (rewrite I; reflexivity). nra. }
    destruct (Z_lt_le_dec m (2 ^ 23)) as [G|G]; [|exact G]. exfalso.
    assert (inject_Z m <= 8388607) by (change 8388607 with (inject_Z 8388607); rewrite <- Zle_Qle; lia). lra. }
  split; [exact E1|]. split; [exact E2|]. split; [reflexivity|].
  assert (T : x - inject_Z m * p2 e == (x * p2 (- e) - inject_Z m) * p2 e).
  { setoid_replace ((x * p2 (- e) - inject_Z m) * p2 e) with (x * (p2 e * p2 (- e)) - inject_Z m * p2 e) by ring. rewrite I. ring. }
  rewrite T. split; nra.
Qed.

Lemma nearest_is x n : p2 (-173) <= x -> x < p2 (-126) ->
  - (p2 (-149) * (1 # 2)) < x - inject_Z n * p2 (-149) -> x - inject_Z n * p2 (-149) < p2 (-149) * (1 # 2) ->
  nearest x = n.
Proof.
  intros H1 H3 H4 H5.
  assert (H6 : x < p2 128) by (pose proof (qpow_le 2 (-126) 128 ltac:(discriminate) ltac:(lia)) as X; fold (p2 (-126)) in X; fold (p2 128) in X; lra).
  destruct (nearest_spec x (conj H1 H6)) as (e & m & -> & E & M & N & E1 & E2 & RM & C).
  assert (e = -149)%Z as ->.
  { destruct E1 as [E1|E1]; [exact E1|]. assert (e + 23 < -126)%Z; [|lia].
    apply (qpow_lt_inv 2); [discriminate|]. fold (p2 (e + 23)). fold (p2 (-126)). lra. }
  unfold mk. replace ((-149 + 149) * 2 ^ 23 + m)%Z with m by lia.
  pose proof (p2_pos (-149)) as P. destruct C as [C1 C2]. apply int_gap; nra.
Qed.

(** Six digits in the normal range survive the conversion to a float. *)
Lemma six_digits d k : six d -> (-49 <= k <= 39)%Z ->
  p2 (-126) <= dval (d, k) < p2 128 -> dec6 (f_abs (nearest (dval (d, k)))) = (d, k).
Proof.
  intros S K [W1 W2]. unfold dval in *. cbn [fst snd] in *. set (u := p10 (k - 5)) in *.
  assert (P : 0 < u) by apply p10_pos. set (x := inject_Z d * u) in *.
  assert (D1 : 100000 * u <= x).
  { assert (100000 <= inject_Z d) by (change 100000 with (inject_Z 100000); rewrite <- Zle_Qle; unfold six in S; lia). unfold x. nra. }
  assert (D2 : x <= 999999 * u).
  { assert (inject_Z d <= 999999) by (change 999999 with (inject_Z 999999); rewrite <- Zle_Qle; unfold six in S; lia). unfold x. nra. }
  destruct (nearest_spec x) as (e & m & -> & E & M & N & E1 & E2 & RM & C1 & C2).
  { split; [|exact W2]. pose proof (qpow_le 2 (-173) (-126) ltac:(discriminate) ltac:(lia)) as X. fold (p2 (-126)) in X. fold (p2 (-173)) in X. lra. }
  destruct (mk_val e m E M N) as [_ V]. rewrite (dec6_comp _ _ V). set (y := inject_Z m * p2 e) in *.
  assert (Z : p2 e * 8388608 <= x).
  { destruct E1 as [E1|E1].
    - subst e. change (p2 (-126)) with (p2 (-149 + 23)) in W1. rewrite p2_plus in W1. exact W1.
    - rewrite p2_plus in E1. exact E1. }
  assert (K1 : p10 k == u * 100000) by apply p10_5.
  apply dec6_close; [exact S|exact K| |]; fold u; fold x.
  - split; lra.
  - intros L. lra.
Qed.

Lemma p10_le a c : (a <= c)%Z -> p10 a <= p10 c.
Proof. apply qpow_le. discriminate. Qed.
Lemma p2_le a c : (a <= c)%Z -> p2 a <= p2 c.
Proof. apply qpow_le. discriminate. Qed.

(** The positive finite floats. *)
Definition positive (b : Z) : Prop := f_finite b = true /\ (0 < f_mag b)%Z.

Lemma positive_range b : positive b ->
  p2 (-149) <= f_abs b <= inject_Z (2 ^ 24 - 1) * p2 104 /\ wide (f_abs b) /\
  exists e m, (-149 <= e <= 104)%Z /\ (0 < m < 2 ^ 24)%Z /\ (e = -149 \/ 2 ^ 23 <= m)%Z /\ f_mag b = mk e m /\ f_abs b = inject_Z m * p2 e.
Proof.
  intros [F P]. destruct (f_mk b F) as (E & M & N & B). 
  assert (M0 : (0 < f_m b)%Z) by (unfold mk in B; lia).
  assert (X : p2 (-149) <= f_abs b <= inject_Z (2 ^ 24 - 1) * p2 104).
  { unfold f_abs. pose proof (p2_le (-149) (f_e b) ltac:(lia)). pose proof (p2_le (f_e b) 104 ltac:(lia)).
    assert (1 <= inject_Z (f_m b)) by (change 1 with (inject_Z 1); rewrite <- Zle_Qle; lia).
    assert (inject_Z (f_m b) <= inject_Z (2 ^ 24 - 1)) by (rewrite <- Zle_Qle; lia).
    pose proof (p2_pos (-149)). change (inject_Z (2 ^ 24 - 1)) with 16777215 in *. split; nra. }
  split; [exact X|]. split.
  - split.
    + apply Qle_trans with (p2 (-149)); [vm_compute; discriminate|exact (proj1 X)].
    + apply Qle_lt_trans with (inject_Z (2 ^ 24 - 1) * p2 104); [exact (proj2 X)|vm_compute; reflexivity].
  - exists (f_e b), (f_m b). repeat split; try assumption; try lia; try (apply M0 || apply M).
Qed.

Lemma dec6_bounds x : wide x -> let k := lg 10 90 40 x in
  p10 k <= dval (dec6 x) <= p10 (k + 1) /\ (snd (dec6 x) = k \/ snd (dec6 x) = k + 1)%Z.
Proof.
  intros W. cbv zeta. destruct (dec6_spec x W) as ([L1 L2] & S & _ & C). set (k := lg 10 90 40 x) in *.
  assert (U : p10 k == p10 (k - 5) * 100000) by apply p10_5. pose proof (p10_pos (k - 5)) as P.
  assert (U2 : p10 (k + 1) == p10 (k - 5) * 1000000) by apply p10_6.
  rewrite U, U2. unfold dval. destruct C as [C|[C _]]; rewrite C in *; cbn [fst snd] in *; clear C.
  - destruct S as [S1 S2]. rewrite Zle_Qle in S1. rewrite Zlt_Qlt in S2. change (inject_Z 100000) with 100000 in S1.
    change (inject_Z 1000000) with 1000000 in S2. split; [split; nra|auto].
  - replace (k + 1 - 5)%Z with (k - 5 + 1)%Z by lia. rewrite p10_succ. change (inject_Z 100000) with 100000. split; [split; lra|auto].
Qed.

Lemma dec6_top b : positive b -> p10 (-50) <= dval (dec6 (f_abs b)) < inject_Z (2 ^ 24 - 1) * p2 104 /\
  (-49 <= snd (dec6 (f_abs b)) <= 38)%Z.
Proof.
  intros Hb. destruct (positive_range b Hb) as ([X1 X2] & W & _). set (x := f_abs b) in *.
  destruct (dec6_spec x W) as ([L1 L2] & S & [N1 N2] & C). set (k := lg 10 90 40 x) in *.
  assert (K : (-46 < k < 39)%Z).
  { split.
    - assert (-45 < k + 1)%Z; [|lia]. apply (qpow_lt_inv 10); [discriminate|]. fold (p10 (k + 1)).
      apply Qlt_trans with (p2 (-149)); [reflexivity|]. lra.
    - apply (qpow_lt_inv 10); [discriminate|]. fold (p10 k). apply Qle_lt_trans with x; [exact L1|].
      apply Qle_lt_trans with (inject_Z (2 ^ 24 - 1) * p2 104); [exact X2|vm_compute; reflexivity]. }
  assert (U : p10 k == p10 (k - 5) * 100000) by apply p10_5. pose proof (p10_pos (k - 5)) as P.
  destruct (dec6_bounds x W) as [[LOW UP] KK]. fold k in LOW, UP, KK.
  assert (HIGH : dval (dec6 x) < inject_Z (2 ^ 24 - 1) * p2 104 /\ (snd (dec6 x) <= 38)%Z).
  { destruct (Z.eq_dec k 38) as [E|E].
    - rewrite E in *. destruct C as [C|[C1 C2]].
      + rewrite C in *. unfold dval in *. cbn [fst snd] in *. split; [|lia]. set (r := rne _) in *.
        assert (R : (r <= 340282)%Z).
        { destruct (Z_le_gt_dec r 340282) as [|G]; [assumption|]. exfalso.
          assert (G2 : 340283 <= inject_Z r) by (change 340283 with (inject_Z 340283); rewrite <- Zle_Qle; lia).
          assert (G3 : 340283 * p10 (38 - 5) <= inject_Z r * p10 (38 - 5)) by nra.
          assert (G4 : inject_Z (2 ^ 24 - 1) * p2 104 < 340283 * p10 (38 - 5) - p10 (38 - 5) * (1 # 2)) by (vm_compute; reflexivity). lra. }
        assert (G2 : inject_Z r <= 340282) by (change 340282 with (inject_Z 340282); rewrite <- Zle_Qle; lia).
        apply Qle_lt_trans with (340282 * p10 (38 - 5)); [nra|vm_compute; reflexivity].
      + exfalso. rewrite C1 in *. unfold dval in *. cbn [fst snd] in *.
        assert (G4 : inject_Z (2 ^ 24 - 1) * p2 104 < inject_Z 100000 * p10 (38 + 1 - 5) - p10 (38 - 5) * (1 # 2)) by (vm_compute; reflexivity). lra.
    - split.
      + apply Qle_lt_trans with (p10 (k + 1)); [exact UP|]. apply Qle_lt_trans with (p10 38); [apply p10_le; lia|vm_compute; reflexivity].
      + lia. }
  split; [split; [|apply HIGH]|split; [|apply HIGH]].
  - apply Qle_trans with (p10 k); [apply p10_le; lia|exact LOW].
  - lia.
Qed.

(** Text read back prints as the same text again. *)
Lemma stable b : positive b ->
  let r := nearest (dval (dec6 (f_abs b))) in
  positive r /\ f_mag r = r /\ dec6 (f_abs r) = dec6 (f_abs b).
Proof.
  intros Hb. cbv zeta. destruct (dec6_top b Hb) as ([T1 T2] & K).
  destruct (positive_range b Hb) as ([X1 X2] & W & (e0 & m0 & E0 & M0 & N0 & B0 & V0)).
  destruct (dec6_spec (f_abs b) W) as (L & S & N & C). set (x := f_abs b) in *. set (dk := dec6 x) in *.
  set (v := dval dk) in *.
  assert (RNG : p2 (-173) <= v < p2 128).
  { split.
    - apply Qle_trans with (p10 (-50)); [vm_compute; discriminate|exact T1].
    - apply Qlt_trans with (inject_Z (2 ^ 24 - 1) * p2 104); [exact T2|vm_compute; reflexivity]. }
  destruct (nearest_spec v RNG) as (e & m & NE & E & M & N3 & E1 & E2 & RM & C1 & C2).
  destruct (mk_val e m E M N3) as [MG VAL].
  assert (FIN : (0 < mk e m < 255 * 2 ^ 23)%Z).
  { assert (T3 : v < p2 104 * 16777215) by (rewrite Qmult_comm; exact T2).
    split.
    - assert (0 <> m)%Z.
      { intros <-. assert (e = -149)%Z as -> by lia. change (inject_Z 0) with 0 in *.
        (* v at least half of 2^-149 plus something: x >= 2^-149 *)
        assert (v <= p2 (-149) * (1 # 2)) by lra.
        set (k := lg 10 90 40 x) in *. destruct L as [L1 L2]. destruct N as [N1 N2].
        assert (K10 : p10 k == p10 (k - 5) * 100000) by apply p10_5. pose proof (p10_pos (k - 5)). lra. }
      unfold mk. lia.
    - assert (Y : (e < 104)%Z \/ (e = 104 /\ m < 2 ^ 24)%Z).
      { destruct (Z.eq_dec e 104) as [->|]; [right|left; lia]. split; [reflexivity|].
        destruct (Z_lt_le_dec m (2 ^ 24)) as [|G]; [assumption|]. exfalso.
        assert (16777216 <= inject_Z m) by (change 16777216 with (inject_Z 16777216); rewrite <- Zle_Qle; lia).
        pose proof (p2_pos 104). nra. }
      unfold mk. lia. }
  rewrite NE. split; [split; [unfold f_finite; rewrite MG; lia|rewrite MG; lia]|]. split; [exact MG|].
  destruct (Qlt_le_dec v (p2 (-126))) as [SUB|NORM].
  2: { rewrite <- NE. unfold v. rewrite (surjective_pairing dk). apply six_digits; [exact S|lia|].
       rewrite <- surjective_pairing. split; [exact NORM|apply RNG]. }
  assert (e = -149)%Z as ->.
  { destruct E1 as [E1|E1]; [exact E1|]. assert (e + 23 < -126)%Z; [|lia].
    apply (qpow_lt_inv 2); [discriminate|]. fold (p2 (e + 23)). fold (p2 (-126)). lra. }
  set (k := lg 10 90 40 x) in *. destruct L as [L1 L2]. destruct N as [N1 N2].
  destruct (Z_le_gt_dec k (-40)) as [SMALL|BIG].
  - (* the float itself comes back *)
    assert (U : p10 (k - 5) <= p10 (-45)) by (apply p10_le; lia).
    assert (U2 : p10 (-45) * (1 # 2) < p2 (-149) * (1 # 2)) by (vm_compute; reflexivity).
    assert (XS : exists n, x == inject_Z n * p2 (-149) /\ f_mag b = n /\ (0 <= n)%Z).
    { (* x below 2^-126 + : significand times 2^-149 *)
      assert (e0 = -149 \/ e0 = -148 \/ -147 <= e0)%Z as [H|[H|H]] by lia.
      - exists m0. rewrite V0, H. split; [reflexivity|]. rewrite B0, H. unfold mk. lia.
      - exfalso. subst e0. rewrite V0 in *.
        assert (8388608 <= inject_Z m0) by (change 8388608 with (inject_Z 8388608); rewrite <- Zle_Qle; lia).
        assert (Y : 8388608 * p2 (-148) <= inject_Z m0 * p2 (-148)) by (pose proof (p2_pos (-148)); nra).
        assert (Y2 : p2 (-126) + p10 (-45) < 8388608 * p2 (-148)) by (vm_compute; reflexivity). lra.
      - exfalso. rewrite V0 in *.
        assert (8388608 <= inject_Z m0) by (change 8388608 with (inject_Z 8388608); rewrite <- Zle_Qle; lia).
        pose proof (p2_le (-147) e0 H) as HH.
        assert (Y : 8388608 * p2 (-147) <= inject_Z m0 * p2 e0) by (pose proof (p2_pos (-147)); nra).
        assert (Y2 : p2 (-126) + p10 (-45) < 8388608 * p2 (-147)) by (vm_compute; reflexivity). lra. }
    destruct XS as (n & XN & BN & N0').
    assert (EN : nearest v = n) by (apply nearest_is; [apply RNG|exact SUB|lra|lra]).
    rewrite <- NE, EN. unfold dk, x. rewrite <- BN. f_equal. unfold f_abs, f_m, f_e.
    assert (G : f_mag (f_mag b) = f_mag b) by (unfold f_mag; apply Z.mod_mod; lia). rewrite G. reflexivity.
  - (* six digits are coarser than the floats *)
    assert (K2 : (snd dk = -39 \/ snd dk = -38)%Z).
    { assert (k < -37)%Z.
      { apply (qpow_lt_inv 10); [discriminate|]. fold (p10 k).
        destruct (dec6_bounds x W) as [[LOW _] _]. fold k in LOW. fold dk in LOW. fold v in LOW.
        apply Qle_lt_trans with v; [exact LOW|]. apply Qlt_trans with (p2 (-126)); [exact SUB|vm_compute; reflexivity]. }
      assert (snd dk = k \/ snd dk = k + 1)%Z by (apply (dec6_bounds x W)).
      assert (snd dk <= -38)%Z; [|lia].
      assert (snd dk < -37)%Z; [|lia]. apply (qpow_lt_inv 10); [discriminate|]. fold (p10 (snd dk)).
      apply Qle_lt_trans with v; [|apply Qlt_trans with (p2 (-126)); [exact SUB|vm_compute; reflexivity]].
      unfold v, dval. rewrite p10_5. destruct S as [S _]. rewrite Zle_Qle in S. change (inject_Z 100000) with 100000 in S.
      pose proof (p10_pos (snd dk - 5)). nra. }
    rewrite (dec6_comp _ _ VAL). rewrite (surjective_pairing dk). set (y := inject_Z m * p2 (-149)) in *.
    assert (VD : v = inject_Z (fst dk) * p10 (snd dk - 5)) by reflexivity.
    apply dec6_close; [exact S|lia| |].
    + rewrite <- VD. destruct K2 as [K2|K2]; rewrite K2.
      * assert (H : p2 (-149) * (1 # 2) <= p10 (-39 - 5) * (1 # 14)) by (vm_compute; discriminate). split; lra.
      * assert (H : p2 (-149) * (1 # 2) <= p10 (-38 - 5) * (1 # 14)) by (vm_compute; discriminate). split; lra.
    + rewrite <- VD. intros Y. destruct K2 as [K2|K2]; rewrite K2 in *.
      * exfalso.
        assert (D : fst dk = 100000%Z).
        { destruct (Z.eq_dec (fst dk) 100000) as [|NE2]; [assumption|]. exfalso. unfold six in S.
          assert (G : 100001 <= inject_Z (fst dk)) by (change 100001 with (inject_Z 100001); rewrite <- Zle_Qle; lia).
          assert (G2 : 100001 * p10 (-39 - 5) <= v) by (rewrite VD; pose proof (p10_pos (-39 - 5)); nra).
          assert (G3 : p10 (-39) + p2 (-149) * (1 # 2) < 100001 * p10 (-39 - 5)) by (vm_compute; reflexivity). lra. }
        assert (VV : nearest v = 713624%Z) by (rewrite VD, D; vm_compute; reflexivity).
        rewrite NE in VV. unfold mk in VV. assert (M7 : m = 713624%Z) by lia.
        assert (G : p10 (-39) < inject_Z 713624 * p2 (-149)) by (vm_compute; reflexivity). unfold y in Y. rewrite M7 in Y.
        exact (Qlt_irrefl _ (Qlt_trans _ _ _ G Y)).
      * assert (H : p2 (-149) * (1 # 2) <= p10 (-38 - 5) * (1 # 14) * (1 # 10)) by (vm_compute; discriminate). lra.
Qed.
