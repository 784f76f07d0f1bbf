(** The model of sensors with IO-Link against the specification. *)
From Coq Require Import ZArith List Bool Lia QArith Qabs Lqa.
From Verif Require Import Base FTextModel FloatModel FloatProofs3 AioProofs AioProofs2 SenModel SenSpec.
Import ListNotations.
Open Scope Z_scope.

(** * Numbers *)

Lemma sgn_spec n x : 0 < n -> 0 <= x < 2 ^ n -> sgn n x = with_sign n x.
Proof.
  intros N X. unfold sgn, with_sign. assert (P : 2 ^ n = 2 * 2 ^ (n - 1)) by (rewrite <- Z.pow_succ_r by lia; f_equal; lia).
  destruct (x <? 2 ^ (n - 1)) eqn:E.
  - rewrite Z.mod_small by lia. lia.
  - replace (x + 2 ^ (n - 1)) with ((x - 2 ^ (n - 1)) + 1 * 2 ^ n) by lia. rewrite Z.mod_add by lia. rewrite Z.mod_small by lia. lia.
Qed.
Lemma sign_range n x : 0 < n -> 0 <= x < 2 ^ n -> - 2 ^ (n - 1) <= with_sign n x < 2 ^ (n - 1).
Proof. intros N X. unfold with_sign. assert (P : 2 ^ n = 2 * 2 ^ (n - 1)) by (rewrite <- Z.pow_succ_r by lia; f_equal; lia). destruct (x <? 2 ^ (n - 1)) eqn:E; lia. Qed.

(** * Rounding *)

Lemma of_Z_rel x : - 2 ^ 32 <= x <= 2 ^ 32 -> f_finite (f_of_Z x) = true /\ (Qabs (f_val (f_of_Z x) - zq x) <= Qabs (zq x) * (1 # 16777216) + p2 (-150))%Q.
Proof.
  intros H. unfold f_of_Z, zq.
  assert (B : (Qabs (inject_Z x) <= inject_Z (2 ^ 32))%Q) by (apply Qabs_Qle_condition; split; [change (- inject_Z (2 ^ 32))%Q with (inject_Z (- 2 ^ 32))|]; rewrite <- Zle_Qle; lia).
  destruct (round_near false (inject_Z x) (Qabs (inject_Z x))) as (F & G1 & G2).
  - apply (proj1 (Qabs_Qle_condition (inject_Z x) (Qabs (inject_Z x))) (Qle_refl _)).
  - apply Qle_Qabs.
  - eapply Qle_trans; [exact B|]. vm_compute. discriminate.
  - split; [exact F|]. change (1 # 16777216) with (p2 (-24)). apply abs_iff. split; assumption.
Qed.

(** A literal [c] close to [q], times a number close to a whole one. *)
Lemma lit_mul c q y x : f_finite c = true -> (0 <= q)%Q -> (q <= 1)%Q -> (Qabs (f_val c - q) <= q * (1 # 16777216))%Q ->
  - 2 ^ 32 <= x <= 2 ^ 32 -> f_finite y = true -> (Qabs (f_val y - zq x) <= Qabs (zq x) * (1 # 16777216) + p2 (-150))%Q ->
  f_finite (f_mul c y) = true /\ (Qabs (f_val (f_mul c y) - q * zq x) <= Qabs (q * zq x) * (1 # 5000000) + p2 (-148))%Q.
Proof.
  intros Fc Q0 Q1 EC H Fy EY. set (X := zq x) in *. set (Y := f_val y) in *. set (C := f_val c) in *.
  assert (B : (Qabs X <= inject_Z (2 ^ 32))%Q) by (unfold X, zq; apply Qabs_Qle_condition; split; [change (- inject_Z (2 ^ 32))%Q with (inject_Z (- 2 ^ 32))|]; rewrite <- Zle_Qle; lia).
  set (z0 := p2 (-150)) in *. assert (Z0 : (0 <= z0 /\ z0 <= 1 # 1000000)%Q) by (split; vm_compute; discriminate). destruct Z0 as (Z0 & Z1).
  assert (ZZ : (p2 (-148) == 4 * z0)%Q) by reflexivity.
  set (aX := Qabs X) in *. assert (A0 : (0 <= aX)%Q) by apply abs_pos.
  assert (QX : (Qabs (q * X) == q * aX)%Q) by (rewrite abs_mul, (Qabs_pos q Q0); reflexivity).
  assert (AY : (Qabs Y <= aX * (1 + (1 # 16777216)) + z0)%Q).
  { setoid_replace Y with ((Y - X) + X)%Q by ring. eapply Qle_trans; [apply abs_tri|]. fold aX. lra. }
  assert (AC : (Qabs C <= q * (1 + (1 # 16777216)))%Q).
  { setoid_replace C with ((C - q) + q)%Q by ring. eapply Qle_trans; [apply abs_tri|]. rewrite (Qabs_pos q Q0). lra. }
  pose proof (abs_pos Y) as Y0. pose proof (abs_pos C) as C0.
  assert (QA : (0 <= q * aX)%Q) by (apply Qmult_le_0_compat; assumption).
  assert (QZ : (0 <= q * z0 /\ q * z0 <= z0)%Q) by (split; nra).
  assert (CY : (Qabs (C * Y) <= q * aX * (1 + (1 # 16777216)) * (1 + (1 # 16777216)) + 2 * z0)%Q).
  { assert (P : (Qabs (C * Y) <= (q * (1 + (1 # 16777216))) * (aX * (1 + (1 # 16777216)) + z0))%Q) by (apply prod_le; assumption). nra. }
  assert (PB : (q * aX <= inject_Z (2 ^ 32))%Q) by nra.
  destruct (mul_rel c y Fc Fy) as (F & E); [fold C Y; eapply Qle_trans; [exact CY|]; assert (inject_Z (2 ^ 32) * 2 + 1 <= p2 127)%Q by (vm_compute; discriminate); lra|].
  split; [exact F|]. fold C Y in E. fold z0 in E. rewrite QX.
  setoid_replace (f_val (f_mul c y) - q * X)%Q with ((f_val (f_mul c y) - C * Y) + (C * (Y - X) + (C - q) * X))%Q by ring.
  eapply Qle_trans; [apply abs_tri|].
  assert (T1 : (Qabs (C * (Y - X) + (C - q) * X) <= q * aX * (1 # 16777216) * (1 + (1 # 16777216)) + 2 * z0 + q * aX * (1 # 16777216))%Q).
  { eapply Qle_trans; [apply abs_tri|].
    assert (P1 : (Qabs (C * (Y - X)) <= (q * (1 + (1 # 16777216))) * (aX * (1 # 16777216) + z0))%Q) by (apply prod_le; assumption).
    assert (P2 : (Qabs ((C - q) * X) <= (q * (1 # 16777216)) * aX)%Q) by (apply prod_le; [assumption|apply Qle_refl]). nra. }
  rewrite ZZ. lra.
Qed.

(** * Decoding *)

Lemma be16_range b n : octets b -> 0 <= be16 b n < 65536.
Proof. intros O. unfold be16. pose proof (O n). pose proof (O (n + 1)). lia. Qed.
Lemma swap_exchanged b n : swap (swap b 0 1) 2 3 n = exchanged b n.
Proof.
  unfold swap, exchanged. destruct (n =? 2) eqn:E2; [replace (n =? 0) with false by lia; replace (n =? 1) with false by lia; reflexivity|].
  destruct (n =? 3) eqn:E3; [replace (n =? 0) with false by lia; replace (n =? 1) with false by lia; reflexivity|]. reflexivity.
Qed.
Lemma exchanged_octets b : octets b -> octets (exchanged b).
Proof. intros O n. unfold exchanged. repeat match goal with |- context [if ?c then _ else _] => destruct c end; apply O. Qed.
Lemma exchanged_twice b b' : (forall n, b' n = exchanged b n) -> forall n, exchanged b' n = b n.
Proof.
  intros H n. unfold exchanged at 1. rewrite !H. unfold exchanged. cbn [Z.eqb Pos.eqb].
  destruct (Z.eqb_spec n 0) as [->|]; [reflexivity|]. destruct (Z.eqb_spec n 1) as [->|]; [reflexivity|]. destruct (Z.eqb_spec n 2) as [->|]; [reflexivity|].
  destruct (Z.eqb_spec n 3) as [->|]; reflexivity.
Qed.
Lemma shift2 b : octets b -> (b 1 + 256 * b 0) / 4 mod 2 ^ 14 = be16 b 0 / 4 /\ 0 <= be16 b 0 / 4 < 2 ^ 14.
Proof.
  intros O. pose proof (be16_range b 0 O) as R. replace (b 1 + 256 * b 0) with (be16 b 0) by (unfold be16; cbn [Z.add]; lia).
  assert (0 <= be16 b 0 / 4 < 2 ^ 14) by (split; [apply Z.div_pos; lia|apply Z.div_lt_upper_bound; lia]). split; [apply Z.mod_small|]; assumption.
Qed.
(** The result of one decoding of the bytes [c], equal to [b]. *)
Lemma decode a b c : octets b -> (forall n, c n = b n) ->
  snd (fst (pt_decode a c)) = f_mul (alfa a) (f_of_Z (steps a b)) /\ snd (pt_decode a c) = status a b /\
  forall n, fst (fst (pt_decode a c)) n = (if long a then exchanged b else b) n.
Proof.
  intros O H. destruct (shift2 b O) as (S1 & S2).
  assert (SH : sgn 14 ((c 1 + 256 * c 0) / 4 mod 2 ^ 14) = with_sign 14 (be16 b 0 / 4)) by (rewrite !H, S1; apply sgn_spec; [lia|exact S2]).
  assert (LO : sgn 16 (swap (swap c 0 1) 2 3 0 + 256 * swap (swap c 0 1) 2 3 1) = with_sign 16 (be16 b 0)).
  { rewrite !swap_exchanged. unfold exchanged. cbn [Z.eqb Pos.eqb]. rewrite !H. replace (b 1 + 256 * b 0) with (be16 b 0) by (unfold be16; cbn [Z.add]; lia).
    apply sgn_spec; [lia|apply be16_range, O]. }
  assert (ST : (swap (swap c 0 1) 2 3 2 + 256 * swap (swap c 0 1) 2 3 3) / 16 mod 16 = b 3 / 16).
  { rewrite !swap_exchanged. unfold exchanged. cbn [Z.eqb Pos.eqb]. rewrite !H. pose proof (O 3). pose proof (O 2).
    replace (b 3 + 256 * b 2) with (b 3 + (16 * b 2) * 16) by lia. rewrite Z.div_add by lia. replace (b 3 / 16 + 16 * b 2) with (b 3 / 16 + b 2 * 16) by lia. rewrite Z.mod_add by lia.
    apply Z.mod_small. split; [apply Z.div_pos; lia|apply Z.div_lt_upper_bound; lia]. }
  assert (EX : forall n, swap (swap c 0 1) 2 3 n = exchanged b n).
  { intros n. rewrite swap_exchanged. unfold exchanged. rewrite !H. reflexivity. }
  assert (STP : steps a b = if short a then with_sign 14 (be16 b 0 / 4) else if long a then with_sign 16 (be16 b 0) else 0) by reflexivity.
  destruct a; cbn [pt_decode fst snd long short steps status] in *; rewrite ?STP, ?SH, ?LO, ?ST; (split; [reflexivity|split; [reflexivity|]]); assumption.
Qed.

Lemma pt_after a h f k : octets (data f) -> let s := pt_run a (then_missed h f k) in let b := if long a && Nat.odd k then exchanged (data f) else data f in
  v s = f_mul (alfa a) (f_of_Z (steps a b)) /\ st s = status a b /\ module_ (mem_ s) = module_ f /\
  forall n, data (mem_ s) n = (if long a then if Nat.odd k then data f else exchanged (data f) else data f) n.
Proof.
  intros O. unfold pt_run, then_missed. induction k as [|k IH].
  - cbn [repeat]. rewrite fold_left_app. cbn [fold_left]. set (s := fold_left (pt_cycle a) h new_dev). unfold pt_cycle. cbn [refresh].
    destruct (decode a (data f) (data f) O (fun _ => eq_refl)) as (D1 & D2 & D3). destruct (pt_decode a (data f)) as ((b, x), n).
    cbn [fst snd v st mem_ data module_ Nat.odd negb Nat.even] in *. rewrite andb_false_r. auto.
  - replace (h ++ Some f :: repeat None (S k)) with ((h ++ Some f :: repeat None k) ++ [None]) by (rewrite <- app_assoc; cbn [app]; rewrite <- repeat_cons; reflexivity).
    rewrite fold_left_app. cbn [fold_left]. set (s := fold_left (pt_cycle a) (h ++ Some f :: repeat None k) new_dev) in *. cbv zeta in *.
    destruct IH as (I1 & I2 & I3 & I4). unfold pt_cycle. cbn [refresh]. rewrite Nat.odd_succ, <- Nat.negb_odd.
    set (c := if long a then if Nat.odd k then data f else exchanged (data f) else data f) in *.
    assert (OC : octets c) by (subst c; destruct (long a), (Nat.odd k); try exact O; apply exchanged_octets, O).
    destruct (decode a c (data (mem_ s)) OC I4) as (D1 & D2 & D3).
    destruct (pt_decode a (data (mem_ s))) as ((b, x), n). cbn [fst snd v st mem_ data module_] in *. subst c.
    destruct (long a) eqn:L; cbn [andb].
    + destruct (Nat.odd k); cbn [negb]; rewrite ?D1, ?D2; (split; [reflexivity|split; [reflexivity|split; [exact I3|]]]); [exact D3|].
      intros m. rewrite D3. apply exchanged_twice. intros; reflexivity.
    + rewrite D1, D2. auto.
Qed.

Lemma alfa_ok a : a <> Unknown -> f_finite (alfa a) = true /\ (0 <= unit_of a)%Q /\ (unit_of a <= 1)%Q /\ (Qabs (f_val (alfa a) - unit_of a) <= unit_of a * (1 # 16777216))%Q.
Proof. intros N. destruct a; try congruence; repeat split; vm_compute; congruence. Qed.
Lemma steps_range a b : octets b -> - 2 ^ 15 <= steps a b < 2 ^ 15.
Proof.
  intros O. unfold steps. destruct (short a); [pose proof (sign_range 14 (be16 b 0 / 4) ltac:(lia) (proj2 (shift2 b O))); lia|].
  destruct (long a); [pose proof (sign_range 16 (be16 b 0) ltac:(lia) (be16_range b 0 O)); lia|lia].
Qed.
Lemma lit_close c q x : f_finite c = true -> (0 <= q)%Q -> (q <= 1)%Q -> (Qabs (f_val c - q) <= q * (1 # 16777216))%Q -> - 2 ^ 32 <= x <= 2 ^ 32 ->
  close (f_mul c (f_of_Z x)) (zq x * q).
Proof.
  intros Fc Q0 Q1 E X. destruct (of_Z_rel x X) as (F & G). destruct (lit_mul c q (f_of_Z x) x Fc Q0 Q1 E X F G) as (H1 & H2). split; [exact H1|].
  rewrite (Qmult_comm (zq x) q). eapply Qle_trans; [exact H2|]. pose proof (abs_pos (q * zq x)). assert (p2 (-148) <= p2 (-140))%Q by (vm_compute; discriminate). lra.
Qed.
Lemma pt_close a b : octets b -> close (f_mul (alfa a) (f_of_Z (steps a b))) (zq (steps a b) * unit_of a).
Proof.
  intros O. pose proof (steps_range a b O) as R. destruct a; try (apply lit_close; [apply alfa_ok; discriminate..|lia]).
  cbn [steps short long unit_of alfa]. split; [reflexivity|]. vm_compute. discriminate.
Qed.

(** * The port *)

Lemma link_spec port m : octets m -> 1 <= port <= 8 -> link true port m = port_state port m.
Proof.
  intros O P. unfold link, port_state. replace ((0 <? port) && (port <=? 8)) with true by lia. cbn [andb].
  pose proof (O 0) as M0. pose proof (O 1) as M1. pose proof (O 2) as M2. pose proof (O 3) as M3.
  set (x := m 0 + 256 * m 1 + 65536 * m 2 + 16777216 * m 3).
  assert (P0 : 1 <= 2 ^ (port - 1) <= 128).
  { change 1 with (2 ^ 0) at 1. change 128 with (2 ^ 7). split; apply Z.pow_le_mono_r; lia. }
  assert (PD : exists r, 256 = r * 2 ^ (port - 1) /\ exists q, r = 2 * q).
  { exists (2 ^ (9 - port)). split; [rewrite <- Z.pow_add_r by lia; replace (9 - port + (port - 1)) with 8 by lia; reflexivity|].
    exists (2 ^ (8 - port)). rewrite <- Z.pow_succ_r by lia. f_equal. lia. }
  destruct PD as (r & PD & q & PQ).
  assert (HX : forall X, r * X * 2 ^ (port - 1) = 256 * X) by (intros X; rewrite PD; ring).
  assert (T1 : Z.testbit x (port - 1) = negb ((m 0 / 2 ^ (port - 1)) mod 2 =? 0)).
  { rewrite Z.testbit_odd, Z.shiftr_div_pow2 by lia. unfold x.
    replace (m 0 + 256 * m 1 + 65536 * m 2 + 16777216 * m 3) with (m 0 + (r * (m 1 + 256 * m 2 + 65536 * m 3)) * 2 ^ (port - 1)) by (rewrite HX; lia).
    rewrite Z.div_add by lia. rewrite PQ. replace (2 * q * (m 1 + 256 * m 2 + 65536 * m 3)) with (2 * (q * (m 1 + 256 * m 2 + 65536 * m 3))) by lia.
    rewrite Z.odd_add_mul_2. rewrite Zmod_odd. destruct (Z.odd (m 0 / 2 ^ (port - 1))); reflexivity. }
  assert (T2 : Z.testbit x (port + 7) = negb ((m 1 / 2 ^ (port - 1)) mod 2 =? 0)).
  { rewrite Z.testbit_odd, Z.shiftr_div_pow2 by lia. replace (port + 7) with (8 + (port - 1)) by lia. rewrite Z.pow_add_r by lia. change (2 ^ 8) with 256.
    rewrite <- Z.div_div by lia. unfold x. replace (m 0 + 256 * m 1 + 65536 * m 2 + 16777216 * m 3) with (m 0 + (m 1 + 256 * m 2 + 65536 * m 3) * 256) by lia.
    rewrite Z.div_add by lia. rewrite (Z.div_small (m 0)) by lia. rewrite Z.add_0_l.
    replace (m 1 + 256 * m 2 + 65536 * m 3) with (m 1 + (r * (m 2 + 256 * m 3)) * 2 ^ (port - 1)) by (rewrite HX; lia). rewrite Z.div_add by lia. rewrite PQ.
    replace (2 * q * (m 2 + 256 * m 3)) with (2 * (q * (m 2 + 256 * m 3))) by lia. rewrite Z.odd_add_mul_2. rewrite Zmod_odd. destruct (Z.odd (m 1 / 2 ^ (port - 1))); reflexivity. }
  rewrite T1, T2, !negb_involutive. reflexivity.
Qed.
