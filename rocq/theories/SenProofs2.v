(** Level, level switches, concentration, flow, temperature, scales. *)
From Coq Require Import ZArith List Bool Lia QArith Qabs Lqa.
From Verif Require Import Base FTextModel FloatModel FloatProofs FloatProofs2 FloatProofs3 AioProofs AioProofs2 SenModel SenSpec SenProofs.
Import ListNotations.
Open Scope Q_scope.

(** * Rounding of what follows a conversion *)

Lemma mul_close x q y B : close x q -> f_finite y = true -> Qabs q <= inject_Z (2 ^ 33) -> Qabs (f_val y) <= B -> B <= 1000000 ->
  f_finite (f_mul x y) = true /\ Qabs (f_val (f_mul x y) - q * f_val y) <= Qabs (q * f_val y) * (1 # 3200000) + p2 (-110).
Proof.
  intros (Fx & E) Fy Q Y B1. set (X := f_val x) in *. set (V := f_val y) in *. set (aq := Qabs q) in *. set (aV := Qabs V) in *.
  assert (A0 : 0 <= aq) by apply abs_pos. assert (V0 : 0 <= aV) by apply abs_pos.
  set (z0 := p2 (-150)). set (z1 := p2 (-140)) in *. set (z2 := p2 (-110)).
  assert (ZS : 0 <= z0 /\ z0 <= 1 # 100 /\ 0 <= z1 /\ z1 <= 1 # 1000000 /\ 3000000 * z1 + z0 <= z2) by (repeat split; vm_compute; discriminate).
  destruct ZS as (Z0 & Z0' & Z1 & Z1' & Z2).
  assert (QV : Qabs (q * V) == aq * aV) by apply abs_mul.
  assert (P0 : 0 <= aq * aV) by (apply Qmult_le_0_compat; assumption).
  assert (D : Qabs ((X - q) * V) <= aq * aV * (1 # 4000000) + 1000000 * z1).
  { assert (P : Qabs ((X - q) * V) <= (aq * (1 # 4000000) + z1) * aV) by (apply prod_le; [exact E|apply Qle_refl]).
    assert (z1 * aV <= z1 * 1000000) by (apply mul_le_l; [assumption|lra]). lra. }
  assert (XV : Qabs (X * V) <= aq * aV * (1 + (1 # 4000000)) + 1000000 * z1).
  { setoid_replace (X * V) with ((X - q) * V + q * V) by ring. eapply Qle_trans; [apply abs_tri|]. rewrite QV. lra. }
  assert (PB : aq * aV <= inject_Z (2 ^ 33) * 1000000).
  { apply Qle_trans with (aq * 1000000); [apply mul_le_l; [assumption|lra]|]. lra. }
  destruct (mul_rel x y Fx Fy) as (F & G).
  { fold X V. eapply Qle_trans; [exact XV|]. assert (inject_Z (2 ^ 33) * 2000000 + 2 <= p2 127) by (vm_compute; discriminate). lra. }
  split; [exact F|]. fold X V in G. fold z0 in G.
  setoid_replace (f_val (f_mul x y) - q * V) with ((f_val (f_mul x y) - X * V) + (X - q) * V) by ring. eapply Qle_trans; [apply abs_tri|]. rewrite QV. lra.
Qed.
Lemma div_close x q y : close x q -> f_finite y = true -> Qabs q <= inject_Z (2 ^ 33) -> 1 # 1000 <= Qabs (f_val y) ->
  f_finite (f_div x y) = true /\ Qabs (f_val (f_div x y) - q / f_val y) <= Qabs (q / f_val y) * (1 # 3200000) + p2 (-125).
Proof.
  intros (Fx & E) Fy Q Y. set (X := f_val x) in *. set (V := f_val y) in *. set (aq := Qabs q) in *. set (aV := Qabs V) in *.
  assert (A0 : 0 <= aq) by apply abs_pos. assert (V0 : 0 <= aV) by apply abs_pos.
  assert (NZ : ~ V == 0) by (intros Z; assert (W : aV == 0) by (unfold aV; rewrite Z; reflexivity); lra).
  set (z0 := p2 (-150)). set (z1 := p2 (-140)) in *. set (z2 := p2 (-125)).
  assert (ZS : 0 <= z0 /\ z0 <= 1 # 100 /\ 0 <= z1 /\ z1 <= 1 # 1000000 /\ 3000 * z1 + z0 <= z2) by (repeat split; vm_compute; discriminate).
  destruct ZS as (Z0 & Z0' & Z1 & Z1' & Z2).
  set (T := q / V) in *. assert (TV : T * V == q) by (unfold T; field; exact NZ). set (aT := Qabs T) in *. assert (T0 : 0 <= aT) by apply abs_pos.
  assert (AT : aT * aV == aq) by (unfold aT, aV, aq; rewrite <- abs_mul, TV; reflexivity).
  assert (TB : aT <= 1000 * aq) by nra.
  assert (D : Qabs (X / V - T) <= aT * (1 # 4000000) + 1000 * z1).
  { apply quot_err; [exact NZ|]. rewrite TV. eapply Qle_trans; [exact E|]. fold aV.
    assert (z1 <= 1000 * z1 * aV) by nra. setoid_replace ((aT * (1 # 4000000) + 1000 * z1) * aV) with ((aT * aV) * (1 # 4000000) + 1000 * z1 * aV) by ring. rewrite AT. fold aq. lra. }
  assert (XV : Qabs (X / V) <= aT * (1 + (1 # 4000000)) + 1000 * z1).
  { setoid_replace (X / V) with ((X / V - T) + T) by ring. eapply Qle_trans; [apply abs_tri|]. fold aT. lra. }
  destruct (div_rel x y Fx Fy NZ) as (F & G).
  { fold X V. eapply Qle_trans; [exact XV|]. assert (inject_Z (2 ^ 33) * 2000 + 2 <= p2 127) by (vm_compute; discriminate). lra. }
  split; [exact F|]. fold X V in G. fold z0 in G.
  setoid_replace (f_val (f_div x y) - T) with ((f_val (f_div x y) - X / V) + (X / V - T)) by ring. eapply Qle_trans; [apply abs_tri|]. lra.
Qed.
Lemma add_close x q e y : f_finite x = true -> Qabs (f_val x - q) <= Qabs q * e + p2 (-110) -> 0 <= e -> e <= 1 # 1000000 -> f_finite y = true ->
  Qabs q <= inject_Z (2 ^ 60) -> Qabs (f_val y) <= inject_Z (2 ^ 60) ->
  f_finite (f_add x y) = true /\ Qabs (f_val (f_add x y) - (q + f_val y)) <= Qabs q * (e + (1 # 16000000)) + Qabs (f_val y) * (1 # 16000000) + p2 (-105).
Proof.
  intros Fx E E0 E1 Fy Q Y. set (X := f_val x) in *. set (V := f_val y) in *. set (aq := Qabs q) in *. set (aV := Qabs V) in *.
  assert (A0 : 0 <= aq) by apply abs_pos. assert (V0 : 0 <= aV) by apply abs_pos.
  set (z0 := p2 (-150)). set (z1 := p2 (-110)) in *. set (z2 := p2 (-105)).
  assert (ZS : 0 <= z0 /\ z0 <= 1 # 100 /\ 0 <= z1 /\ z1 <= 1 # 1000000 /\ 2 * z1 + z0 <= z2) by (repeat split; vm_compute; discriminate).
  destruct ZS as (Z0 & Z0' & Z1 & Z1' & Z2).
  assert (AE : 0 <= aq * e /\ aq * e <= aq * (1 # 1000000)) by (split; nra). destruct AE as (AE & AE').
  assert (XV : Qabs (X + V) <= aq + aq * e + aV + z1).
  { setoid_replace (X + V) with ((X - q) + q + V) by ring. eapply Qle_trans; [apply abs_tri|]. assert (Qabs (X - q + q) <= aq * e + z1 + aq) by (eapply Qle_trans; [apply abs_tri|]; fold aq; lra). fold aV. lra. }
  destruct (add_rel x y Fx Fy) as (F & G).
  { fold X V. eapply Qle_trans; [exact XV|]. assert (inject_Z (2 ^ 60) * 4 + 2 <= p2 127) by (vm_compute; discriminate). lra. }
  split; [exact F|]. fold X V in G. fold z0 in G.
  setoid_replace (f_val (f_add x y) - (q + V)) with ((f_val (f_add x y) - (X + V)) + (X - q)) by ring. eapply Qle_trans; [apply abs_tri|]. lra.
Qed.
Lemma lit_ok q : (q = 1 # 10 \/ q = 1 # 100 \/ q = 1 # 1000) ->
  f_finite (f_lit q) = true /\ 0 <= q /\ q <= 1 /\ Qabs (f_val (f_lit q) - q) <= q * (1 # 16777216).
Proof. intros [->|[->| ->]]; repeat split; vm_compute; congruence. Qed.
Lemma tenth x : (- 2 ^ 32 <= x <= 2 ^ 32)%Z -> close (f_mul (f_lit (1 # 10)) (f_of_Z x)) (zq x * (1 # 10)).
Proof. intros X. destruct (lit_ok (1 # 10)) as (A & B & C & D); [auto|]. apply lit_close; assumption. Qed.
Lemma thousandth x : (- 2 ^ 32 <= x <= 2 ^ 32)%Z -> close (f_mul (f_lit (1 # 1000)) (f_of_Z x)) (zq x * (1 # 1000)).
Proof. intros X. destruct (lit_ok (1 # 1000)) as (A & B & C & D); [auto|]. apply lit_close; assumption. Qed.
Lemma zq_bound x : (- 2 ^ 32 <= x <= 2 ^ 32)%Z -> Qabs (zq x) <= inject_Z (2 ^ 32).
Proof.
  intros H. unfold zq. apply Qabs_Qle_condition; split; [change (- inject_Z (2 ^ 32)) with (inject_Z (- 2 ^ 32))|]; rewrite <- Zle_Qle; lia.
Qed.
Lemma add_close' x q e y : f_finite x = true -> Qabs (f_val x - q) <= Qabs q * e + p2 (-110) -> 0 <= e -> e <= 1 # 1000000 -> f_finite y = true ->
  Qabs q <= inject_Z (2 ^ 60) -> Qabs (f_val y) <= inject_Z (2 ^ 60) ->
  f_finite (f_add y x) = true /\ Qabs (f_val (f_add y x) - (f_val y + q)) <= Qabs q * (e + (1 # 16000000)) + Qabs (f_val y) * (1 # 16000000) + p2 (-105).
Proof.
  intros Fx E E0 E1 Fy Q Y. set (X := f_val x) in *. set (V := f_val y) in *. set (aq := Qabs q) in *. set (aV := Qabs V) in *.
  assert (A0 : 0 <= aq) by apply abs_pos. assert (V0 : 0 <= aV) by apply abs_pos.
  set (z0 := p2 (-150)). set (z1 := p2 (-110)) in *. set (z2 := p2 (-105)).
  assert (ZS : 0 <= z0 /\ z0 <= 1 # 100 /\ 0 <= z1 /\ z1 <= 1 # 1000000 /\ 2 * z1 + z0 <= z2) by (repeat split; vm_compute; discriminate).
  destruct ZS as (Z0 & Z0' & Z1 & Z1' & Z2).
  assert (AE : 0 <= aq * e /\ aq * e <= aq * (1 # 1000000)) by (split; nra). destruct AE as (AE & AE').
  assert (XV : Qabs (V + X) <= aq + aq * e + aV + z1).
  { setoid_replace (V + X) with ((X - q) + q + V) by ring. eapply Qle_trans; [apply abs_tri|]. assert (Qabs (X - q + q) <= aq * e + z1 + aq) by (eapply Qle_trans; [apply abs_tri|]; fold aq; lra). fold aV. lra. }
  destruct (add_rel y x Fy Fx) as (F & G).
  { fold X V. eapply Qle_trans; [exact XV|]. assert (inject_Z (2 ^ 60) * 4 + 2 <= p2 127) by (vm_compute; discriminate). lra. }
  split; [exact F|]. fold X V in G. fold z0 in G.
  setoid_replace (f_val (f_add y x) - (V + q)) with ((f_val (f_add y x) - (V + X)) + (X - q)) by ring. eapply Qle_trans; [apply abs_tri|]. lra.
Qed.
(** Within a millionth. *)
Lemma weaken x q e : 0 <= e -> e <= 1 # 4000000 -> close x q -> Qabs (f_val x - q) <= Qabs q * (1 # 4000000) + p2 (-110).
Proof. intros E0 E1 (F & H). assert (p2 (-140) <= p2 (-110)) by (vm_compute; discriminate). lra. Qed.
Lemma zq_mul x c C : Qabs c <= C -> 0 <= C -> (- 2 ^ 32 <= x <= 2 ^ 32)%Z -> Qabs (zq x * c) <= inject_Z (2 ^ 32) * C.
Proof. intros H C0 X. apply prod_le; [apply zq_bound, X|exact H]. Qed.
Lemma sum_close x q y : close x q -> f_finite y = true -> Qabs q <= inject_Z (2 ^ 33) -> Qabs (f_val y) <= inject_Z (2 ^ 60) -> about (f_add y x) (q + f_val y) (Qabs q + Qabs (f_val y)).
Proof.
  intros C Fy Q Y. destruct (add_close' x q (1 # 4000000) y) as (A & B); [apply C|apply (weaken x q (1 # 4000000)); [lra|lra|exact C]|lra|lra|exact Fy| |exact Y|].
  - eapply Qle_trans; [exact Q|]. vm_compute. discriminate.
  - split; [exact A|]. setoid_replace (f_val (f_add y x) - (q + f_val y)) with (f_val (f_add y x) - (f_val y + q)) by ring. eapply Qle_trans; [exact B|].
    pose proof (abs_pos q). pose proof (abs_pos (f_val y)). assert (p2 (-105) <= p2 (-100)) by (vm_compute; discriminate). lra.
Qed.

(** * The devices *)

Open Scope Z_scope.
Lemma be16_signed b n : octets b -> sgn 16 (b (n + 1) + 256 * b n) = with_sign 16 (be16 b n).
Proof. intros O. pose proof (be16_range b n O) as R. unfold be16 in *. rewrite (Z.add_comm (b (n + 1))). apply sgn_spec; [lia|exact R]. Qed.
Lemma small14 x : 0 <= x < 2 ^ 14 -> - 2 ^ 32 <= with_sign 14 x <= 2 ^ 32.
Proof. intros H. pose proof (sign_range 14 x ltac:(lia) H) as R. change (2 ^ (14 - 1)) with 8192 in R. lia. Qed.
Lemma small16 x : 0 <= x < 2 ^ 16 -> - 2 ^ 32 <= with_sign 16 x <= 2 ^ 32.
Proof. intros H. pose proof (sign_range 16 x ltac:(lia) H) as R. change (2 ^ (16 - 1)) with 32768 in R. lia. Qed.
Lemma be16_low b : octets b -> 0 <= be16 b 0 mod 2 ^ 14 < 2 ^ 14 /\ be16 b 0 / 2 ^ 14 mod 2 = (b 0 / 64) mod 2 /\ be16 b 0 mod 2 = b 1 mod 2.
Proof.
  intros O. pose proof (O 0). pose proof (O 1). unfold be16. cbn [Z.add]. split; [apply Z.mod_pos_bound; lia|split].
  - f_equal. change (2 ^ 14) with (256 * 64). rewrite <- Z.div_div by lia. f_equal. rewrite Z.mul_comm, Z.div_add_l by lia. rewrite Z.div_small by lia. lia.
  - replace (256 * b 0 + b 1) with (b 1 + (128 * b 0) * 2) by lia. apply Z.mod_add. lia.
Qed.
Lemma ls_lmt err b : octets b -> ls_decode LMT err b = (f_of_Z (with_sign 14 (be16 b 0 / 4)), b 1 mod 2).
Proof.
  intros O. destruct (shift2 b O) as (S1 & S2). destruct (be16_low b O) as (L1 & L2 & L3). cbn [ls_decode].
  replace (b 1 + 256 * b 0) with (be16 b 0) in * by (unfold be16; cbn [Z.add]; lia). rewrite S1, L3, sgn_spec by (lia || exact S2). reflexivity.
Qed.
Lemma ls_ftl err b : octets b -> ls_decode FTL33 err b = (f_mul (f_lit (1 # 10)) (f_of_Z (with_sign 14 (be16 b 0 mod 2 ^ 14))), (b 0 / 64) mod 2).
Proof.
  intros O. destruct (be16_low b O) as (L1 & L2 & L3). cbn [ls_decode].
  replace (b 1 + 256 * b 0) with (be16 b 0) in * by (unfold be16; cbn [Z.add]; lia). rewrite L2, sgn_spec by (lia || exact L1). reflexivity.
Qed.
Lemma qt_spec b : octets b -> qt_decode b = (f_mul (f_lit (1 # 1000)) (f_of_Z (be32 b 0)), f_mul (f_lit (1 # 10)) (f_of_Z (be32 b 6)), b 11 / 16).
Proof.
  intros O. unfold qt_decode, be32, be16. cbn [Z.sub Z.add Z.opp Pos.add Pos.succ Z.pos_sub Pos.pred_double Z.pred_double Z.succ_double Z.double].
  replace (b 3 + 256 * b 2 + 65536 * b 1 + 16777216 * b 0) with (65536 * (256 * b 0 + b 1) + (256 * b 2 + b 3)) by lia.
  replace (b 9 + 256 * b 8 + 65536 * b 7 + 16777216 * b 6) with (65536 * (256 * b 6 + b 7) + (256 * b 8 + b 9)) by lia. reflexivity.
Qed.
Lemma fq_spec cz b : octets b -> fq_decode cz b =
  (be32 b 0, f_add cz (f_mul (f_of_Z (with_sign 16 (be16 b 4))) (f_lit (1 # 100))), f_mul (f_lit (1 # 10)) (f_of_Z (with_sign 14 (be16 b 6 / 4)))).
Proof.
  intros O. unfold fq_decode. pose proof (be16_signed b 4 O) as H4. cbn [Z.add Pos.add Pos.succ] in H4. rewrite H4.
  pose proof (be16_range b 6 O) as R6. replace (b 7 + 256 * b 6) with (be16 b 6) by (unfold be16; cbn [Z.add Pos.add Pos.succ]; lia).
  rewrite (sgn_spec 14) by (lia || (split; [apply Z.div_pos; lia|apply Z.div_lt_upper_bound; lia])).
  replace (b 3 + 256 * b 2 + 65536 * b 1 + 16777216 * b 0) with (be32 b 0) by (unfold be32, be16; cbn [Z.add Pos.add Pos.succ]; lia). reflexivity.
Qed.
Lemma be32_range b n : octets b -> 0 <= be32 b n < 2 ^ 32.
Proof. intros O. pose proof (be16_range b n O). pose proof (be16_range b (n + 2) O). unfold be32. lia. Qed.
Lemma hundredth x : (- 2 ^ 16 <= x <= 2 ^ 16)%Z -> close (f_mul (f_of_Z x) (f_lit (1 # 100))) (zq x * (1 # 100)).
Proof.
  intros X. destruct (lit_ok (1 # 100)) as (A & B & C & D); [auto|]. destruct (of_Z_exact x ltac:(lia)) as (F & V). unfold zq.
  assert (XB : (Qabs (inject_Z x) <= inject_Z (2 ^ 32))%Q) by (apply zq_bound; lia).
  set (c := f_val (f_lit (1 # 100))) in *. set (aX := Qabs (inject_Z x)) in *. assert (A0 : (0 <= aX)%Q) by apply abs_pos.
  assert (CB : (Qabs c <= (1 # 100) * (1 + (1 # 16777216)))%Q).
  { setoid_replace c with ((c - (1 # 100)) + (1 # 100))%Q by ring. eapply Qle_trans; [apply abs_tri|]. assert (Qabs (1 # 100) == 1 # 100)%Q by reflexivity. lra. }
  assert (PB : (Qabs (f_val (f_of_Z x) * c) <= aX * ((1 # 100) * (1 + (1 # 16777216))))%Q) by (rewrite V; apply prod_le; [apply Qle_refl|exact CB]).
  destruct (mul_rel (f_of_Z x) (f_lit (1 # 100)) F A) as (G & E).
  { fold c. eapply Qle_trans; [exact PB|]. assert (inject_Z (2 ^ 32) + 1 <= p2 127)%Q by (vm_compute; discriminate). lra. }
  fold c in E. split; [exact G|].
  assert (QA : (Qabs (inject_Z x * (1 # 100)) == aX * (1 # 100))%Q) by (rewrite abs_mul; reflexivity). rewrite QA.
  setoid_replace (f_val (f_mul (f_of_Z x) (f_lit (1 # 100))) - inject_Z x * (1 # 100))%Q
    with ((f_val (f_mul (f_of_Z x) (f_lit (1 # 100))) - f_val (f_of_Z x) * c) + inject_Z x * (c - (1 # 100)))%Q by (rewrite V; ring).
  eapply Qle_trans; [apply abs_tri|].
  assert (P3 : (Qabs (inject_Z x * (c - (1 # 100))) <= aX * ((1 # 100) * (1 # 16777216)))%Q) by (apply prod_le; [apply Qle_refl|exact D]).
  set (z0 := p2 (-150)) in *. assert (ZZ : (z0 <= p2 (-140))%Q) by (vm_compute; discriminate). lra.
Qed.
(** The temperature: what is read from the bytes, for each kind of [char]. *)
Lemma te_steps sc b : octets b ->
  sgn 16 (char_ sc (b 1) + 256 * char_ sc (b 0)) =
  (if sc && (128 <=? b 1) then with_sign 16 ((be16 b 0 - 256) mod 2 ^ 16) else with_sign 16 (be16 b 0)).
Proof.
  intros O. pose proof (O 0) as B0. pose proof (O 1) as B1. pose proof (be16_range b 0 O) as R. unfold be16 in *. cbn [Z.add] in *.
  assert (M : forall x y k, x = y + k * 65536 -> 0 <= y < 2 ^ 16 -> sgn 16 x = with_sign 16 y).
  { intros x y k -> Y. rewrite <- sgn_spec by (lia || exact Y). unfold sgn. change (2 ^ (16 - 1)) with 32768. change (2 ^ 16) with 65536.
    replace (y + k * 65536 + 32768) with (y + 32768 + k * 65536) by lia. rewrite Z.mod_add by lia. reflexivity. }
  destruct sc; cbn [char_ andb].
  - rewrite (sgn_spec 8 (b 1)), (sgn_spec 8 (b 0)) by lia. unfold with_sign at 1 2. change (2 ^ (8 - 1)) with 128. change (2 ^ 8) with 256.
    destruct (128 <=? b 1) eqn:L1.
    + replace (b 1 <? 128) with false by lia. destruct (b 0 <? 128) eqn:L0.
      * apply M with (k := - ((256 * b 0 + b 1 - 256) / 2 ^ 16) * -1); [|apply Z.mod_pos_bound; lia]. pose proof (Z.div_mod (256 * b 0 + b 1 - 256) (2 ^ 16) ltac:(lia)). lia.
      * apply M with (k := ((256 * b 0 + b 1 - 256) / 2 ^ 16) - 1); [|apply Z.mod_pos_bound; lia]. pose proof (Z.div_mod (256 * b 0 + b 1 - 256) (2 ^ 16) ltac:(lia)). lia.
    + replace (b 1 <? 128) with true by lia. destruct (b 0 <? 128) eqn:L0; [apply M with (k := 0); lia|apply M with (k := -1); lia].
  - apply M with (k := 0); lia.
Qed.

(** * Scales *)

Lemma fault_spec x : - 2 ^ 31 <= x < 2 ^ 31 -> wt_error x = fault x.
Proof.
  intros X. unfold wt_error.
  assert (M : forall c, 2 ^ 31 <= c < 2 ^ 32 -> (x mod 2 ^ 32 =? c) = (x =? c - 2 ^ 32)).
  { intros c C. pose proof (Z.div_mod x (2 ^ 32) ltac:(lia)). pose proof (Z.mod_pos_bound x (2 ^ 32) ltac:(lia)).
    destruct (x =? c - 2 ^ 32) eqn:E; apply Z.eqb_eq || apply Z.eqb_neq; [|]; lia. }
  rewrite !M by lia. clear M. unfold fault.
  repeat match goal with |- context [x =? ?k] => let E := fresh "E" in destruct (Z.eqb_spec x k) as [E|E]; [rewrite E; reflexivity|] end.
  destruct x as [|p|p]; try reflexivity.
  repeat (match goal with |- context [match ?p with _ => _ end] => is_var p; destruct p end; try reflexivity); exfalso;
  match goal with H : ?a <> ?b |- _ => apply H; reflexivity end.
Qed.
Lemma reading_range b : octets b -> - 2 ^ 31 <= reading b < 2 ^ 31.
Proof. intros O. pose proof (O 0). pose proof (O 1). pose proof (O 2). pose proof (O 3). unfold reading. apply (sign_range 32); lia. Qed.
Lemma crossed_octets b : octets b -> octets (crossed b).
Proof. intros O n. unfold crossed. repeat match goal with |- context [if ?c then _ else _] => destruct c end; apply O. Qed.
Lemma swap_crossed b n : swap (swap b 0 2) 1 3 n = crossed b n.
Proof.
  unfold swap, crossed. destruct (Z.eqb_spec n 0) as [->|N0]; [reflexivity|]. destruct (Z.eqb_spec n 1) as [->|N1]; [reflexivity|].
  destruct (Z.eqb_spec n 2) as [->|N2]; [reflexivity|]. destruct (Z.eqb_spec n 3) as [->|N3]; reflexivity.
Qed.
Lemma crossed_twice b b' : (forall n, b' n = crossed b n) -> forall n, crossed b' n = b n.
Proof.
  intros H n. unfold crossed at 1. rewrite !H. unfold crossed. cbn [Z.eqb Pos.eqb].
  destruct (Z.eqb_spec n 0) as [->|]; [reflexivity|]. destruct (Z.eqb_spec n 1) as [->|]; [reflexivity|]. destruct (Z.eqb_spec n 2) as [->|]; [reflexivity|].
  destruct (Z.eqb_spec n 3) as [->|]; reflexivity.
Qed.
Definition weight (b : Z -> Z) (k : Z) : Z := f_mul (f_mul (f_lit (1 # 1000)) (f_of_Z (reading b))) k.
Lemma cycle_spec s c b : octets b -> (forall n, match c with Some b => b | None => w_mem s end n = b n) ->
  let s' := wt_step s (WCycle c) in w s' = weight b (par_k s) /\ w_st s' = fault (reading b) /\ par_k s' = par_k s /\ par_cz s' = par_cz s /\ forall n, w_mem s' n = crossed b n.
Proof.
  intros O H. cbn [wt_step]. set (c0 := match c with Some b => b | None => w_mem s end) in *.
  assert (E : forall n, swap (swap c0 0 2) 1 3 n = crossed b n) by (intros n; rewrite swap_crossed; unfold crossed; rewrite !H; reflexivity).
  assert (R : sgn 32 (swap (swap c0 0 2) 1 3 0 + 256 * swap (swap c0 0 2) 1 3 1 + 65536 * swap (swap c0 0 2) 1 3 2 + 16777216 * swap (swap c0 0 2) 1 3 3) = reading b).
  { rewrite !E. unfold crossed. cbn [Z.eqb Pos.eqb]. pose proof (O 0). pose proof (O 1). pose proof (O 2). pose proof (O 3).
    replace (b 2 + 256 * b 3 + 65536 * b 0 + 16777216 * b 1) with (65536 * (b 0 + 256 * b 1) + (b 2 + 256 * b 3)) by lia. unfold reading. apply sgn_spec; lia. }
  cbv zeta. rewrite R. cbn [w w_st par_k par_cz w_mem]. rewrite (fault_spec _ (reading_range b O)). repeat split. exact E.
Qed.
Lemma par_k_run l : forall s, par_k (fold_left wt_step l s) = fold_left (fun x e => match e with ParK y => y | _ => x end) l (par_k s).
Proof.
  induction l as [|e l IH]; intros s; [reflexivity|]. cbn [fold_left]. rewrite IH. f_equal.
  destruct e; cbn [wt_step]; try reflexivity. destruct (n =? 1); [reflexivity|destruct (n =? 2); reflexivity].
Qed.
Local Opaque weight reading fault wt_step.
Lemma read_spec h b j k : octets b -> calls_with k h -> let s := wt_run (read_then h b j) in let b' := if Nat.odd j then crossed b else b in
  w s = weight b' k /\ w_st s = fault (reading b') /\ par_k s = k /\ par_cz s = par_cz (wt_run h) /\ forall n, w_mem s n = (if Nat.odd j then b else crossed b) n.
Proof.
  intros O K. assert (PK : par_k (wt_run h) = k) by (unfold wt_run; rewrite par_k_run; exact K). unfold wt_run, read_then in *. induction j as [|j IH].
  - cbn [repeat]. rewrite fold_left_app. cbn [fold_left]. set (s := fold_left wt_step h new_scale) in *.
    destruct (cycle_spec s (Some b) b O (fun _ => eq_refl)) as (A1 & A2 & A3 & A4 & A5). cbn [Nat.odd Nat.even negb]. rewrite A1, A2, A3, A4, PK. split; [reflexivity|split; [reflexivity|split; [reflexivity|split; [reflexivity|exact A5]]]].
  - replace (h ++ WCycle (Some b) :: repeat (WCycle None) (S j)) with ((h ++ WCycle (Some b) :: repeat (WCycle None) j) ++ [WCycle None])
      by (rewrite <- app_assoc; cbn [app]; rewrite <- repeat_cons; reflexivity).
    rewrite fold_left_app. cbn [fold_left]. set (s := fold_left wt_step (h ++ WCycle (Some b) :: repeat (WCycle None) j) new_scale) in *. cbv zeta in *.
    destruct IH as (I1 & I2 & I3 & I4 & I5). rewrite Nat.odd_succ, <- Nat.negb_odd.
    destruct (cycle_spec s None (if Nat.odd j then b else crossed b)) as (A1 & A2 & A3 & A4 & A5); [destruct (Nat.odd j); [exact O|apply crossed_octets, O]|exact I5|].
    rewrite A1, A2, A3, A4, I3, I4. destruct (Nat.odd j); cbn [negb]; (split; [reflexivity|split; [reflexivity|split; [reflexivity|split; [reflexivity|]]]]); [exact A5|].
    intros n. rewrite A5. apply crossed_twice. intros; reflexivity.
Qed.
Local Transparent weight reading fault wt_step.
Lemma plain_step s e : match e with WCycle _ | ParK _ => False | _ => True end -> w (wt_step s e) = w s /\ w_st (wt_step s e) = w_st s /\ par_k (wt_step s e) = par_k s /\ w_mem (wt_step s e) = w_mem s.
Proof. destruct e; intros H; try contradiction; cbn [wt_step]; try (repeat split; fail). destruct (n =? 1); [repeat split|destruct (n =? 2); repeat split]. Qed.
Lemma plain_run l : plain l -> forall s, let t := fold_left wt_step l s in w t = w s /\ w_st t = w_st s /\ par_k t = par_k s /\ w_mem t = w_mem s.
Proof.
  induction l as [|e l IH]; intros P s; [repeat split|]. cbn [fold_left]. destruct (plain_step s e (P e (or_introl eq_refl))) as (A1 & A2 & A3 & A4).
  destruct (IH (fun x I => P x (or_intror I)) (wt_step s e)) as (B1 & B2 & B3 & B4). cbv zeta in *. rewrite B1, B2, B3, B4, A1, A2, A3, A4. repeat split.
Qed.

Lemma weight_close b k : octets b -> f_finite k = true -> (Qabs (f_val k) <= 1000000)%Q ->
  f_finite (weight b k) = true /\ (Qabs (f_val (weight b k) - zq (reading b) * (1 # 1000) * f_val k) <= Qabs (zq (reading b) * (1 # 1000) * f_val k) * (1 # 3200000) + p2 (-110))%Q
  /\ (Qabs (zq (reading b) * (1 # 1000) * f_val k) <= inject_Z (2 ^ 60))%Q.
Proof.
  intros O F K. pose proof (reading_range b O) as R. assert (R' : - 2 ^ 32 <= reading b <= 2 ^ 32) by lia.
  assert (QB : (Qabs (zq (reading b) * (1 # 1000)) <= inject_Z (2 ^ 32) * (1 # 1000))%Q) by (apply zq_mul; [vm_compute; discriminate|vm_compute; discriminate|exact R']).
  assert (QC : (Qabs (zq (reading b) * (1 # 1000)) <= inject_Z (2 ^ 33))%Q) by (eapply Qle_trans; [exact QB|vm_compute; discriminate]).
  destruct (mul_close _ _ k 1000000 (thousandth _ R') F QC K (Qle_refl _)) as (A & B). repeat split; [exact A|exact B|].
  eapply Qle_trans; [apply prod_le; [exact QB|exact K]|]. vm_compute. discriminate.
Qed.
(** A weight and a correction; a weight and the one tared. *)
Lemma value_close b k cz : octets b -> f_finite k = true -> (Qabs (f_val k) <= 1000000)%Q -> f_finite cz = true -> (Qabs (f_val cz) <= inject_Z (2 ^ 60))%Q ->
  let q := (zq (reading b) * (1 # 1000) * f_val k)%Q in about (f_add (weight b k) cz) (q + f_val cz) (Qabs q + Qabs (f_val cz)).
Proof.
  intros O F K Fc C. destruct (weight_close b k O F K) as (W1 & W2 & W3). set (q := (zq (reading b) * (1 # 1000) * f_val k)%Q) in *. cbv zeta.
  destruct (add_close (weight b k) q (1 # 3200000) cz W1 W2) as (A & B); [lra|lra|exact Fc|exact W3|exact C|]. split; [exact A|]. eapply Qle_trans; [exact B|].
  pose proof (abs_pos q). pose proof (abs_pos (f_val cz)). assert (p2 (-105) <= p2 (-100))%Q by (vm_compute; discriminate). lra.
Qed.
Lemma tare_close b0 b1 k : octets b0 -> octets b1 -> f_finite k = true -> (Qabs (f_val k) <= 1000000)%Q ->
  let q0 := (zq (reading b0) * (1 # 1000) * f_val k)%Q in let q1 := (zq (reading b1) * (1 # 1000) * f_val k)%Q in
  about (f_add (weight b1 k) (f_opp (weight b0 k))) (q1 - q0) (Qabs q0 + Qabs q1).
Proof.
  intros O0 O1 F K. destruct (weight_close b0 k O0 F K) as (V1 & V2 & V3). destruct (weight_close b1 k O1 F K) as (W1 & W2 & W3).
  set (q0 := (zq (reading b0) * (1 # 1000) * f_val k)%Q) in *. set (q1 := (zq (reading b1) * (1 # 1000) * f_val k)%Q) in *. cbv zeta.
  set (w0 := weight b0 k) in *. pose proof (opp_val w0) as OV. pose proof (abs_pos q0) as A0. pose proof (abs_pos q1) as A1.
  assert (AW : (Qabs (f_val (f_opp w0)) <= Qabs q0 * (1 + (1 # 3200000)) + p2 (-110))%Q).
  { rewrite OV, Qabs_opp. setoid_replace (f_val w0) with ((f_val w0 - q0) + q0)%Q by ring. eapply Qle_trans; [apply abs_tri|]. lra. }
  assert (BW : (Qabs (f_val (f_opp w0)) <= inject_Z (2 ^ 60))%Q).
  { assert (Qabs q0 <= inject_Z (2 ^ 33) * 1000000)%Q.
    { unfold q0. pose proof (reading_range b0 O0) as R. eapply Qle_trans; [apply prod_le; [apply zq_mul with (C := 1 # 1000); [vm_compute; discriminate|vm_compute; discriminate|lia]|exact K]|]. vm_compute. discriminate. }
    eapply Qle_trans; [exact AW|]. assert (inject_Z (2 ^ 33) * 2000000 + 1 <= inject_Z (2 ^ 60) /\ p2 (-110) <= 1)%Q as (H1 & H2) by (split; vm_compute; discriminate). lra. }
  destruct (add_close (weight b1 k) q1 (1 # 3200000) (f_opp w0) W1 W2) as (A & B); [lra|lra|rewrite opp_finite; exact V1|exact W3|exact BW|]. split; [exact A|].
  setoid_replace (f_val (f_add (weight b1 k) (f_opp w0)) - (q1 - q0))%Q with ((f_val (f_add (weight b1 k) (f_opp w0)) - (q1 + f_val (f_opp w0))) + - (f_val w0 - q0))%Q by (rewrite OV; ring).
  eapply Qle_trans; [apply abs_tri|]. rewrite Qabs_opp. set (y1 := p2 (-110)) in *. set (y2 := p2 (-105)) in *. set (y3 := p2 (-100)).
  assert (YS : (0 <= y1 /\ y1 + y1 + y2 <= y3)%Q) by (split; vm_compute; discriminate). lra.
Qed.
Lemma tare_zero x : f_finite x = true -> (f_val (f_add x (f_opp x)) == 0)%Q /\ f_finite (f_add x (f_opp x)) = true.
Proof.
  intros F. assert (V0 : (f_val 0 == 0)%Q) by (vm_compute; reflexivity). assert (S : (f_val x + f_val (f_opp x) == f_val 0)%Q) by (rewrite opp_val, V0; ring).
  destruct (add_rel x (f_opp x)) as (A & B); [exact F|rewrite opp_finite; exact F|rewrite S; vm_compute; discriminate|]. split; [|exact A].
  rewrite <- V0. apply val_eq; [exact A|reflexivity|]. rewrite add_finite by (try rewrite opp_finite; exact F).
  destruct (round_parts (f_neg x && f_neg (f_opp x)) (f_val x + f_val (f_opp x))) as (-> & _). rewrite (rk_comp _ _ S), rk_exact; reflexivity.
Qed.

(** * Level *)

Lemma percent x q y : close x q -> f_finite y = true -> (Qabs q <= inject_Z (2 ^ 33))%Q -> (1 # 1000 <= Qabs (f_val y))%Q ->
  about (f_mul (f_div x y) (f_of_Z 100)) (100 * (q / f_val y)) (Qabs (100 * (q / f_val y))).
Proof.
  intros C Fy Q Y. destruct (div_close x q y C Fy Q Y) as (F & E). set (d := f_div x y) in *. set (T := (q / f_val y)%Q) in *. set (D := f_val d) in *.
  destruct (of_Z_exact 100 ltac:(lia)) as (F1 & V1). set (h := f_of_Z 100) in *. assert (V100 : (f_val h == 100)%Q) by (rewrite V1; reflexivity).
  set (aT := Qabs T) in *. assert (T0 : (0 <= aT)%Q) by apply abs_pos.
  set (z0 := p2 (-150)). set (z1 := p2 (-125)) in *. set (z2 := p2 (-100)).
  assert (ZS : (0 <= z0 /\ z0 <= 1 # 100 /\ 0 <= z1 /\ z1 <= 1 # 1000000 /\ 300 * z1 + z0 <= z2)%Q) by (repeat split; vm_compute; discriminate).
  destruct ZS as (Z0 & Z0' & Z1 & Z1' & Z2).
  assert (A100 : forall t, (Qabs (t * 100) == Qabs t * 100)%Q) by (intros t; rewrite abs_mul; reflexivity).
  assert (AD : (Qabs D <= aT * (1 + (1 # 3200000)) + z1)%Q).
  { setoid_replace D with ((D - T) + T)%Q by ring. eapply Qle_trans; [apply abs_tri|]. fold aT. lra. }
  assert (AV : (aT * Qabs (f_val y) == Qabs q)%Q).
  { unfold aT. rewrite <- abs_mul. apply abs_comp. unfold T. field. intros Z. assert (W : (Qabs (f_val y) == 0)%Q) by (rewrite Z; reflexivity). lra. }
  assert (TB : (aT <= 1000 * Qabs q)%Q) by nra.
  destruct (mul_rel d h F F1) as (G & H).
  { fold D. setoid_replace (D * f_val h)%Q with (D * 100)%Q by (rewrite V100; ring). rewrite A100. assert (inject_Z (2 ^ 33) * 1000000 + 2 <= p2 127)%Q by (vm_compute; discriminate). lra. }
  fold D z0 in H. split; [exact G|].
  setoid_replace (f_val (f_mul d h) - 100 * T)%Q with ((f_val (f_mul d h) - D * f_val h) + (D - T) * 100)%Q by (rewrite V100; ring).
  eapply Qle_trans; [apply abs_tri|]. rewrite A100. setoid_replace (100 * T)%Q with (T * 100)%Q by ring. rewrite A100. fold aT.
  assert (HH : (Qabs (D * f_val h) == Qabs D * 100)%Q) by (rewrite <- A100; apply abs_comp; rewrite V100; ring). rewrite HH in H. fold z2. lra.
Qed.
