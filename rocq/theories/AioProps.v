(** Theorems about analog and discrete channels (C31, C68, C69). *)
From Coq Require Import ZArith List Bool Lia QArith Qround Qpower Qabs Qminmax Lqa.
From Verif Require Import Base FTextModel FTextProofs FloatModel FloatProofs FloatProofs2 FloatProofs3 AioModel AioSpec AioProofs AioProofs2 AioProofs3 AioProofs4.
Import ListNotations.
Open Scope Q_scope.

(** * C31: outputs *)

(** Whatever number is written, the code stands for 4..20 mA and nothing else is
    written. *)
Theorem C31_range m l i c value mn mx K : channel l i = Some c -> out_scale (mtype c) = Some K ->
  f_isnan value = false -> usable_scale mn mx ->
  exists m', set_AO m l i value mn mx = Some (m', 0%Z) /\ (0 <= m' (addr c))%Z /\
    4 + inject_Z (m' (addr c)) / K <= 20 /\ forall a, a <> addr c -> m' a = m a.
Proof.
  intros HC HO NV US. destruct (set_AO_code m l i c value mn mx K HC HO NV US) as (code & E & P & T & _).
  exists (put m (addr c) code). split; [exact E|]. unfold put. rewrite Z.eqb_refl. split; [exact P|]. split.
  - destruct (out_module _ _ HO) as (_ & _ & _ & _ & K1 & _).
    assert (inject_Z code / K <= 16); [|lra]. apply Qle_shift_div_r; lra.
  - intros a N. destruct (Z.eqb_spec a (addr c)); [contradiction|reflexivity].
Qed.
Print Assumptions C31_range.

(** The current is the wanted one, limited to the range, up to one code and
    2^-15 mA. *)
Theorem C31_accuracy m l i c value mn mx K : channel l i = Some c -> out_scale (mtype c) = Some K ->
  sensible value -> sensible_scale mn mx ->
  exists m', set_AO m l i value mn mx = Some (m', 0%Z) /\
    let out := 4 + inject_Z (m' (addr c)) / K in
    let want := limited (wanted (f_val value) (f_val mn) (f_val mx)) in
    want - 1 / K - p2 (-15) <= out /\ out <= want + p2 (-15).
Proof.
  intros HC HO SV SS. pose proof (sensible_usable mn mx SS) as US. destruct SV as (FV & BV).
  destruct (set_AO_code m l i c value mn mx K HC HO (proj1 (finite_not _ FV)) US) as (code & E & P & T & C1 & C2).
  exists (put m (addr c) code). split; [exact E|]. cbv zeta in *. unfold put. rewrite Z.eqb_refl.
  destruct (out_module _ _ HO) as (_ & _ & _ & _ & K1 & _). 
  set (v := f_val (clampF (place value mn mx))) in *.
  assert (A : Qabs (v - limited (wanted (f_val value) (f_val mn) (f_val mx))) <= 250 * u).
  { unfold v, place. destruct SS as ((Fn & Bn) & (Fx & Bx) & S). rewrite unscaled_spec by assumption. unfold wanted.
    destruct (no_scale (f_val mn) (f_val mx)) eqn:NS.
    - rewrite clampF_val by exact FV. rewrite (abs_comp _ 0) by ring. discriminate.
    - destruct S as [S|S]; [discriminate S|].
      destruct (to_mA_close value mn mx (conj FV BV) (conj Fn Bn) (conj Fx Bx) S) as (Ft & Ct). cbv zeta in Ct.
      set (t := 16 * (f_val value - f_val mn) / (f_val mx - f_val mn)) in *.
      rewrite clampF_val by exact Ft. set (y := f_val (to_mA value mn mx)) in *. clearbody y t.
      apply abs_iff in Ct. apply abs_iff. unfold limited.
      destruct (Qlt_le_dec 32 t) as [B|B]; [|destruct (Qlt_le_dec t (-32)) as [B'|B']].
      + rewrite Qabs_pos in Ct by lra. rewrite (Q.min_l 20 y), (Q.min_l 20 (4 + t)) by lra. lra.
      + rewrite Qabs_neg in Ct by lra. rewrite (Q.min_r 20 y), (Q.min_r 20 (4 + t)) by lra. rewrite !Q.max_l by lra. lra.
      + assert (TB : Qabs t <= 32) by (apply abs_iff; lra).
        destruct (Q.min_spec 20 y) as [[M1 ->]|[M1 ->]], (Q.min_spec 20 (4 + t)) as [[M2 ->]|[M2 ->]];
        try (destruct (Q.max_spec 4 y) as [[M3 ->]|[M3 ->]]); try (destruct (Q.max_spec 4 (4 + t)) as [[M4 ->]|[M4 ->]]);
        rewrite ?(Q.max_r 4 20) by lra; lra. }
  apply abs_iff in A. set (w := limited _) in *. clearbody w v.
  assert (P15 : p2 (-15) == 512 * u) by (vm_compute; reflexivity). rewrite P15.
  assert (KP : 0 < K) by lra. assert (IK : inject_Z code == inject_Z code / K * K) by (field; lra).
  assert (I1 : 1 == 1 / K * K) by (field; lra).
  set (x := inject_Z code / K) in *. set (o := 1 / K) in *. 
  assert (D1 : (v - 4 - 33 * u - o) * K <= x * K) by lra.
  assert (D2 : x * K <= (v - 4 + 33 * u) * K) by lra.
  apply Qmult_lt_0_le_reg_r in D1; [|exact KP]. apply Qmult_lt_0_le_reg_r in D2; [|exact KP]. lra.
Qed.
Print Assumptions C31_accuracy.

(** On a rising scale a larger value never gives a smaller current. *)
Theorem C31_order m l i c a b mn mx K m1 m2 : channel l i = Some c -> out_scale (mtype c) = Some K ->
  f_le a b = true -> usable_scale mn mx -> no_scale (f_val mn) (f_val mx) = true \/ f_val mn < f_val mx ->
  set_AO m l i a mn mx = Some (m1, 0%Z) -> set_AO m l i b mn mx = Some (m2, 0%Z) -> (m1 (addr c) <= m2 (addr c))%Z.
Proof.
  intros HC HO LE US O E1 E2. apply f_le_spec in LE. destruct LE as (Na & Nb & KL).
  destruct (set_AO_code m l i c a mn mx K HC HO Na US) as (c1 & G1 & P1 & T1 & _).
  destruct (set_AO_code m l i c b mn mx K HC HO Nb US) as (c2 & G2 & P2 & T2 & _).
  rewrite G1 in E1. rewrite G2 in E2. injection E1 as <-. injection E2 as <-.
  destruct (out_module _ _ HO) as (k & top & Fk & Vk & K1 & K2 & Ft & Vt & Kk & SET & _).
  rewrite (SET m l i c a mn mx HC eq_refl), out_code_is in G1. rewrite (SET m l i c b mn mx HC eq_refl), out_code_is in G2.
  unfold put at 1 2. rewrite Z.eqb_refl.
  pose proof (place_nn a mn mx Na US) as PA. pose proof (place_nn b mn mx Nb US) as PB.
  pose proof (place_mono a b mn mx Na Nb US O KL) as PM.
  destruct (clampF_key _ PA) as (KA & _). destruct (clampF_key _ PB) as (KB & _).
  destruct (clampF_range _ PA) as (FA & _). destruct (clampF_range _ PB) as (FB & _).
  destruct (f_to_u32 (f_mul k (f_sub (clampF (place a mn mx)) (f_of_Z 4)))) as [w1|] eqn:W1; [|discriminate G1].
  destruct (f_to_u32 (f_mul k (f_sub (clampF (place b mn mx)) (f_of_Z 4)))) as [w2|] eqn:W2; [|discriminate G2].
  assert (WL : (w1 <= w2)%Z).
  { apply (code_mono k K _ _ w1 w2 Fk Vk ltac:(lra) Kk FA FB); [rewrite KA, KB; clear -PM; lia|exact W1|exact W2]. }
  assert (C1 : c1 = s16 w1) by (injection G1 as G1; apply (f_equal (fun f => f (addr c))) in G1; unfold put in G1; rewrite Z.eqb_refl in G1; congruence).
  assert (C2 : c2 = s16 w2) by (injection G2 as G2; apply (f_equal (fun f => f (addr c))) in G2; unfold put in G2; rewrite Z.eqb_refl in G2; congruence).
  destruct (code_of k K top _ Fk Vk ltac:(lra) ltac:(lra) Ft Vt FB (proj1 (proj2 (clampF_range _ PB))) (proj2 (proj2 (clampF_range _ PB)))) as (w & E & PW & TW & _).
  destruct (code_of k K top _ Fk Vk ltac:(lra) ltac:(lra) Ft Vt FA (proj1 (proj2 (clampF_range _ PA))) (proj2 (proj2 (clampF_range _ PA)))) as (w' & E' & PW' & _).
  rewrite W2 in E. injection E as <-. rewrite W1 in E'. injection E' as <-.
  assert (W15 : (w2 < 2 ^ 15)%Z).
  { rewrite Zlt_Qlt. assert (KV : K == 4095 # 2 \/ K <= 1875).
    { clear - HO. unfold out_scale in HO. repeat (match type of HO with context [if ?b then _ else _] => destruct b end; [injection HO as <-; try (left; reflexivity); right; discriminate|]). discriminate. }
    change (inject_Z (2 ^ 15)) with 32768. destruct KV as [KV|KV]; [rewrite KV in TW|]; lra. }
  rewrite C1, C2. clear - PW PW' WL W15. rewrite !s16_small by lia. exact WL.
Qed.
Print Assumptions C31_order.

(** The ends of the scale give exactly the ends of the range. *)
Lemma full_scale mt K : out_scale mt = Some K -> exists w, K * 16 == inject_Z w /\ (0 <= w < 2 ^ 15)%Z.
Proof.
  unfold out_scale. intros HO.
  repeat (match type of HO with context [if ?b then _ else _] => destruct b end;
    [injection HO as <-; first [exists 32760%Z; split; [reflexivity|lia] | exists 30000%Z; split; [reflexivity|lia] | exists 16000%Z; split; [reflexivity|lia]]|]).
  discriminate HO.
Qed.
Theorem C31_ends m l i c mn mx K : channel l i = Some c -> out_scale (mtype c) = Some K ->
  sensible_scale mn mx -> no_scale (f_val mn) (f_val mx) = false ->
  exists m1 m2, set_AO m l i mn mn mx = Some (m1, 0%Z) /\ m1 (addr c) = 0%Z /\
    set_AO m l i mx mn mx = Some (m2, 0%Z) /\ inject_Z (m2 (addr c)) == K * 16.
Proof.
  intros HC HO SS NS.
  destruct (out_module _ _ HO) as (k & top & Fk & Vk & K1 & K2 & Ft & Vt & Kk & SET & _).
  destruct (to_mA_high mn mx SS NS) as (F20 & V20).
  pose proof (sensible_usable mn mx SS) as (Fn & Fx & US). destruct US as [US|(US & UB)]; [congruence|].
  destruct (to_mA_low mn mx Fn Fx US UB) as (F4 & V4).
  destruct (full_scale _ _ HO) as (w & KW & W).
  assert (UN : unscaled mn mx = false) by (rewrite unscaled_spec by assumption; exact NS).
  exists (put m (addr c) 0%Z), (put m (addr c) w).
  rewrite !(SET m l i c _ mn mx HC eq_refl), !out_code_is. unfold place. rewrite UN.
  assert (N4 : (4 <= 4 <= 20)%Z) by (clear; lia). assert (N20 : (4 <= 20 <= 20)%Z) by (clear; lia).
  rewrite (code_exact k K (to_mA mn mn mx) 4 0 Fk Vk F4 V4 N4); [|change (inject_Z (4 - 4)) with 0; change (inject_Z 0) with 0; ring|clear; lia].
  rewrite (code_exact k K (to_mA mx mn mx) 20 w Fk Vk F20 V20 N20); [|exact KW|clear - W; lia].
  rewrite !s16_small by (clear - W; lia). unfold put. rewrite Z.eqb_refl. repeat (split; [reflexivity|]). symmetry. exact KW.
Qed.
Print Assumptions C31_ends.

(** Reading an output back gives the value that was written, up to one code. *)
Theorem C31_read_back m l i c value mn mx K m' : channel l i = Some c -> out_scale (mtype c) = Some K ->
  sensible value -> sensible_scale mn mx ->
  let w := wanted (f_val value) (f_val mn) (f_val mx) in 4 <= w -> w <= 20 ->
  set_AO m l i value mn mx = Some (m', 0%Z) ->
  (mtype c = 554%Z \/ mtype c = 555%Z -> (7 <= m' (addr c))%Z) ->
  Qabs (f_val (get_AO m' l i mn mx) - f_val value) <=
    (if no_scale (f_val mn) (f_val mx) then 1 / K + p2 (-14)
     else (1 / K + p2 (-14)) * (Qabs (f_val mx - f_val mn) / 16) + (Qabs (f_val mn) + Qabs (f_val mx)) * (20 * u) + p2 (-140)).
Proof.
  intros HC HO SV SS w W4 W20 E OLD.
  destruct (C31_accuracy m l i c value mn mx K HC HO SV SS) as (m1 & E1 & A1 & A2).
  pose proof (sensible_usable mn mx SS) as US.
  destruct (C31_range m l i c value mn mx K HC HO (proj1 (finite_not _ (proj1 SV))) US) as (m2 & E2 & P & T & _).
  rewrite E in E1, E2. injection E1 as <-. injection E2 as <-.
  destruct (out_module _ _ HO) as (k & top & Fk & Vk & K1 & K2 & _ & _ & _ & _ & GET).
  rewrite (GET m' l i c mn mx HC eq_refl). set (code := m' (addr c)) in *. clearbody code. cbv zeta in *.
  fold w in A1, A2. assert (LW : limited w == w) by (unfold limited; rewrite Q.min_r, Q.max_r by assumption; reflexivity).
  rewrite LW in A1, A2. clear GET LW.
  assert (CB : (0 <= code < 2 ^ 15)%Z).
  { split; [exact P|]. rewrite Zlt_Qlt. change (inject_Z (2 ^ 15)) with 32768. destruct (full_scale _ _ HO) as (fw & FW & FB).
    assert (IK : inject_Z code == inject_Z code / K * K) by (field; lra).
    assert (X16 : inject_Z code / K <= 16) by lra.
    assert (inject_Z code <= 16 * K) by (rewrite IK; apply Qmult_le_compat_r; [exact X16|lra]).
    assert (FQ : inject_Z fw < inject_Z (2 ^ 15)) by (rewrite <- Zlt_Qlt; apply FB).
    change (inject_Z (2 ^ 15)) with 32768 in FQ. lra. }
  assert (NL : f_lt (f_of_Z code) (f_of_Z (if ((mtype c =? 554) || (mtype c =? 555))%Z then 7 else 0)) = false).
  { destruct (Z.eqb_spec (mtype c) 554) as [T1|T1]; [|destruct (Z.eqb_spec (mtype c) 555) as [T2|T2]]; cbn [orb];
    rewrite of_Z_lt by (clear - CB; lia); apply Z.ltb_ge; [apply OLD; left; exact T1|apply OLD; right; exact T2|apply CB]. }
  rewrite NL. clear NL OLD.
  assert (W16 : word16 code) by (unfold word16; clear - CB; lia).
  destruct (mA_close code k K W16 Fk Vk K1) as (FM & CM).
  destruct US as (Fn & Fx & US). rewrite unscaled_spec by assumption.
  assert (P15 : p2 (-15) == 512 * u) by (vm_compute; reflexivity). assert (P14 : p2 (-14) == 1024 * u) by (vm_compute; reflexivity).
  rewrite P15 in A1, A2. set (o := 1 / K) in *. assert (O0 : 0 <= o) by (unfold o; apply Qle_shift_div_l; lra).
  set (x := inject_Z code / K) in *. assert (X0 : 0 <= x) by (unfold x; apply Qle_shift_div_l; [lra|]; setoid_replace (0 * K) with 0 by ring; change 0 with (inject_Z 0); rewrite <- Zle_Qle; exact P).
  destruct (no_scale (f_val mn) (f_val mx)) eqn:NS; cbv iota.
  - assert (WV : w = f_val value) by (unfold w, wanted; rewrite NS; reflexivity). rewrite WV in *.
    apply abs_iff in CM. apply abs_iff. lra.
  - destruct US as [US|(US & UB)]; [discriminate US|].
    assert (XB : Qabs x <= 33) by (apply abs_iff; lra).
    destruct SS as (Sn & Sx & _).
    destruct (from_mA_close (mA (f_of_Z code) k) x mn mx FM CM XB Sn Sx) as (FF & CF). cbv zeta in CF.
    set (g := f_val (from_mA _ mn mx)) in *. set (d := f_val mx - f_val mn) in *.
    assert (D0 : ~ d == 0) by (intros Z0; apply US; unfold d in Z0; lra).
    assert (WV : f_val value == f_val mn + (w - 4) * d / 16).
    { unfold w, wanted. rewrite NS. fold d. field. exact D0. }
    assert (SPL : g - f_val value == (g - (f_val mn + x * d / 16)) + (x - (w - 4)) * (d / 16)) by (rewrite WV; field).
    rewrite (abs_comp _ _ SPL). eapply Qle_trans; [apply abs_tri|]. rewrite (abs_mul (x - (w - 4)) (d / 16)).
    assert (D16 : Qabs (d / 16) == Qabs d / 16) by (unfold Qdiv; rewrite abs_mul; reflexivity). rewrite D16.
    assert (XW : Qabs (x - (w - 4)) <= o + p2 (-14)) by (apply abs_iff; lra).
    assert (DP : 0 <= Qabs d / 16) by (apply Qle_shift_div_l; [reflexivity|]; setoid_replace (0 * 16) with 0 by ring; apply Qabs_nonneg).
    pose proof (Qmult_le_compat_r _ _ _ XW DP) as XX. clear - XX CF. lra.
Qed.
Print Assumptions C31_read_back.

(** The small codes of the modules 554 and 555 are shown as no current, or as
    the lower end of the scale. *)
Theorem C31_small m l i c mn mx : channel l i = Some c -> mtype c = 554%Z \/ mtype c = 555%Z -> (- 2 ^ 15 <= m (addr c) < 7)%Z ->
  get_AO m l i mn mx = (if unscaled mn mx then f_of_Z 0 else from_mA (f_of_Z 4) mn mx).
Proof.
  intros HC T W. unfold get_AO. rewrite HC. rewrite of_Z_lt by (clear - W; lia). 
  destruct (Z.ltb_spec (m (addr c)) 7); [|clear - W H; lia].
  destruct T as [-> | ->]; reflexivity.
Qed.
Print Assumptions C31_small.

(** A value that is no number has no result, nor has any value on an empty scale
    that is equal to it. *)
Theorem C31_nan_refuted m l i c K mn mx value : channel l i = Some c -> out_scale (mtype c) = Some K ->
  f_isnan value = true -> set_AO m l i value mn mx = None.
Proof.
  intros HC HO N. destruct (out_module _ _ HO) as (k & top & _ & _ & _ & _ & _ & _ & _ & SET & _).
  rewrite (SET m l i c value mn mx HC eq_refl), out_code_is.
  assert (P : f_isnan (place value mn mx) = true).
  { unfold place. destruct (unscaled mn mx); [exact N|]. unfold to_mA.
    assert (A : f_sub value mn = NAN) by (unfold f_sub, f_add; rewrite N; reflexivity). rewrite A. unfold f_mul.
    change (f_isnan NAN) with true. rewrite orb_true_r. cbv iota. unfold f_div. change (f_isnan NAN) with true. cbn [orb]. cbv iota.
    unfold f_add. change (f_isnan NAN) with true. rewrite orb_true_r. reflexivity. }
  assert (C : clampF (place value mn mx) = place value mn mx).
  { unfold clampF, f_lt. rewrite P. cbn [negb andb]. change (f_isnan (f_of_Z 20)) with false. rewrite P. reflexivity. }
  rewrite C.
  assert (A : f_sub (place value mn mx) (f_of_Z 4) = NAN) by (unfold f_sub, f_add; rewrite P; reflexivity). rewrite A.
  assert (M : f_mul k NAN = NAN) by (unfold f_mul; change (f_isnan NAN) with true; rewrite orb_true_r; reflexivity). rewrite M. reflexivity.
Qed.
Print Assumptions C31_nan_refuted.

Theorem C31_empty_scale_refuted : exists m l value mn mx,
  f_finite value = true /\ f_finite mn = true /\ f_finite mx = true /\ set_AO m l 0 value mn mx = None.
Proof.
  exists (fun _ => 0%Z), [Some {| addr := 0; mtype := 555 |}], (f_of_Z 5), (f_of_Z 5), (f_of_Z 5). repeat split; reflexivity.
Qed.
Print Assumptions C31_empty_scale_refuted.

(** Other modules get the whole part of the value as it is: a value that does not
    fit a word is shown as another one, a negative value has no result. *)
Theorem C31_other m l i c value mn mx w : channel l i = Some c -> out_scale (mtype c) = None ->
  f_finite value = true -> inject_Z w <= f_val value -> f_val value < inject_Z (w + 1) -> (0 <= w < 2 ^ 15)%Z ->
  set_AO m l i value mn mx = Some (put m (addr c) w, 0%Z) /\
  get_AO (put m (addr c) w) l i mn mx = f_of_Z w.
Proof.
  intros HC HO F L H W.
  assert (T : set_AO m l i value mn mx = match f_to_u32 value with Some n => Some (put m (addr c) (s16 n), 0%Z) | None => None end /\
              forall m', get_AO m' l i mn mx = f_of_Z (m' (addr c))).
  { clear - HC HO. unfold set_AO, get_AO. rewrite HC. unfold out_scale in HO.
    destruct (mtype c =? 554)%Z; [discriminate HO|]. destruct (mtype c =? 555)%Z; [discriminate HO|].
    destruct (mtype c =? 2688527)%Z; [discriminate HO|]. destruct (mtype c =? 2702072)%Z; [discriminate HO|].
    destruct (mtype c =? 1088123)%Z; [discriminate HO|]. split; reflexivity. }
  destruct T as (T1 & T2). rewrite T1, T2.
  assert (FL : Qfloor (f_val value) = w).
  { pose proof (Qfloor_le (f_val value)) as F1. pose proof (Qlt_floor (f_val value)) as F2.
    assert (A : inject_Z w < inject_Z (Qfloor (f_val value) + 1)) by lra. assert (B : inject_Z (Qfloor (f_val value)) < inject_Z (w + 1)) by lra.
    rewrite <- Zlt_Qlt in A, B. clear - A B. lia. }
  assert (P0 : 0 <= f_val value).
  { assert (inject_Z 0 <= inject_Z w) by (rewrite <- Zle_Qle; apply W). change (inject_Z 0) with 0 in H0. lra. }
  rewrite (to_u32_pos value F P0) by (rewrite FL; clear - W; lia). rewrite FL. rewrite s16_small by exact W.
  split; [reflexivity|]. unfold put. rewrite Z.eqb_refl. reflexivity.
Qed.
Print Assumptions C31_other.
Theorem C31_other_refuted : exists m l,
  set_AO m l 0 (f_of_Z (-1)) 0 0 = None /\
  exists m', set_AO m l 0 (f_of_Z 40000) 0 0 = Some (m', 0%Z) /\ get_AO m' l 0 0 0 = f_of_Z (-25536).
Proof.
  exists (fun _ => 0%Z), [Some {| addr := 0; mtype := 600 |}]. split; [reflexivity|].
  exists (put (fun _ => 0%Z) 0 (-25536)). split; reflexivity.
Qed.
Print Assumptions C31_other_refuted.

(** Half of the scale 0..50 on a module 555 is 12 mA, code 16380; read back as 25. *)
Example C31_ex : exists m', set_AO (fun _ => 0%Z) [None; Some {| addr := 5; mtype := 555 |}] 1 (f_of_Z 25) (f_of_Z 0) (f_of_Z 50) = Some (m', 0%Z) /\
  m' 5%Z = 16380%Z /\ get_AO m' [None; Some {| addr := 5; mtype := 555 |}] 1 (f_of_Z 0) (f_of_Z 50) = f_of_Z 25.
Proof. exists (put (fun _ => 0%Z) 5 16380). repeat split; reflexivity. Qed.

(** * C68: inputs *)

(** A fault is told with its own value and error. *)
Theorem C68_fault m l i c mn mx v e : channel l i = Some c -> word16 (m (addr c)) ->
  input_of (mtype c) (m (addr c)) = Fault v e -> get_AI m l i mn mx = (f_of_Z v, e).
Proof.
  intros HC W. unfold input_of, get_AI. rewrite HC. set (w := m (addr c)) in *. clearbody w. unfold word16 in W. cbv zeta.
  rewrite !of_Z_lt by (clear - W; lia). rewrite !of_Z_le by (clear - W; lia). rewrite of_Z_eq by (clear - W; lia).
  destruct ((mtype c =? 461) || (mtype c =? 450))%Z.
  { destruct (w <? -2000)%Z; [intros E; injection E as <- <-; reflexivity|]. destruct (8500 <? w)%Z; [intros E; injection E as <- <-; reflexivity|intros E; discriminate E]. }
  destruct ((mtype c =? 466) || (mtype c =? 496))%Z.
  { rewrite (Z.eqb_sym w 3). destruct (3 =? w)%Z; [intros E; injection E as <- <-; reflexivity|].
    replace (32760 <? w)%Z with (32761 <=? w)%Z by (clear; lia).
    destruct (32761 <=? w)%Z; [intros E; injection E as <- <-; reflexivity|intros E; discriminate E]. }
  destruct (mtype c =? 491)%Z.
  { replace ((w <? -30000) || (30000 <? w))%Z with (negb ((-30000 <=? w) && (w <=? 30000)))%Z by (clear; lia).
    destruct ((-30000 <=? w) && (w <=? 30000))%Z; intros E; [discriminate E|injection E as <- <-; reflexivity]. }
  destruct (mtype c =? 2688556)%Z.
  { destruct (w <? -32000)%Z; intros E; [injection E as <- <-; reflexivity|discriminate E]. }
  destruct ((mtype c =? 2688491) || (mtype c =? 2702072))%Z.
  { destruct (w <? -32000)%Z; intros E; [injection E as <- <-; reflexivity|discriminate E]. }
  destruct (mtype c =? 1088062)%Z.
  { destruct (w <? -32000)%Z; intros E; [injection E as <- <-; reflexivity|discriminate E]. }
  intros E; discriminate E.
Qed.
Print Assumptions C68_fault.

(** A scaled number. *)
Lemma scaled c r q : word16 c -> f_finite r = true -> Qabs (f_val r - q) <= q * (2 * u) -> (1 # 2000) <= q -> q <= 1 ->
  Qabs (f_val (f_mul (f_of_Z c) r) - inject_Z c * q) <= Qabs (inject_Z c) * q * p2 (-22).
Proof.
  intros W Fr Er Q1 Q2. destruct (of_Z_exact c (word16_24 c W)) as (Fc & Vc). destruct small_z as (Z0 & ZU).
  assert (P22 : p2 (-22) == 4 * u) by (vm_compute; reflexivity). rewrite P22.
  destruct (Z.eq_dec c 0) as [->|NZ].
  - assert (V : f_val (f_mul (f_of_Z 0) r) == 0).
    { rewrite (mul_finite _ _ Fc Fr). assert (Y : f_val (f_of_Z 0) * f_val r == 0) by (rewrite Vc; change (inject_Z 0) with 0; ring).
      destruct (round_exact (xorb (f_neg (f_of_Z 0)) (f_neg r)) 0%Z (f_val (f_of_Z 0) * f_val r) eq_refl) as (_ & Q); [rewrite Y; reflexivity|].
      rewrite Q. exact Y. }
    change (inject_Z 0) with 0 in *. rewrite (abs_comp _ 0) by (rewrite V; ring). change (Qabs 0) with 0. lra.
  - assert (C1 : 1 <= Qabs (inject_Z c)).
    { change (Qabs (inject_Z c)) with (inject_Z (Z.abs c)). change 1 with (inject_Z 1). rewrite <- Zle_Qle. lia. }
    assert (C2 : Qabs (inject_Z c) <= 32768).
    { change (Qabs (inject_Z c)) with (inject_Z (Z.abs c)). change 32768 with (inject_Z 32768). rewrite <- Zle_Qle. unfold word16 in W. lia. }
    set (x := inject_Z c) in *. clearbody x. set (r' := f_val r) in *.
    assert (D : Qabs (x * r' - x * q) <= Qabs x * (q * (2 * u))).
    { rewrite (abs_comp _ (x * (r' - q))) by ring. rewrite abs_mul. rewrite !(Qmult_comm (Qabs x)). apply Qmult_le_compat_r; [exact Er|apply Qabs_nonneg]. }
    assert (XQ0 : 0 <= Qabs x * q) by (apply Qmult_le_0_compat; lra).
    assert (XQ : Qabs (x * r') <= Qabs x * q * (1 + 2 * u)).
    { rewrite (abs_comp _ ((x * r' - x * q) + x * q)) by ring. eapply Qle_trans; [apply abs_tri|]. rewrite (abs_mul x q).
      rewrite (Qabs_pos q) by lra. lra. }
    assert (XQB : Qabs x * q <= 32768).
    { assert (A : Qabs x * q <= 32768 * q) by (apply Qmult_le_compat_r; lra). lra. }
    assert (XQL : 1 # 2000 <= Qabs x * q).
    { assert (A : 1 * q <= Qabs x * q) by (apply Qmult_le_compat_r; lra). lra. }
    assert (BIGB : 100000 <= p2 127) by (vm_compute; discriminate).
    assert (XC : f_val (f_of_Z c) * r' == x * r') by (rewrite Vc; reflexivity).
    destruct (mul_rel (f_of_Z c) r Fc Fr) as (FM & EM).
    { fold r'. rewrite (abs_comp _ _ XC). lra. }
    fold r' in EM. rewrite (abs_comp _ _ XC) in EM.
    assert (ZS : z <= u * (1 # 10000)) by exact ZU.
    rewrite (abs_comp _ ((f_val (f_mul (f_of_Z c) r) - f_val (f_of_Z c) * r') + (x * r' - x * q))) by (rewrite XC; ring).
    eapply Qle_trans; [apply abs_tri|]. set (xq := Qabs x * q) in *. 
    setoid_replace (Qabs x * (q * (2 * u))) with (xq * (2 * u)) in D by (unfold xq; ring).
    clear - EM D XQ XQ0 XQL ZS. lra.
Qed.

Theorem C68_number m l i c mn mx q : channel l i = Some c -> word16 (m (addr c)) ->
  input_of (mtype c) (m (addr c)) = Number q ->
  let (value, err) := get_AI m l i mn mx in
  err = 0%Z /\ Qabs (f_val value - inject_Z (m (addr c)) * q) <= Qabs (inject_Z (m (addr c))) * q * p2 (-22).
Proof.
  intros HC W. unfold input_of, get_AI. rewrite HC. set (w := m (addr c)) in *. clearbody w. pose proof W as WW. unfold word16 in W. cbv zeta.
  rewrite !of_Z_lt by (clear - W; lia). rewrite !of_Z_le by (clear - W; lia). rewrite of_Z_eq by (clear - W; lia).
  assert (S10 : Qabs (f_val (f_mul (f_of_Z w) (f_lit (1 # 10))) - inject_Z w * (1 # 10)) <= Qabs (inject_Z w) * (1 # 10) * p2 (-22)).
  { apply scaled; [exact WW|reflexivity| | |]; vm_compute; discriminate. }
  assert (S2000 : Qabs (f_val (f_mul (f_of_Z w) (f_lit (5 # 10000))) - inject_Z w * (1 # 2000)) <= Qabs (inject_Z w) * (1 # 2000) * p2 (-22)).
  { apply scaled; [exact WW|reflexivity| | |]; vm_compute; discriminate. }
  destruct ((mtype c =? 461) || (mtype c =? 450))%Z.
  { destruct (w <? -2000)%Z; [intros E; discriminate E|]. destruct (8500 <? w)%Z; [intros E; discriminate E|intros E; injection E as <-].
    split; [reflexivity|exact S10]. }
  destruct ((mtype c =? 466) || (mtype c =? 496))%Z.
  { destruct (w =? 3)%Z; [intros E; discriminate E|]. destruct (32760 <? w)%Z; intros E; discriminate E. }
  destruct (mtype c =? 491)%Z.
  { replace ((w <? -30000) || (30000 <? w))%Z with (negb ((-30000 <=? w) && (w <=? 30000)))%Z by (clear; lia).
    destruct ((-30000 <=? w) && (w <=? 30000))%Z; intros E; [injection E as <-; split; [reflexivity|exact S2000]|discriminate E]. }
  destruct (mtype c =? 2688556)%Z.
  { destruct (w <? -32000)%Z; intros E; [discriminate E|injection E as <-]. split; [reflexivity|exact S10]. }
  destruct ((mtype c =? 2688491) || (mtype c =? 2702072))%Z.
  { destruct (w <? -32000)%Z; intros E; discriminate E. }
  destruct (mtype c =? 1088062)%Z.
  { destruct (w <? -32000)%Z; intros E; discriminate E. }
  intros E; injection E as <-. split; [reflexivity|].
  destruct (of_Z_exact w (word16_24 w WW)) as (_ & V). rewrite (abs_comp _ 0) by (rewrite V; ring).
  change (Qabs 0) with 0. apply Qmult_le_0_compat; [|discriminate]. apply Qmult_le_0_compat; [apply Qabs_nonneg|discriminate].
Qed.
Print Assumptions C68_number.

Theorem C68_current m l i c mn mx K : channel l i = Some c -> word16 (m (addr c)) -> sensible mn -> sensible mx ->
  input_of (mtype c) (m (addr c)) = Current K ->
  let (value, err) := get_AI m l i mn mx in
  let x := inject_Z (m (addr c)) / K in
  err = 0%Z /\ Qabs (f_val value - shown x (f_val mn) (f_val mx)) <=
    (if no_scale (f_val mn) (f_val mx) then p2 (-17) else (Qabs (f_val mn) + Qabs (f_val mx)) * (20 * u) + p2 (-140)).
Proof.
  intros HC W Sn Sx. unfold input_of, get_AI. rewrite HC. set (w := m (addr c)) in *. clearbody w. pose proof W as WW. unfold word16 in W. cbv zeta.
  rewrite !of_Z_lt by (clear - W; lia). rewrite !of_Z_le by (clear - W; lia). rewrite of_Z_eq by (clear - W; lia).
  rewrite (unscaled_spec mn mx (proj1 Sn) (proj1 Sx)).
  assert (CUR : forall k K, f_finite k = true -> f_val k == K -> 1000 <= K ->
    Qabs (f_val (if no_scale (f_val mn) (f_val mx) then mA (f_of_Z w) k else from_mA (mA (f_of_Z w) k) mn mx) - shown (inject_Z w / K) (f_val mn) (f_val mx)) <=
    (if no_scale (f_val mn) (f_val mx) then p2 (-17) else (Qabs (f_val mn) + Qabs (f_val mx)) * (20 * u) + p2 (-140))).
  { clear K. intros k K Fk Vk HK. destruct (mA_close w k K WW Fk Vk HK) as (FM & CM). unfold shown.
    assert (P17 : 75 * u <= p2 (-17)) by (vm_compute; discriminate).
    destruct (no_scale (f_val mn) (f_val mx)); [lra|].
    apply (from_mA_close (mA (f_of_Z w) k) (inject_Z w / K) mn mx FM CM (ratio_bound w K WW HK) Sn Sx). }
  destruct ((mtype c =? 461) || (mtype c =? 450))%Z.
  { destruct (w <? -2000)%Z; [intros E; discriminate E|]. destruct (8500 <? w)%Z; intros E; discriminate E. }
  destruct ((mtype c =? 466) || (mtype c =? 496))%Z.
  { rewrite (Z.eqb_sym w 3). destruct (3 =? w)%Z; [intros E; discriminate E|].
    replace (32760 <? w)%Z with (32761 <=? w)%Z by (clear; lia).
    destruct (32761 <=? w)%Z; intros E; [discriminate E|injection E as <-]. split; [reflexivity|]. apply CUR; [reflexivity|reflexivity|discriminate]. }
  destruct (mtype c =? 491)%Z.
  { destruct ((w <? -30000) || (30000 <? w))%Z; intros E; discriminate E. }
  destruct (mtype c =? 2688556)%Z.
  { destruct (w <? -32000)%Z; intros E; discriminate E. }
  destruct ((mtype c =? 2688491) || (mtype c =? 2702072))%Z.
  { destruct (w <? -32000)%Z; intros E; [discriminate E|injection E as <-]. split; [reflexivity|]. apply CUR; [reflexivity|reflexivity|discriminate]. }
  destruct (mtype c =? 1088062)%Z.
  { destruct (w <? -32000)%Z; intros E; [discriminate E|injection E as <-]. split; [reflexivity|]. apply CUR; [reflexivity|reflexivity|discriminate]. }
  intros E; discriminate E.
Qed.
Print Assumptions C68_current.

(** A broken wire of a module 2688491 is below any value and is not seen above
    -32000; module 466 only sees the code 3. *)
Theorem C68_broken_wire_refuted : exists m l,
  input_of 466 2 = Current (4095 # 2) /\ get_AI m l 0 0 0 = (mA (f_of_Z 2) (f_lit (4095 # 2)), 0%Z).
Proof. exists (fun _ => 2%Z), [Some {| addr := 0; mtype := 466 |}]. split; reflexivity. Qed.
Print Assumptions C68_broken_wire_refuted.

(** 23.5 degrees on a module 461. *)
Example C68_ex : get_AI (fun _ => 235%Z) [Some {| addr := 0; mtype := 461 |}] 0 0 0 = (f_lit (235 # 10), 0%Z) /\
  get_AI (fun _ => 8501%Z) [Some {| addr := 0; mtype := 461 |}] 0 0 0 = (f_of_Z (-1000), 3%Z) /\
  get_AI (fun _ => 16380%Z) [Some {| addr := 0; mtype := 466 |}] 0 (f_of_Z 0) (f_of_Z 100) = (f_of_Z 50, 0%Z).
Proof. repeat split; reflexivity. Qed.

(** * C69: channels *)

(** A channel that was not set up, or that the device does not have, reads as
    nothing and takes no writes. *)
Theorem C69_missing m (d : list (option Z)) (a : list (option chan)) i v mn mx :
  (forall x, (0 <= i)%Z -> nth_error d (Z.to_nat i) = Some x -> x = None) ->
  (forall x, (0 <= i)%Z -> nth_error a (Z.to_nat i) = Some x -> x = None) ->
  get_DO m d i = 0%Z /\ get_DI m d i = 0%Z /\ set_DO m d i v = (m, 1%Z) /\
  get_AO m a i mn mx = f_of_Z 0 /\ get_AI m a i mn mx = (f_of_Z 0, 100%Z) /\ set_AO m a i v mn mx = Some (m, 0%Z).
Proof.
  intros HD HA.
  assert (CH : forall A (l : list (option A)), (forall x, (0 <= i)%Z -> nth_error l (Z.to_nat i) = Some x -> x = None) -> channel l i = None).
  { intros A l HL. unfold channel. destruct (_ && _) eqn:E; [|reflexivity]. apply andb_prop in E. destruct E as (E1 & E2).
    destruct (nth_error l (Z.to_nat i)) as [x|] eqn:N; [|apply nth_error_None in N; lia].
    rewrite (nth_error_nth _ _ _ N). apply HL; [lia|reflexivity]. }
  unfold get_DO, get_DI, set_DO, get_AO, get_AI, set_AO. rewrite (CH _ d HD), (CH _ a HA). repeat split; reflexivity.
Qed.
Print Assumptions C69_missing.

(** A discrete output reads back as written and nothing else changes. *)
Theorem C69_DO m d i a v : (0 <= i)%Z -> nth_error d (Z.to_nat i) = Some (Some a) -> (0 <= v < 256)%Z ->
  let (m', r) := set_DO m d i v in
  r = 0%Z /\ get_DO m' d i = v /\ forall b, b <> a -> m' b = m b.
Proof.
  intros I N V. assert (CH : channel d i = Some a).
  { unfold channel. assert (L : (Z.to_nat i < length d)%nat) by (apply nth_error_Some; rewrite N; discriminate).
    replace ((0 <=? i) && (i <? Z.of_nat (length d)))%Z with true by lia. apply nth_error_nth. exact N. }
  unfold set_DO, get_DO. rewrite CH. split; [reflexivity|]. unfold put, u8. rewrite Z.eqb_refl.
  split; [apply Z.mod_small; lia|]. intros b B. destruct (Z.eqb_spec b a); [contradiction|reflexivity].
Qed.
Print Assumptions C69_DO.
Example C69_ex : fst (get_AI (fun _ => 7%Z) [None] 0 0 0) = 0%Z /\ get_AI (fun _ => 7%Z) [None] (-1) 0 0 = (0, 100)%Z /\
  get_DO (fst (set_DO (fun _ => 0%Z) [None; Some 3%Z] 1 1)) [None; Some 3%Z] 1 = 1%Z.
Proof. repeat split; reflexivity. Qed.
