(** Frequencies of Altivar converters. *)
From Coq Require Import ZArith List Bool Lia QArith Qround Qpower Qabs Qminmax Lqa.
From Verif Require Import Base TimeModel FTextModel FTextProofs FloatModel FloatProofs FloatProofs2 FloatProofs3 AioProofs AioProofs2 PidProofs2 AtvModel AtvSpec AtvProofs.
Import ListNotations.
Open Scope Q_scope.

Notation u := (1 # 16777216).
Notation z := (p2 (-150)).
Lemma z_small : 0 <= z /\ z <= u * (1 # 1000).
Proof. split; vm_compute; discriminate. Qed.
Lemma p127 : 100000 <= p2 127.
Proof. vm_compute. discriminate. Qed.

(** The limit of frequency. *)
Definition lim_ok (f T : Z) : Prop := f_finite f = true /\ 10 <= f_val f <= 120 /\ Qabs (f_val f - inject_Z T / 10) <= 121 * u.
Lemma lt_q a b : f_finite a = true -> f_finite b = true -> f_lt a b = true <-> f_val a < f_val b.
Proof.
  intros A B. rewrite lt_val by assumption. destruct (Qle_bool (f_val b) (f_val a)) eqn:E; cbn [negb].
  - apply Qle_bool_iff in E. split; [discriminate|lra].
  - split; [|reflexivity]. intros _. destruct (Qlt_le_dec (f_val a) (f_val b)) as [L|L]; [exact L|]. apply Qle_bool_iff in L. congruence.
Qed.
Lemma inj_le a b : inject_Z a <= inject_Z b -> (a <= b)%Z.
Proof. intros H. rewrite <- Zle_Qle in H. exact H. Qed.
Lemma le_inj a b : (a <= b)%Z -> inject_Z a <= inject_Z b.
Proof. intros H. rewrite <- Zle_Qle. exact H. Qed.

Lemma limit_ok h : (- 2 ^ 15 <= h < 2 ^ 15)%Z -> lim_ok (limit h) (Z.max 100 (Z.min 1200 h)).
Proof.
  intros H. destruct z_small as (Z0 & Z1). pose proof p127 as P.
  assert (V10 : f_val (f_of_Z 10) == 10) by reflexivity. assert (V120 : f_val (f_of_Z 120) == 120) by reflexivity.
  assert (F10 : f_finite (f_of_Z 10) = true) by reflexivity. assert (F120 : f_finite (f_of_Z 120) = true) by reflexivity.
  assert (FH : f_finite (f_of_Z h) = true) by (apply fz; lia). assert (VH : f_val (f_of_Z h) == inject_Z h) by (apply vz; lia).
  assert (HB : Qabs (inject_Z h / 10) <= 3300).
  { apply abs_iff. pose proof (le_inj (- 32768) h ltac:(lia)). pose proof (le_inj h 32768 ltac:(lia)).
    change (inject_Z (-32768)) with (-32768 # 1) in *. change (inject_Z 32768) with (32768 # 1) in *.
    setoid_replace (inject_Z h / 10) with (inject_Z h * (1 # 10)) by field. lra. }
  assert (NZ : ~ f_val (f_of_Z 10) == 0) by (rewrite V10; lra).
  assert (EQ : f_val (f_of_Z h) / f_val (f_of_Z 10) == inject_Z h / 10) by (rewrite VH, V10; reflexivity).
  destruct (div_rel (f_of_Z h) (f_of_Z 10) FH F10 NZ) as (FM & EM); [rewrite EQ; lra|]. rewrite EQ in EM.
  unfold limit. cbv zeta. set (m := f_div (f_of_Z h) (f_of_Z 10)) in *. clearbody m.
  assert (H10 : inject_Z h / 10 == inject_Z h * (1 # 10)) by field.
  assert (EM1 : Qabs (f_val m - inject_Z h / 10) <= 1 # 1000) by lra.
  apply abs_iff in EM1.
  assert (C100 : inject_Z 100 == 100) by reflexivity. assert (C1200 : inject_Z 1200 == 1200) by reflexivity.
  assert (C101 : inject_Z 101 == 101) by reflexivity. assert (C99 : inject_Z 99 == 99) by reflexivity.
  assert (C1199 : inject_Z 1199 == 1199) by reflexivity. assert (C1201 : inject_Z 1201 == 1201) by reflexivity.
  destruct (f_lt m (f_of_Z 10)) eqn:L1.
  - apply (lt_q _ _ FM F10) in L1. rewrite V10 in L1.
    assert (h <= 100)%Z. { destruct (Z_le_gt_dec h 100) as [|G]; [assumption|]. pose proof (le_inj 101 h ltac:(lia)). lra. }
    replace (Z.max 100 (Z.min 1200 h)) with 100%Z by lia.
    change (f_lt (f_of_Z 120) (f_of_Z 10)) with false. cbv iota. split; [reflexivity|]. rewrite V10. split; [lra|]. apply abs_iff. rewrite C100.
    setoid_replace (10 - 100 / 10) with 0 by reflexivity. lra.
  - assert (L1' : 10 <= f_val m). { destruct (Qlt_le_dec (f_val m) 10) as [G|G]; [|exact G]. rewrite <- V10 in G. apply (lt_q _ _ FM F10) in G. congruence. }
    destruct (f_lt (f_of_Z 120) m) eqn:L2.
    + apply (lt_q _ _ F120 FM) in L2. rewrite V120 in L2.
      assert (1200 <= h)%Z. { destruct (Z_le_gt_dec 1200 h) as [|G]; [assumption|]. pose proof (le_inj h 1199 ltac:(lia)). lra. }
      replace (Z.max 100 (Z.min 1200 h)) with 1200%Z by lia. split; [reflexivity|]. rewrite V120. split; [lra|]. apply abs_iff. rewrite C1200.
      setoid_replace (120 - 1200 / 10) with 0 by reflexivity. lra.
    + assert (L2' : f_val m <= 120). { destruct (Qlt_le_dec 120 (f_val m)) as [G|G]; [|exact G]. rewrite <- V120 in G. apply (lt_q _ _ F120 FM) in G. congruence. }
      assert (100 <= h)%Z. { destruct (Z_le_gt_dec 100 h) as [|G]; [assumption|]. pose proof (le_inj h 99 ltac:(lia)). lra. }
      assert (h <= 1200)%Z. { destruct (Z_le_gt_dec h 1200) as [|G]; [assumption|]. pose proof (le_inj 1201 h ltac:(lia)). lra. }
      replace (Z.max 100 (Z.min 1200 h)) with h by lia. split; [exact FM|]. split; [lra|].
      assert (Qabs (inject_Z h / 10) <= 120 + (1 # 1000)) by (apply abs_iff; lra). lra.
Qed.
Lemma limit_first : lim_ok (f_of_Z 120) 1200.
Proof. split; [reflexivity|]. split; [split; vm_compute; discriminate|vm_compute; discriminate]. Qed.

(** The limit in force is the one last read. *)
Lemma watch_max w i s : fmax (watch w i s) = fmax s.
Proof. unfold watch. destruct (conn i); [reflexivity|]. destruct (_ && _); reflexivity. Qed.
Lemma step_max a w s e s' c p : step a w s e = Some (s', c) -> en s = active p -> lim_ok (fmax s) (tenths p) -> words_ok [e] ->
  lim_ok (fmax s') (tenths (note p (e, c))).
Proof.
  intros H EN L W. unfold step in H. destruct e; unfold note; cbn [fst].
  - unfold evaluate in H. rewrite EN in H. destruct (active p); [|injection H as <- <-; exact L].
    destruct (one a w i s) as [(s1, c1)|] eqn:E; [|discriminate]. injection H as <- <-. rewrite watch_max.
    destruct (one_inv a w i s s1 c1 E) as (_ & _ & _ & _ & _ & _ & O). rewrite O. cbv zeta. cbn [tenths].
    destruct (answered (Tick i, c1)); [|exact L]. apply limit_ok. apply W. left. reflexivity.
  - injection H as <- <-. destruct (man s); exact L.
  - injection H as <- <-. destruct (man s); exact L.
  - injection H as <- <-. destruct (set_keeps n s) as (_ & _ & _ & K). destruct (man s); cbn [tenths]; rewrite ?K; exact L.
  - injection H as <- <-. destruct (man s); exact L.
  - injection H as <- <-. destruct (man s); exact L.
  - injection H as <- <-. destruct (set_keeps n s) as (_ & _ & _ & K). cbn [tenths]. rewrite K. exact L.
  - injection H as <- <-. exact L.
  - injection H as <- <-. destruct (n =? 0)%Z; [|destruct (n =? 1)%Z]; exact L.
Qed.
Lemma run_max a w l : forall s p t s' tr, run a w s l = Some (s', tr) -> inv s p -> (0 <= seen p <= t)%Z -> timely w t l -> words_ok l ->
  lim_ok (fmax s) (tenths p) -> lim_ok (fmax s') (tenths (fold_left note tr p)).
Proof.
  induction l as [|e l IH]; intros s p t s' tr R I B T W L; cbn [run] in R; [injection R as <- <-; exact L|].
  destruct (step a w s e) as [(s1, c)|] eqn:E; [|discriminate]. destruct (run a w s1 l) as [(s2, t2)|] eqn:R2; [|discriminate]. injection R as <- <-.
  apply timely_cons in T. destruct T as (T1 & T2). destruct (step_inv a w s e s1 c p t E I B T1) as (J & S1 & S2).
  cbn [fold_left]. apply (IH s1 _ _ s2 t2 R2 J (conj S2 S1) T2).
  - intros i K. apply W. right. exact K.
  - apply (step_max a w s e s1 c p E (i_en _ _ I) L). intros i [K|[]]. apply W. left. exact K.
Qed.
Lemma history_max a w t0 l s t : (0 <= t0)%Z -> timely w t0 l -> words_ok l -> run a w (new_atv t0) l = Some (s, t) -> lim_ok (fmax s) (tenths (past_of t0 t)).
Proof. intros H T W R. exact (run_max a w l _ _ t0 s t R (inv_fresh t0) ltac:(cbn; lia) T W limit_first). Qed.

(** From a percentage to the register. *)
Lemma trunc b B : f_finite b = true -> Qabs (f_val b) <= inject_Z B -> (0 <= B < 2 ^ 30)%Z ->
  exists r, f_to_s32 b = Some r /\ Qabs (inject_Z r - f_val b) <= 1 /\ (- B <= r <= B)%Z.
Proof.
  intros F H HB. unfold f_to_s32. rewrite F. cbv zeta. destruct (f_val b) as [n d] eqn:E. cbn [Qnum Qden].
  apply abs_iff in H. destruct H as (H1 & H2). unfold Qle in H1, H2. cbn [Qnum Qden inject_Z Qopp] in H1, H2.
  set (q := Z.quot n (Zpos d)). assert (D : (n = Zpos d * q + Z.rem n (Zpos d))%Z) by (apply Z.quot_rem'; lia).
  assert (R : (Z.abs (Z.rem n (Zpos d)) < Zpos d)%Z) by (apply Z.rem_bound_abs; lia).
  assert (QB : (- B <= q <= B)%Z).
  { assert (SG : (0 <= Z.rem n (Zpos d) * n)%Z) by (apply Z.rem_sign_mul; lia). split; nia. }
  replace (- 2 ^ 31 <=? q)%Z with true by lia. replace (q <? 2 ^ 31)%Z with true by lia. cbn [andb].
  exists q. split; [reflexivity|]. split; [|exact QB]. apply abs_iff. unfold Qle, Qminus, Qplus, Qopp, inject_Z. cbn [Qnum Qden]. lia.
Qed.
Lemma setting v f T s : f_finite v = true -> Qabs (f_val v) <= 100 -> lim_ok f T -> fmax s = f ->
  let A := f_val v / 100 in let b := sp (direct_set_value v s) in
  f_finite b = true /\ Qabs (f_val b - A * f_val f) <= 500 * u.
Proof.
  intros FV BV (FF & BF & _) <-. cbv zeta. destruct z_small as (Z0 & Z1). pose proof p127 as P. cbn [direct_set_value sp wsp].
  assert (F100 : f_finite (f_of_Z 100) = true) by reflexivity. assert (V100 : f_val (f_of_Z 100) == 100) by reflexivity.
  assert (NZ : ~ f_val (f_of_Z 100) == 0) by (rewrite V100; lra).
  assert (BA : Qabs (f_val v / 100) <= 1).
  { apply abs_iff. apply abs_iff in BV. setoid_replace (f_val v / 100) with (f_val v * (1 # 100)) by field. lra. }
  assert (EQ : f_val v / f_val (f_of_Z 100) == f_val v / 100) by (rewrite V100; reflexivity).
  destruct (div_rel v (f_of_Z 100) FV F100 NZ) as (FA & EA); [rewrite EQ; lra|]. rewrite EQ in EA.
  set (a := f_div v (f_of_Z 100)) in *. clearbody a. set (A := f_val v / 100) in *. clearbody A. set (F := f_val (fmax s)) in *.
  assert (Ba : Qabs (f_val a) <= 1 + 2 * u).
  { setoid_replace (f_val a) with ((f_val a - A) + A) by ring. eapply Qle_trans; [apply abs_tri|]. lra. }
  assert (BF' : Qabs F <= 120) by (apply abs_iff; lra).
  pose proof (prod_le _ _ _ _ Ba BF') as BM.
  destruct (mul_rel a (fmax s) FA FF) as (FB & EB); [fold F; lra|]. fold F in EB. split; [exact FB|].
  set (b := f_val (f_mul a (fmax s))) in *. clearbody b.
  assert (E1 : Qabs (f_val a - A) <= 2 * u) by lra. pose proof (prod_le _ _ _ _ E1 BF') as E2.
  setoid_replace (b - A * F) with ((b - f_val a * F) + (f_val a - A) * F) by ring. eapply Qle_trans; [apply abs_tri|].
  pose proof (abs_pos (f_val a * F)). lra.
Qed.
Lemma register v f T s : f_finite v = true -> Qabs (f_val v) <= 100 -> lim_ok f T -> fmax s = f ->
  exists r, freq_reg (sp (direct_set_value v s)) = Some r /\ Qabs (inject_Z r - f_val v * inject_Z T / 100) <= 1 + (1 # 1000).
Proof.
  intros FV BV L EF. pose proof L as (FF & BF & EL). destruct z_small as (Z0 & Z1). pose proof p127 as P.
  destruct (setting v f T s FV BV L EF) as (FB & EB). cbv zeta in EB. set (b := sp (direct_set_value v s)) in *. clearbody b.
  set (A := f_val v / 100) in *. set (F := f_val f) in *.
  assert (BA : Qabs A <= 1).
  { unfold A. apply abs_iff. apply abs_iff in BV. setoid_replace (f_val v / 100) with (f_val v * (1 # 100)) by field. lra. }
  assert (BF' : Qabs F <= 120) by (apply abs_iff; lra). pose proof (prod_le _ _ _ _ BA BF') as BAF.
  assert (Bb : Qabs (f_val b) <= 121).
  { setoid_replace (f_val b) with ((f_val b - A * F) + A * F) by ring. eapply Qle_trans; [apply abs_tri|]. lra. }
  assert (V10 : f_val (f_of_Z 10) == 10) by reflexivity.
  assert (B10 : Qabs (f_val (f_of_Z 10)) <= 10) by (vm_compute; discriminate).
  pose proof (prod_le _ _ _ _ Bb B10) as BM.
  destruct (mul_rel b (f_of_Z 10) FB eq_refl) as (FC & EC); [lra|]. unfold freq_reg.
  set (c := f_mul b (f_of_Z 10)) in *. clearbody c. rewrite V10 in EC.
  assert (BM10 : Qabs (f_val b * 10) <= 1210) by (rewrite <- V10; lra).
  assert (BC : Qabs (f_val c) <= inject_Z 1211).
  { change (inject_Z 1211) with (1211 # 1). setoid_replace (f_val c) with ((f_val c - f_val b * 10) + f_val b * 10) by ring. eapply Qle_trans; [apply abs_tri|]. lra. }
  destruct (trunc c 1211 FC BC ltac:(lia)) as (r & -> & ER & RB). exists r. split.
  - cbn [option_map]. enough (E : s16 r = r) by (rewrite E; reflexivity). unfold s16. rewrite Z.mod_small by lia. lia.
  - pose proof (prod_le _ _ _ _ BA EL) as E3.
    assert (AV : f_val v == A * 100) by (unfold A; field).
    setoid_replace (inject_Z r - f_val v * inject_Z T / 100)
      with ((inject_Z r - f_val c) + ((f_val c - f_val b * 10) + (10 * (f_val b - A * F) + 10 * (A * (F - inject_Z T / 10))))) by (rewrite AV; field).
    eapply Qle_trans; [apply abs_tri|]. 
    assert (K1 : Qabs (10 * (f_val b - A * F)) <= 5000 * u) by (rewrite abs_mul; change (Qabs 10) with 10; lra).
    assert (K2 : Qabs (10 * (A * (F - inject_Z T / 10))) <= 1210 * u) by (rewrite abs_mul; change (Qabs 10) with 10; lra).
    pose proof (abs_tri (f_val c - f_val b * 10) (10 * (f_val b - A * F) + 10 * (A * (F - inject_Z T / 10)))).
    pose proof (abs_tri (10 * (f_val b - A * F)) (10 * (A * (F - inject_Z T / 10)))). lra.
Qed.
Lemma read_back v s T : f_finite v = true -> Qabs (f_val v) <= 100 -> lim_ok (fmax s) T ->
  f_finite (get_value (direct_set_value v s)) = true /\ Qabs (f_val (get_value (direct_set_value v s)) - f_val v) <= 1 # 1000.
Proof.
  intros FV BV L. pose proof L as (FF & BF & EL). destruct z_small as (Z0 & Z1). pose proof p127 as P.
  destruct (setting v (fmax s) T s FV BV L eq_refl) as (FB & EB). cbv zeta in EB. unfold get_value.
  change (fmax (direct_set_value v s)) with (fmax s). set (b := sp (direct_set_value v s)) in *. clearbody b.
  set (A := f_val v / 100) in *. set (F := f_val (fmax s)) in *.
  assert (BA : Qabs A <= 1).
  { unfold A. apply abs_iff. apply abs_iff in BV. setoid_replace (f_val v / 100) with (f_val v * (1 # 100)) by field. lra. }
  assert (NF : ~ F == 0) by lra. assert (AF : 10 <= Qabs F) by (rewrite Qabs_pos; lra).
  assert (EQ : Qabs (f_val b / F - A) <= 50 * u) by (apply quot_err; [exact NF|lra]).
  assert (BQ : Qabs (f_val b / F) <= 2).
  { setoid_replace (f_val b / F) with ((f_val b / F - A) + A) by ring. eapply Qle_trans; [apply abs_tri|]. lra. }
  destruct (div_rel b (fmax s) FB FF NF) as (FD & ED); [fold F; lra|]. fold F in ED. set (d := f_div b (fmax s)) in *. clearbody d.
  assert (V100 : f_val (f_of_Z 100) == 100) by reflexivity.
  assert (BD : Qabs (f_val d) <= 3).
  { setoid_replace (f_val d) with ((f_val d - f_val b / F) + f_val b / F) by ring. eapply Qle_trans; [apply abs_tri|]. lra. }
  assert (B100 : Qabs (f_val (f_of_Z 100)) <= 100) by (vm_compute; discriminate).
  pose proof (prod_le _ _ _ _ BD B100) as BM.
  destruct (mul_rel d (f_of_Z 100) FD eq_refl) as (FG & EG); [lra|]. split; [exact FG|]. set (g := f_mul d (f_of_Z 100)) in *. clearbody g.
  assert (BM1 : Qabs (f_val d * 100) <= 300) by (rewrite <- V100; lra).
  assert (EG1 : Qabs (f_val g - f_val d * 100) <= 301 * u) by (rewrite <- V100; lra).
  assert (AV : f_val v == A * 100) by (unfold A; field).
  setoid_replace (f_val g - f_val v) with ((f_val g - f_val d * 100) + (100 * (f_val d - f_val b / F) + 100 * (f_val b / F - A))) by (rewrite AV; ring).
  eapply Qle_trans; [apply abs_tri|].
  assert (K1 : Qabs (100 * (f_val d - f_val b / F)) <= 300 * u) by (rewrite abs_mul; change (Qabs 100) with 100; lra).
  assert (K2 : Qabs (100 * (f_val b / F - A)) <= 5000 * u) by (rewrite abs_mul; change (Qabs 100) with 100; lra).
  pose proof (abs_tri (100 * (f_val d - f_val b / F)) (100 * (f_val b / F - A))). lra.
Qed.
