(** Proofs about the running time. *)
From Coq Require Import ZArith List Bool Lia.
From Verif Require Import Base TimeModel TimeProofs PacModel PacSpec.
Import ListNotations.
Open Scope Z_scope.

Lemma wrapped_clock w t0 t : 0 < w -> 0 <= t0 <= t -> t - t0 < 2 ^ w ->
  (clock w t <? clock w t0) = wrapped w t0 t.
Proof.
  intros Hw H1 H2. unfold clock, wrapped.
  assert (0 < 2 ^ w) by (apply Z.pow_pos_nonneg; lia).
  pose proof (Z.mod_pos_bound t (2 ^ w) ltac:(lia)).
  pose proof (Z.mod_pos_bound t0 (2 ^ w) ltac:(lia)).
  pose proof (Z.div_mod t (2 ^ w) ltac:(lia)).
  pose proof (Z.div_mod t0 (2 ^ w) ltac:(lia)).
  set (m := 2 ^ w) in *. clearbody m.
  destruct (Z.ltb_spec (t mod m) (t0 mod m)); destruct (Z.ltb_spec (t0 / m) (t / m)); auto; nia.
Qed.

Lemma delta_measured w t0 t : 2 <= w -> 0 <= t0 <= t -> t - t0 < 2 ^ w - 2 ->
  get_delta_millisec w (clock w t) (clock w t0) = measured w t0 t.
Proof.
  intros Hw H1 H2.
  rewrite delta_true by (try lia; assumption).
  unfold measured, one_if. rewrite wrapped_clock by lia. reflexivity.
Qed.

Lemma u32_clock32 t : u32 (clock 32 t) = clock 32 t.
Proof. unfold u32, clock. apply Z.mod_mod. discriminate. Qed.

Lemma delta_64 t0 t : 0 <= t0 <= t -> t < 2 ^ 50 ->
  get_delta_millisec 64 (clock 64 t) (u32 (clock 64 t0)) = t - t0 + 2 ^ 32 * (t0 / 2 ^ 32).
Proof.
  intros H1 H2. unfold clock, u32.
  rewrite !(Z.mod_small _ (2 ^ 64)) by (split; [lia|]; eapply Z.le_lt_trans; [|exact (eq_refl : 2 ^ 50 < 2 ^ 64)]; lia).
  pose proof (Z.div_mod t0 (2 ^ 32) ltac:(discriminate)).
  pose proof (Z.mod_pos_bound t0 (2 ^ 32) eq_refl).
  assert (0 <= t0 / 2 ^ 32) by (apply Z.div_pos; lia).
  unfold get_delta_millisec.
  change 4294967296 with (2 ^ 32).
  set (q := t0 / 2 ^ 32) in *. set (m := t0 mod 2 ^ 32) in *. clearbody q m.
  change (2 ^ 32) with 4294967296 in *.
  replace (t <? m) with false by lia. replace (m <=? t) with true by lia. lia.
Qed.

(** What an evaluation adds. *)
Lemma delta_added w last b : w = 32 \/ w = 64 -> 0 <= last <= b -> b < 2 ^ 50 ->
  b - last < 2 ^ 32 - 2 ->
  exists k, get_delta_millisec w (clock w b) (u32 (clock w last))
            = b - last + one_if ((w =? 32) && wrapped 32 last b) + k * 2 ^ 32.
Proof.
  intros [-> | ->] H1 H2 H3.
  - exists 0. rewrite u32_clock32, delta_measured by lia. unfold measured. cbn [Z.eqb Pos.eqb andb]. lia.
  - exists (last / 2 ^ 32). rewrite delta_64 by lia. cbn [Z.eqb Pos.eqb andb one_if]. ring.
Qed.

Lemma renewed_ok w last a : w = 32 \/ w = 64 -> 0 <= last <= a -> a < 2 ^ 50 ->
  a - last < 2 ^ 32 - 2 ->
  (get_delta_millisec w (clock w a) (u32 (clock w last)) >? 1000) = renewed w last a.
Proof.
  intros [-> | ->] H1 H2 H3; unfold renewed; cbn [Z.eqb Pos.eqb].
  - rewrite u32_clock32, delta_measured by lia. reflexivity.
  - rewrite delta_64 by lia.
    destruct (Z.leb_spec (2 ^ 32) last) as [H|H].
    + assert (1 <= last / 2 ^ 32) by (apply Z.div_le_lower_bound; lia).
      rewrite orb_true_r. apply Z.gtb_lt. lia.
    + rewrite Z.div_small by lia. rewrite orb_false_r, Z.mul_0_r, Z.add_0_r. reflexivity.
Qed.

Lemma renewed_late w last a : w = 32 \/ w = 64 -> renewed w last a = false -> a - last <= 1000.
Proof.
  intros [-> | ->] H; unfold renewed in H; cbn [Z.eqb Pos.eqb] in H.
  - unfold one_if in H. destruct (wrapped 32 last a); lia.
  - apply orb_false_iff in H. destruct H. lia.
Qed.

Definition good (w t0 : Z) (u : uptime) (s : account) : Prop :=
  up_last u = u32 (clock w (ac_last s)) /\
  t0 <= ac_last s /\
  0 <= up_msec u < MSEC_IN_DAY /\ 0 <= up_days u /\
  up_days u * MSEC_IN_DAY + up_msec u = ac_last s - t0 - ac_missed s + ac_added s /\
  0 <= ac_missed s /\ 0 <= ac_added s /\
  ac_added s * 1000 <= ac_last s - t0 /\
  up_hours u = up_msec u / 3600000 /\
  up_mins u = up_msec u / 60000 mod 60 /\
  up_secs u = up_msec u / 1000 mod 60.

Lemma good_init w t0 : 0 <= t0 -> good w t0 (up_init w t0) {| ac_last := t0; ac_missed := 0; ac_added := 0 |}.
Proof. intros H. unfold good, up_init, MSEC_IN_DAY. cbn -[Z.mul]. repeat split; try lia. Qed.

Lemma one_if_range b : 0 <= one_if b <= 1.
Proof. destruct b; cbn; lia. Qed.



Lemma good_cycle w t0 prev prev_end u s a b c :
  w = 32 \/ w = 64 -> 0 <= t0 -> good w t0 u s ->
  ac_last s <= prev_end -> prev - ac_last s <= 1000 ->
  prev_end <= a -> a <= b -> b <= c -> c - prev < 86400000 - 1001 -> c < 2 ^ 50 ->
  good w t0 (up_eval w u (a, b, c)) (acc_cycle w s (a, b, c)) /\
  ac_last (acc_cycle w s (a, b, c)) <= c /\ a - ac_last (acc_cycle w s (a, b, c)) <= 1000.
Proof.
  intros Hw H0 (G1 & G2 & G3 & G4 & G5 & G6 & G7 & G8 & G9 & G10 & G11) L1 L2 P1 P2 P3 P4 P5.
  unfold up_eval, acc_cycle. rewrite G1.
  change (2 ^ 50) with 1125899906842624 in *.
  rewrite renewed_ok by (try assumption; change (2 ^ 50) with 1125899906842624;
    change (2 ^ 32) with 4294967296; lia).
  destruct (renewed w (ac_last s) a) eqn:R.
  2:{ split; [|split; [lia|eapply renewed_late; eauto]].
      repeat split; try assumption; lia. }
  destruct (delta_added w (ac_last s) b Hw) as (k & Hk);
    try (change (2 ^ 50) with 1125899906842624; change (2 ^ 32) with 4294967296; lia).
  rewrite Hk. set (x := one_if ((w =? 32) && wrapped 32 (ac_last s) b)) in *.
  assert (Hx : 0 <= x <= 1) by apply one_if_range.
  unfold MSEC_IN_DAY in *. change (24 * 60 * 60 * 1000) with 86400000 in *.
  assert (E0 : u32 (up_msec u + (b - ac_last s + x + k * 2 ^ 32)) = up_msec u + (b - ac_last s + x)).
  { unfold u32. change 4294967296 with (2 ^ 32).
    rewrite Z.add_assoc, Z.mod_add by discriminate.
    change (2 ^ 32) with 4294967296. apply Z.mod_small. lia. }
  rewrite E0. clear E0.
  set (m := up_msec u + (b - ac_last s + x)) in *.
  assert (Hd : up_days u * 86400000 <= c - t0 + ac_added s) by lia.
  assert (Hadd : x = 1 -> 1000 <= c - ac_last s).
  { intros E. unfold x in E. destruct Hw as [-> | ->]; [|discriminate].
    unfold renewed in R. cbn [Z.eqb Pos.eqb andb] in *.
    unfold one_if in *. destruct (wrapped 32 (ac_last s) b) eqn:Wb; [|discriminate].
    destruct (wrapped 32 (ac_last s) a); lia. }
  assert (Hmd : m = up_msec u + (b - ac_last s + x)) by reflexivity.
  clearbody m x.
  split; [|split; cbn [ac_last]; lia].
  unfold good, MSEC_IN_DAY. change (24 * 60 * 60 * 1000) with 86400000. cbn [up_last up_msec up_days up_hours up_mins up_secs ac_last ac_missed ac_added].
  replace (1000 * 60 * 60) with 3600000 by reflexivity.
  replace (1000 * 60) with 60000 by reflexivity.
  destruct (Z.geb_spec m 86400000) as [Hm|Hm].
  - assert (Em : m mod 86400000 = m - 86400000).
    { symmetry. apply Z.mod_unique with (q := 1). left; lia. lia. }
    assert (Ed : u32 (up_days u + 1) = up_days u + 1).
    { unfold u32. apply Z.mod_small. change (2 ^ 32) with 4294967296. lia. }
    rewrite Em, Ed. repeat split; try reflexivity; destruct (Z.eq_dec x 1); lia.
  - repeat split; try reflexivity; destruct (Z.eq_dec x 1); lia.
Qed.

Lemma run_good w t0 h prev prev_end u s :
  w = 32 \/ w = 64 -> 0 <= t0 -> good w t0 u s ->
  ac_last s <= prev_end -> prev - ac_last s <= 1000 ->
  paced prev prev_end h ->
  good w t0 (fold_left (up_eval w) h u) (fold_left (acc_cycle w) h s).
Proof.
  intros Hw H0. revert prev prev_end u s.
  induction h as [|((a, b), c) h IH]; intros prev prev_end u s G L1 L2 P; [exact G|].
  cbn [paced] in P. destruct P as (P1 & P2 & P3 & P4 & P5 & P6).
  destruct (good_cycle w t0 prev prev_end u s a b c Hw H0 G L1 L2 P1 P2 P3 P4 P5) as (G' & K1 & K2).
  cbn [fold_left]. eapply IH; eauto.
Qed.

Lemma up_run_good w t0 h : w = 32 \/ w = 64 -> 0 <= t0 -> paced t0 t0 h ->
  good w t0 (up_run w t0 h) (acc_run w t0 h).
Proof.
  intros Hw H0 P. unfold up_run, acc_run. eapply run_good; eauto using good_init; cbn; lia.
Qed.

(** The bookkeeping stays within what the bounds say. *)
Definition fair (w t0 a c : Z) (s : account) (miss : Z) : Prop :=
  a - 1000 <= ac_last s <= c /\ 0 <= ac_missed s <= miss /\
  0 <= ac_added s <= (if w =? 32 then ac_last s / 2 ^ 32 - t0 / 2 ^ 32 else 0).

Lemma fair_run w t0 h a0 c0 s miss : w = 32 \/ w = 64 ->
  fair w t0 a0 c0 s miss -> t0 <= ac_last s -> a0 <= c0 ->
  paced a0 c0 h ->
  exists a c, (h = [] -> a = a0 /\ c = c0) /\ (h <> [] -> (a, c) = last_cycle t0 h) /\
    fair w t0 a c (fold_left (acc_cycle w) h s) (miss + all_missed h).
Proof.
  intros Hw. revert a0 c0 s miss.
  induction h as [|((a, b), c) h IH]; intros a0 c0 s miss F L Hac P.
  - exists a0, c0. split; [auto|]. split; [congruence|]. cbn. rewrite Z.add_0_r. exact F.
  - cbn [paced] in P. destruct P as (P1 & P2 & P3 & P4 & P5 & P6).
    destruct F as (F1 & F2 & F3).
    assert (FF : fair w t0 a c (acc_cycle w s (a, b, c)) (miss + (c - b)) /\
                 t0 <= ac_last (acc_cycle w s (a, b, c))).
    { unfold acc_cycle. destruct (renewed w (ac_last s) a) eqn:R.
      - unfold fair. cbn [ac_last ac_missed ac_added].
        split; [|lia]. split; [lia|]. split; [lia|].
        destruct Hw as [-> | ->]; cbn [Z.eqb Pos.eqb andb one_if] in *; [|lia].
        pose proof (Z.div_le_mono b c (2 ^ 32) eq_refl P3).
        pose proof (Z.div_le_mono (ac_last s) b (2 ^ 32) eq_refl ltac:(lia)).
        unfold wrapped. destruct (Z.ltb_spec (ac_last s / 2 ^ 32) (b / 2 ^ 32)); cbn [one_if]; lia.
      - pose proof (renewed_late w _ _ Hw R). unfold fair. split; [|lia].
        split; [lia|]. split; [lia|]. exact F3. }
    destruct FF as (FF & FL).
    destruct (IH a c _ _ FF FL ltac:(lia) P6) as (a' & c' & I1 & I2 & I3).
    exists a', c'. split; [discriminate|]. split.
    + intros _. destruct h as [|r h].
      * destruct (I1 eq_refl) as (-> & ->). reflexivity.
      * rewrite I2 by discriminate. unfold last_cycle.
        change ((a, b, c) :: r :: h) with ([(a, b, c)] ++ r :: h). rewrite rev_app_distr.
        destruct (rev (r :: h)) eqn:E; [|reflexivity].
        apply (f_equal (@length _)) in E. rewrite rev_length in E. discriminate.
    + cbn [fold_left all_missed fold_right fst snd]. cbn [fold_right] in I3.
      rewrite <- Z.add_assoc in I3. exact I3.
Qed.
