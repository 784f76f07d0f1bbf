From Coq Require Import ZArith Bool Lia.
From Verif Require Import Base TimeModel.
Open Scope Z_scope.

Section W.
  Variable w : Z.
  Hypothesis Hw : 2 <= w.

  Lemma pow_w : 4 <= 2 ^ w.
  Proof. change 4 with (2 ^ 2). apply Z.pow_le_mono_r; lia. Qed.

  (* No wrap between the two readings. *)
  Lemma delta_nowrap now t1 :
    0 <= t1 <= now -> now < 2 ^ w -> get_delta_millisec w now t1 = now - t1.
  Proof.
    intros H1 H2. unfold get_delta_millisec.
    replace (now <? t1) with false by lia.
    replace (t1 <=? now) with true by lia. reflexivity.
  Qed.

  (* One wrap: the result is one tick too large. *)
  Lemma delta_wrap now t1 :
    0 <= now -> now + 2 < t1 -> t1 < 2 ^ w ->
    get_delta_millisec w now t1 = (now + 2 ^ w - t1) + 1.
  Proof.
    intros H1 H2 H3. pose proof pow_w. unfold get_delta_millisec, ulong_max.
    replace (now <? t1) with true by lia.
    rewrite (Z.mod_small (now + 2)) by lia.
    replace (t1 <=? now + 2) with false by lia.
    rewrite Z.mod_small by lia. lia.
  Qed.

  (* The clock stepped back by one or two milliseconds. *)
  Lemma delta_stepback now t1 :
    0 <= now -> now < t1 <= now + 2 -> t1 < 2 ^ w -> now + 2 < 2 ^ w ->
    get_delta_millisec w now t1 = now + 2 - t1.
  Proof.
    intros H1 H2 H3 H4. unfold get_delta_millisec.
    replace (now <? t1) with true by lia.
    rewrite (Z.mod_small (now + 2)) by lia.
    replace (t1 <=? now + 2) with true by lia. reflexivity.
  Qed.

  Lemma delta_true t0 t :
    0 <= t0 <= t -> t - t0 < 2 ^ w - 2 ->
    get_delta_millisec w (clock w t) (clock w t0)
    = (t - t0) + (if clock w t <? clock w t0 then 1 else 0).
  Proof.
    intros H1 H2. pose proof pow_w as Hp. unfold clock.
    pose proof (Z.mod_pos_bound t (2 ^ w) ltac:(lia)) as B1.
    pose proof (Z.mod_pos_bound t0 (2 ^ w) ltac:(lia)) as B2.
    pose proof (Z.div_mod t (2 ^ w) ltac:(lia)) as E1.
    pose proof (Z.div_mod t0 (2 ^ w) ltac:(lia)) as E2.
    set (q1 := t / 2 ^ w) in *. set (q2 := t0 / 2 ^ w) in *.
    set (r1 := t mod 2 ^ w) in *. set (r2 := t0 mod 2 ^ w) in *.
    destruct (r1 <? r2) eqn:E.
    - assert (q1 = q2 + 1) by nia.
      rewrite delta_wrap by nia. nia.
    - assert (q1 = q2) by nia.
      rewrite delta_nowrap by nia. nia.
  Qed.

  Lemma delta_never_huge now t1 :
    0 <= now < 2 ^ w -> 0 <= t1 < 2 ^ w -> now + 2 < 2 ^ w ->
    get_delta_millisec w now t1 > 2 ^ (w - 1) ->
    now - t1 > 2 ^ (w - 1) \/ now + 2 < t1.
  Proof.
    intros H1 H2 H3. unfold get_delta_millisec.
    destruct (now <? t1) eqn:E.
    - rewrite (Z.mod_small (now + 2)) by lia.
      destruct (t1 <=? now + 2) eqn:E2; [|lia].
      assert (2 ^ w = 2 * 2 ^ (w - 1)).
      { rewrite <- Z.pow_succ_r by lia. f_equal. lia. }
      pose proof pow_w. lia.
    - replace (t1 <=? now) with true by lia. lia.
  Qed.
End W.
