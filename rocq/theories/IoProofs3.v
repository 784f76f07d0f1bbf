(** Proofs about the exchange with I/O couplers: reading and the connection. *)
From Coq Require Import ZArith List Bool Lia.
From Verif Require Import Base TimeModel TimeProofs ModbusModel ModbusSpec ModbusProofs McSpec
  IoModel IoSpec IoProofs IoProofs2.
Import ListNotations.
Open Scope Z_scope.

(** * Reading blocks *)

Lemma read_header_eq (s q : nat) : (s <= 2016)%nat -> (q <= 123)%nat ->
  read_regs_header (input_start + Z.of_nat s) (Z.of_nat q) = read_frame s q.
Proof.
  intros Hs Hq. unfold read_regs_header, read_frame, frame, input_start.
  pose proof (be_bytes (8000 + Z.of_nat s) ltac:(lia)) as E1.
  pose proof (be_bytes (Z.of_nat q) ltac:(lia)) as E2.
  pose proof (f_equal (fun l => nth 0 l 0) E1) as A1. pose proof (f_equal (fun l => nth 1 l 0) E1) as A2.
  pose proof (f_equal (fun l => nth 0 l 0) E2) as B1. pose proof (f_equal (fun l => nth 1 l 0) E2) as B2.
  unfold be16 in *. cbn [nth] in A1, A2, B1, B2. rewrite A1, A2, B1, B2. reflexivity.
Qed.

Lemma answer_nth img s q r k : complete img s q r -> 0 <= k < 2 * Z.of_nat q ->
  nth (Z.to_nat (9 + k)) r 0 = img (2 * Z.of_nat s + k).
Proof.
  intros -> Hk. unfold answer. rewrite app_nth2 by (cbn [length]; lia). cbn [length].
  replace (Z.to_nat (9 + k) - 9)%nat with (Z.to_nat k) by lia. apply bytes_at_nth. lia.
Qed.

Lemma complete_facts img s q r : complete img s q r ->
  Z.of_nat (length r) = 9 + 2 * Z.of_nat q /\ nth 7 r 0 = 4 /\ nth 8 r 0 = 2 * Z.of_nat q.
Proof.
  intros ->. unfold answer. split; [|split; reflexivity].
  rewrite app_length. cbn [length]. pose proof (bytes_at_length img (2 * Z.of_nat s) (2 * Z.of_nat q)). lia.
Qed.

Lemma plan_next total s : (s < total)%nat -> (total <= 2016)%nat ->
  next_count (Z.of_nat total) (Z.of_nat s) = Z.of_nat (plan total s).
Proof.
  intros H1 H2. unfold next_count, max_regs, plan. rewrite u32_small by lia.
  destruct (Z.ltb_spec 123 (Z.of_nat total - Z.of_nat s)); lia.
Qed.

Lemma read_loop_spec img replies (total : nat) :
  (total <= 2016)%nat -> from_coupler img total replies ->
  forall fuel (s : nat) nd m,
  (s < total)%nat -> (total - s <= fuel)%nat -> aI_cnt nd = Z.of_nat total ->
  let '(rs, nd', m') :=
    ph_read_loop fuel (Z.of_nat s) (next_count (aI_cnt nd) (Z.of_nat s)) (Z.of_nat s) (16 * Z.of_nat s)
      replies nd m in
  exists blocks fresh last, covers s last blocks /\ (s <= fresh <= last)%nat /\ (last <= total)%nat /\
    map (fun r : request => bytes_at (fst r) 0 (snd r)) rs =
      map (fun b => read_frame (fst b) (snd b)) blocks /\
    (fresh = total \/ (fresh < last)%nat /\
       forall r, replies (Z.of_nat fresh) = Some r -> refusal (plan total fresh) r) /\
    (forall r, aI nd' r = if (Z.of_nat s <=? r) && (r <? Z.of_nat fresh)
        then input_value (aI_types nd r) (img (2 * r)) (img (2 * r + 1)) else aI nd r) /\
    (forall i, dI nd' i = if (16 * Z.of_nat s <=? i) && (i <? 16 * Z.of_nat fresh)
        then Z.b2z (bit_at img 0 i) else dI nd i) /\
    dO nd' = dO nd /\ aO nd' = aO nd /\ dO_ nd' = dO_ nd /\ aO_ nd' = aO_ nd.
Proof.
  intros Htot Hrep. induction fuel as [|fuel IH]; intros s nd m Hs Hf Hc; [lia|].
  cbn [ph_read_loop]. rewrite Hc. rewrite plan_next by lia.
  set (q := plan total s). assert (Hq : (0 < q <= 123)%nat /\ (s + q <= total)%nat) by (unfold q, plan; lia).
  set (h := read_regs_header (input_start + Z.of_nat s) (Z.of_nat q)).
  assert (Hh : bytes_at (store h m 0) 0 12 = read_frame s q).
  { change 12 with (Z.of_nat (length h)). rewrite bytes_at_store. apply read_header_eq; lia. }
  assert (Stop : forall m' : mem, (forall r, replies (Z.of_nat s) = Some r -> refusal q r) ->
     exists blocks fresh last, covers s last blocks /\ (s <= fresh <= last)%nat /\ (last <= total)%nat /\
    map (fun r : request => bytes_at (fst r) 0 (snd r)) [(store h m 0, 12)] =
      map (fun b => read_frame (fst b) (snd b)) blocks /\
    (fresh = total \/ (fresh < last)%nat /\
       forall r, replies (Z.of_nat fresh) = Some r -> refusal (plan total fresh) r) /\
    (forall r, aI nd r = if (Z.of_nat s <=? r) && (r <? Z.of_nat fresh)
        then input_value (aI_types nd r) (img (2 * r)) (img (2 * r + 1)) else aI nd r) /\
    (forall i, dI nd i = if (16 * Z.of_nat s <=? i) && (i <? 16 * Z.of_nat fresh)
        then Z.b2z (bit_at img 0 i) else dI nd i) /\
    dO nd = dO nd /\ aO nd = aO nd /\ dO_ nd = dO_ nd /\ aO_ nd = aO_ nd).
  { intros _ HR. exists [(s, q)], s, (s + q)%nat. split; [cbn [covers]; split; [auto|split; [lia|auto]]|].
    split; [lia|]. split; [lia|]. split; [cbn [map fst snd]; f_equal; exact Hh|].
    split; [right; split; [lia|exact HR]|].
    split; [intros r; replace ((Z.of_nat s <=? r) && (r <? Z.of_nat s)) with false by lia; auto|].
    split; [intros i; replace ((16 * Z.of_nat s <=? i) && (i <? 16 * Z.of_nat s)) with false by lia; auto|].
    auto. }
  destruct (replies (Z.of_nat s)) as [r|] eqn:ER.
  2:{ cbn [receive]. apply (Stop m). intros r E. discriminate. }
  destruct (receive (Z.of_nat q * 2 + 9) (Some r) (store h m 0)) as [m2|] eqn:EM; [|discriminate].
  assert (RD : forall x, 0 <= x < 9 + 2 * Z.of_nat q -> x < Z.of_nat (length r) ->
     m2 x = nth (Z.to_nat x) r 0).
  { intros x Hx HL. rewrite (receive_read _ _ _ x _ EM) by lia.
    replace ((x <? Z.of_nat q * 2 + 9) && (x <? Z.of_nat (length r))) with true by lia. reflexivity. }
  destruct (Hrep s r Hs ER) as [C|R].
  - destruct (complete_facts _ _ _ _ C) as (L1 & L2 & L3). fold q in C, L1, L2, L3.
    rewrite (RD 7), (RD 8) by lia. change (Z.to_nat 7) with 7%nat. change (Z.to_nat 8) with 8%nat.
    rewrite L2, L3.
    replace ((4 =? 4) && (2 * Z.of_nat q =? Z.of_nat q * 2)) with true by lia.
    replace (Z.of_nat s + Z.of_nat q - Z.of_nat s) with (Z.of_nat q) by lia. rewrite Nat2Z.id.
    destruct (ph_ai (aI_types nd) m2 q 0 (Z.of_nat s) (aI nd)) as [a adest] eqn:EA.
    assert (A1 : forall x, a x = if (Z.of_nat s <=? x) && (x <? Z.of_nat s + Z.of_nat q)
       then input_value (aI_types nd x) (img (2 * x)) (img (2 * x + 1)) else aI nd x).
    { intros x. pose proof (ph_ai_spec (aI_types nd) m2 q 0 (Z.of_nat s) (aI nd) x) as [A _].
      rewrite EA in A. cbn [fst] in A. rewrite A.
      destruct ((Z.of_nat s <=? x) && (x <? Z.of_nat s + Z.of_nat q)) eqn:B; [|reflexivity].
      rewrite !RD by lia.
      replace (9 + 0 + 2 * (x - Z.of_nat s) + 1) with (9 + (2 * (x - Z.of_nat s) + 1)) by lia.
      replace (9 + 0 + 2 * (x - Z.of_nat s)) with (9 + (2 * (x - Z.of_nat s))) by lia.
      rewrite !(answer_nth _ _ _ _ _ C) by lia. f_equal; f_equal; lia. }
    assert (A2 : adest = Z.of_nat (s + q)).
    { pose proof (ph_ai_spec (aI_types nd) m2 q 0 (Z.of_nat s) (aI nd) 0) as [_ A].
      rewrite EA in A. cbn [snd] in A. lia. }
    subst adest.
    replace ((Z.of_nat s + Z.of_nat q) * 2 * 8) with (16 * Z.of_nat s + 8 * Z.of_nat (2 * q)) by lia.
    destruct (ph_di m2 (16 * Z.of_nat s + 8 * Z.of_nat (2 * q))
      (Z.to_nat (16 * Z.of_nat s + 8 * Z.of_nat (2 * q))) 0 (16 * Z.of_nat s) (dI nd)) as [d bdest] eqn:ED.
    assert (D1 : forall i, d i = if (16 * Z.of_nat s <=? i) && (i <? 16 * Z.of_nat s + 16 * Z.of_nat q)
       then Z.b2z (bit_at img 0 i) else dI nd i).
    { intros i. pose proof (ph_di_spec m2 (2 * q) (Z.to_nat (16 * Z.of_nat s + 8 * Z.of_nat (2 * q)))
        0 (16 * Z.of_nat s) (dI nd) i ltac:(lia)) as [D _].
      rewrite ED in D. cbn [fst] in D. rewrite D.
      replace (16 * Z.of_nat s + 8 * Z.of_nat (2 * q)) with (16 * Z.of_nat s + 16 * Z.of_nat q) by lia.
      destruct ((16 * Z.of_nat s <=? i) && (i <? 16 * Z.of_nat s + 16 * Z.of_nat q)) eqn:B; [|reflexivity].
      unfold bit_at.
      pose proof (Z.div_mod (i - 16 * Z.of_nat s) 8 ltac:(lia)).
      pose proof (Z.mod_pos_bound (i - 16 * Z.of_nat s) 8 ltac:(lia)).
      rewrite RD by lia. replace (9 + 0 + (i - 16 * Z.of_nat s) / 8) with (9 + (i - 16 * Z.of_nat s) / 8) by lia.
      rewrite (answer_nth _ _ _ _ _ C) by lia.
      replace i with (i - 16 * Z.of_nat s + (2 * Z.of_nat s) * 8) at 3 4 by lia.
      rewrite Z.div_add, Z.mod_add by lia. do 2 f_equal. f_equal. lia. }
    assert (D2 : bdest = 16 * Z.of_nat (s + q)).
    { pose proof (ph_di_spec m2 (2 * q) (Z.to_nat (16 * Z.of_nat s + 8 * Z.of_nat (2 * q)))
        0 (16 * Z.of_nat s) (dI nd) 0 ltac:(lia)) as [_ D].
      rewrite ED in D. cbn [snd] in D. lia. }
    subst bdest.
    destruct (Z.ltb_spec (Z.of_nat s + Z.of_nat q) (Z.of_nat total)).
    + replace (Z.of_nat s + Z.of_nat q) with (Z.of_nat (s + q)) by lia.
      set (nd1 := with_dI (with_aI nd a) d).
      pose proof (IH (s + q)%nat nd1 m2 ltac:(lia) ltac:(lia) Hc) as G.
      change (aI_cnt nd1) with (aI_cnt nd) in G. rewrite Hc in G.
      destruct (ph_read_loop fuel (Z.of_nat (s + q)) (next_count (Z.of_nat total) (Z.of_nat (s + q)))
          (Z.of_nat (s + q)) (16 * Z.of_nat (s + q)) replies nd1 m2) as [[rs nd2] m3].
      destruct G as (bl & fr & la & G1 & G2 & G3 & G4 & G5 & G6 & G7 & G8).
      exists ((s, q) :: bl), fr, la.
      split; [cbn [covers]; split; [auto|split; [lia|exact G1]]|].
      split; [lia|]. split; [lia|]. split; [cbn [map fst snd]; f_equal; [exact Hh|exact G4]|].
      split; [exact G5|]. split; [|split; [|exact G8]].
      * intros x. rewrite G6. change (aI nd1) with a. change (aI_types nd1) with (aI_types nd).
        rewrite A1.
        destruct ((Z.of_nat (s + q) <=? x) && (x <? Z.of_nat fr)) eqn:B1.
        -- replace ((Z.of_nat s <=? x) && (x <? Z.of_nat fr)) with true by lia. reflexivity.
        -- replace ((Z.of_nat s <=? x) && (x <? Z.of_nat fr)) with
             ((Z.of_nat s <=? x) && (x <? Z.of_nat s + Z.of_nat q)) by lia. reflexivity.
      * intros i. rewrite G7. change (dI nd1) with d. rewrite D1.
        destruct ((16 * Z.of_nat (s + q) <=? i) && (i <? 16 * Z.of_nat fr)) eqn:B1.
        -- replace ((16 * Z.of_nat s <=? i) && (i <? 16 * Z.of_nat fr)) with true by lia. reflexivity.
        -- replace ((16 * Z.of_nat s <=? i) && (i <? 16 * Z.of_nat fr)) with
             ((16 * Z.of_nat s <=? i) && (i <? 16 * Z.of_nat s + 16 * Z.of_nat q)) by lia. reflexivity.
    + exists [(s, q)], total, total.
      split; [cbn [covers]; split; [auto|split; [lia|lia]]|].
      split; [lia|]. split; [lia|]. split; [cbn [map fst snd]; f_equal; exact Hh|].
      split; [auto|].
      split; [|split; [|repeat split; reflexivity]].
      * intros x. change (aI (with_dI (with_aI nd a) d)) with a. rewrite A1.
        replace (Z.of_nat s + Z.of_nat q) with (Z.of_nat total) by lia. reflexivity.
      * intros i. change (dI (with_dI (with_aI nd a) d)) with d. rewrite D1.
        replace (16 * Z.of_nat s + 16 * Z.of_nat q) with (16 * Z.of_nat total) by lia. reflexivity.
  - destruct R as [HL R]. fold q in R.
    rewrite (RD 7), (RD 8) by lia. change (Z.to_nat 7) with 7%nat. change (Z.to_nat 8) with 8%nat.
    replace ((nth 7 r 0 =? 4) && (nth 8 r 0 =? Z.of_nat q * 2)) with false by lia.
    apply (Stop m2). intros r' E. injection E as <-. split; auto.
Qed.

(** * The connection *)

Lemma e_link w l e :
  let x := e_communicate w l e in
  is_set_err (link' x) = (C_MAX_WAIT_TIME <? get_delta_millisec w (now e) (last_poll_time l)) /\
  last_poll_time (link' x) = (if code x =? 0 then now_end e else last_poll_time l) /\
  reports x = (if is_set_err (link' x) then if is_set_err l then [] else [Raise]
               else if is_set_err l then [Withdraw] else []) /\
  tried x = (negb (st_ok l) &&
             negb (get_delta_millisec w (now e) (last_init_time l) <? delay_time l)) /\
  last_init_time (link' x) = (if tried x && negb (connected e) then now_init e else last_init_time l) /\
  delay_time (link' x) =
    (if st_ok l then 500
     else if tried x then if connected e then 500
          else if delay_time l <? 60000 then delay_time l + delay_time l else delay_time l
     else delay_time l) /\
  (st_ok (link' x) = true <-> code x = 0) /\
  (code x = 0 <-> (st_ok l = true \/ tried x = true /\ connected e = true) /\
                  sent_ok e = true /\ got_reply e = true).
Proof.
  destruct l as [st er lp li dl], e as [t1 t2 t3 cn so gr].
  unfold e_communicate, check_silence, ensure_connected, transfer, C_MAX_DELAY, C_MAX_WAIT_TIME.
  cbn [IoModel.now IoModel.is_set_err IoModel.last_poll_time IoModel.last_init_time IoModel.delay_time IoModel.st_ok].
  destruct (6000 <? get_delta_millisec w t1 lp), er;
  cbn [IoModel.now IoModel.is_set_err IoModel.last_poll_time IoModel.last_init_time IoModel.delay_time IoModel.st_ok];
  destruct st;
  cbn [IoModel.now IoModel.is_set_err IoModel.last_poll_time IoModel.last_init_time IoModel.delay_time IoModel.st_ok
    IoModel.now_init IoModel.now_end connected sent_ok got_reply];
  try (destruct (get_delta_millisec w t1 li <? dl));
  destruct cn, so, gr; cbn; repeat split; auto; try congruence; try tauto; try (intros [[? | [? ?]] [? ?]]; congruence);
  try (intros [? ?]; congruence).
Qed.

Lemma backoff_succ k : backoff (S k) =
  if backoff k <? 60000 then backoff k + backoff k else backoff k.
Proof.
  unfold backoff. destruct (Nat.le_gt_cases 7 k).
  - rewrite !Nat.min_r by lia. reflexivity.
  - assert (E : (k = 0 \/ k = 1 \/ k = 2 \/ k = 3 \/ k = 4 \/ k = 5 \/ k = 6)%nat) by lia.
    destruct E as [-> | [-> | [-> | [-> | [-> | [-> | ->]]]]]]; reflexivity.
Qed.

Lemma delay_acc w : forall es l k,
  delay_time l = backoff k -> (st_ok l = true -> k = 0%nat) ->
  delay_time (run_link w l es) = backoff (failures_acc k (attempts w l es)).
Proof.
  induction es as [|e es IH]; intros l k H1 H2; cbn [run_link attempts]; [exact H1|].
  pose proof (e_link w l e) as (_ & _ & _ & E4 & _ & E6 & E7 & E8).
  set (x := e_communicate w l e) in *.
  destruct (st_ok l) eqn:S.
  - cbn [negb andb] in E4. rewrite E4. cbn [app].
    apply IH; [rewrite E6, H2 by auto; reflexivity|auto].
  - destruct (tried x) eqn:TR.
    + cbn [app failures_acc]. destruct (connected e) eqn:CN.
      * apply IH; [rewrite E6; reflexivity|auto].
      * apply IH; [rewrite E6, H1, backoff_succ; reflexivity|].
        intros HS. apply E7, E8 in HS as [[HS|[_ HS]] _]; discriminate.
    + cbn [app]. apply IH; [rewrite E6; exact H1|].
      intros HS. apply E7, E8 in HS as [[HS|[HS _]] _]; discriminate.
Qed.

Lemma last_failure_ok w : forall es l,
  last_init_time (run_link w l es) = last_failure w l (last_init_time l) es.
Proof.
  induction es as [|e es IH]; intros l; cbn [run_link last_failure]; auto.
  rewrite IH. pose proof (e_link w l e) as (_ & _ & _ & _ & E5 & _). rewrite E5. reflexivity.
Qed.

Lemma last_answer_ok w : forall cs l tp, last_poll_time l = clock w tp ->
  last_poll_time (run_link w l (map (reading w) cs)) = clock w (last_answer w l tp cs).
Proof.
  induction cs as [|c cs IH]; intros l tp H; cbn [map run_link last_answer]; auto.
  apply IH. pose proof (e_link w l (reading w c)) as (_ & E2 & _). rewrite E2.
  destruct (code _ =? 0); auto.
Qed.

Lemma reports_alternate w : forall es l, alternating (is_set_err l) (all_reports w l es).
Proof.
  induction es as [|e es IH]; intros l; cbn [all_reports]; [exact I|].
  pose proof (e_link w l e) as (_ & _ & E3 & _). rewrite E3. specialize (IH (link' (e_communicate w l e))).
  destruct (is_set_err (link' (e_communicate w l e))), (is_set_err l); cbn [app alternating]; auto.
Qed.

(** * WAGO analog channels *)

Lemma wago_ao_block_spec nd : forall n k l m, 0 <= l ->
  let m' := wago_ao_block nd n (Z.of_nat k) l m in
  let img := flat_map (wago_channel nd) (seq k n) in
  bytes_at m' (13 + l) (Z.of_nat (length img)) = img /\
  (forall x, x < 13 + l \/ 13 + l + Z.of_nat (length img) <= x -> m' x = m x).
Proof.
  induction n as [|n IH]; intros k l m Hl; cbv zeta; cbn [wago_ao_block seq flat_map].
  - split; [reflexivity|auto].
  - rewrite app_length. replace (Z.of_nat k + 1) with (Z.of_nat (S k)) by lia.
    destruct (aO_types nd (Z.of_nat k) =? 638) eqn:ET.
    + set (m1 := put _ (13 + l + 3) 0).
      destruct (IH (S k) (l + 4) m1 ltac:(lia)) as [I1 I2].
      set (m' := wago_ao_block nd n (Z.of_nat (S k)) (l + 4) m1) in *.
      assert (EC : wago_channel nd k = [0; 0; 0; 0]) by (unfold wago_channel; rewrite ET; reflexivity).
      rewrite EC. cbn [length]. replace (Z.of_nat (4 + length (flat_map (wago_channel nd) (seq (S k) n)))) with
        (4 + Z.of_nat (length (flat_map (wago_channel nd) (seq (S k) n)))) by lia.
      split.
      * rewrite bytes_at_split by lia. replace (13 + l + 4) with (13 + (l + 4)) by lia. rewrite I1. f_equal.
        unfold bytes_at. change (Z.to_nat 4) with 4%nat. cbn [seq map].
        rewrite !I2 by lia. unfold m1. rewrite Z.add_0_r.
        change (Z.of_nat 1) with 1. change (Z.of_nat 2) with 2. change (Z.of_nat 3) with 3. puts. reflexivity.
      * intros x Hx. rewrite I2 by lia. unfold m1. puts. reflexivity.
    + set (m1 := put _ (13 + l + 1) _).
      destruct (IH (S k) (l + 2) m1 ltac:(lia)) as [I1 I2].
      set (m' := wago_ao_block nd n (Z.of_nat (S k)) (l + 2) m1) in *.
      assert (EC : wago_channel nd k = be16 (aO_ nd (Z.of_nat k) mod 65536))
        by (unfold wago_channel; rewrite ET; reflexivity).
      rewrite EC. change (length (be16 (aO_ nd (Z.of_nat k) mod 65536))) with 2%nat.
      replace (Z.of_nat (2 + length (flat_map (wago_channel nd) (seq (S k) n)))) with
        (2 + Z.of_nat (length (flat_map (wago_channel nd) (seq (S k) n)))) by lia.
      split.
      * rewrite bytes_at_split by lia. replace (13 + l + 2) with (13 + (l + 2)) by lia. rewrite I1. f_equal.
        unfold bytes_at. change (Z.to_nat 2) with 2%nat. cbn [seq map].
        rewrite !I2 by lia. unfold m1. rewrite Z.add_0_r. change (Z.of_nat 1) with 1. puts.
        rewrite land_hi, land_lo, byte_lo, byte_hi. reflexivity.
      * intros x Hx. rewrite I2 by lia. unfold m1. puts. reflexivity.
Qed.

Lemma wago_ai_block_spec types m img : forall n k a (len : Z),
  (forall o, 0 <= o < len -> m (9 + o) = img o) ->
  wago_offset types (k + n) <= len ->
  forall r, wago_ai_block types m n (wago_offset types k) (Z.of_nat k) a r =
    if (Z.of_nat k <=? r) && (r <? Z.of_nat (k + n)) then wago_input types img (Z.to_nat r) else a r.
Proof.
  assert (Mono : forall n k, wago_offset types k <= wago_offset types (k + n)).
  { induction n as [|n IH]; intros k; [rewrite Nat.add_0_r; lia|].
    rewrite <- plus_n_Sm. cbn [wago_offset]. specialize (IH k). destruct (_ =? 638); lia. }
  assert (NN : forall k, 0 <= wago_offset types k) by (intros k; apply (Mono k 0%nat)).
  induction n as [|n IH]; intros k a len Hm HL r; cbn [wago_ai_block].
  - rewrite Nat.add_0_r. replace ((Z.of_nat k <=? r) && (r <? Z.of_nat k)) with false by lia. auto.
  - rewrite <- plus_n_Sm in *. change (S (k + n)) with (S k + n)%nat in *.
    replace (Z.of_nat k + 1) with (Z.of_nat (S k)) by lia.
    pose proof (Mono n (S k)). pose proof (NN k).
    assert (Step : forall v, v = wago_input types img k ->
      wago_ai_block types m n (wago_offset types (S k)) (Z.of_nat (S k)) (put a (Z.of_nat k) v) r =
      if (Z.of_nat k <=? r) && (r <? Z.of_nat (S k + n)) then wago_input types img (Z.to_nat r) else a r).
    { intros v ->. rewrite (IH (S k) _ len Hm HL r). unfold put. destruct (Z.eqb_spec r (Z.of_nat k)).
      - subst r. replace ((Z.of_nat (S k) <=? Z.of_nat k) && (Z.of_nat k <? Z.of_nat (S k + n))) with false by lia.
        replace ((Z.of_nat k <=? Z.of_nat k) && (Z.of_nat k <? Z.of_nat (S k + n))) with true by lia.
        rewrite Nat2Z.id. reflexivity.
      - replace ((Z.of_nat k <=? r) && (r <? Z.of_nat (S k + n))) with
          ((Z.of_nat (S k) <=? r) && (r <? Z.of_nat (S k + n))) by lia. reflexivity. }
    cbn [wago_offset] in *.
    destruct (types (Z.of_nat k) =? 638) eqn:ET.
    + apply Step. unfold wago_input. rewrite ET. cbv zeta.
      rewrite <- (Hm (wago_offset types k + 2)), <- (Hm (wago_offset types k + 2 + 1)) by lia.
      replace (9 + (wago_offset types k + 2)) with (9 + wago_offset types k + 2) by lia.
      replace (9 + (wago_offset types k + 2 + 1)) with (9 + wago_offset types k + 3) by lia. reflexivity.
    + apply Step. unfold wago_input. rewrite ET. cbv zeta. rewrite Z.add_0_r.
      rewrite <- (Hm (wago_offset types k)), <- (Hm (wago_offset types k + 1)) by lia.
      replace (9 + (wago_offset types k + 1)) with (9 + wago_offset types k + 1) by lia. reflexivity.
Qed.
