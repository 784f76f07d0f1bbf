(** Proofs about the exchange with I/O couplers: register blocks. *)
From Coq Require Import ZArith List Bool Lia.
From Verif Require Import Base ModbusModel ModbusSpec ModbusProofs McSpec IoModel IoSpec IoProofs.
Import ListNotations.
Open Scope Z_scope.

(** * Output blocks *)

Lemma ph_bits_spec src : forall n j p m x,
  fst (ph_bits src n j p m) x =
    (if (13 + j <=? x) && (x <? 13 + j + Z.of_nat n)
     then flags_byte src (p + 8 * (x - 13 - j)) else m x) /\
  snd (ph_bits src n j p m) = p + 8 * Z.of_nat n.
Proof.
  induction n as [|n IH]; intros j p m x.
  - cbn [ph_bits fst snd]. replace ((13 + j <=? x) && (x <? 13 + j + Z.of_nat 0)) with false by lia.
    split; auto. lia.
  - cbn [ph_bits]. rewrite ph_pack8_eq.
    destruct (IH (j + 1) (p + 8) (put m (13 + j) (flags_byte src p)) x) as [I1 I2].
    rewrite I1, I2. split; [|lia]. unfold put. destruct (Z.eqb_spec x (13 + j)).
    + subst x. replace ((13 + (j + 1) <=? 13 + j) && (13 + j <? 13 + (j + 1) + Z.of_nat n)) with false by lia.
      replace ((13 + j <=? 13 + j) && (13 + j <? 13 + j + Z.of_nat (S n))) with true by lia. f_equal. lia.
    + replace ((13 + j <=? x) && (x <? 13 + j + Z.of_nat (S n))) with
        ((13 + (j + 1) <=? x) && (x <? 13 + (j + 1) + Z.of_nat n)) by lia.
      destruct ((13 + (j + 1) <=? x) && (x <? 13 + (j + 1) + Z.of_nat n)); auto. f_equal. lia.
Qed.

(** The module tracking of the code against [run]. *)
Definition tracks (types : Z -> Z) (idx : nat) (mt mo : Z) : Prop :=
  match idx with
  | O => mt = 0 /\ mo = 0
  | S r => mt = types (Z.of_nat r) /\
      (io_link mt = true -> mo = run types r mod 32) /\
      (counter mt = true -> mo = run types r mod 14)
  end.

Lemma run_nonneg types r : 0 <= run types r.
Proof. induction r as [|r IH]; cbn [run]; [lia|]. destruct (_ =? _); lia. Qed.

Lemma succ_mod a k : 1 < k <= 32 -> u32 (a mod k + 1) mod k = (a + 1) mod k.
Proof.
  intros H. pose proof (Z.mod_pos_bound a k ltac:(lia)). rewrite u32_small by lia.
  apply Zplus_mod_idemp_l.
Qed.

Lemma module_tracks types idx mt mo : tracks types idx mt mo ->
  let '(mt', mo') := ph_module types (Z.of_nat idx) mt mo in tracks types (S idx) mt' mo'.
Proof.
  intros H. unfold ph_module. destruct (Z.eqb_spec (types (Z.of_nat idx)) mt) as [E|E]; cbn [negb].
  - fold (io_link mt). fold (counter mt).
    destruct idx as [|r].
    + destruct H as [-> ->]. cbn -[u32]. split; auto. split; intros; discriminate.
    + destruct H as (Ht & H1 & H2).
      assert (ER : run types (S r) = run types r + 1).
      { cbn [run]. rewrite E, Ht, Z.eqb_refl. reflexivity. }
      destruct (io_link mt) eqn:C1.
      * cbn [tracks]. rewrite ER. split; [auto|]. split; intros C2.
        -- rewrite H1 by auto. apply succ_mod. lia.
        -- unfold io_link, counter in *. lia.
      * destruct (counter mt) eqn:C2; cbn [tracks]; rewrite ER; (split; [auto|]); split; intros C3; try congruence.
        rewrite H2 by auto. apply succ_mod. lia.
  - fold (io_link (types (Z.of_nat idx))). fold (counter (types (Z.of_nat idx))).
    assert (G : match idx with O => True | S r => types (Z.of_nat idx) <> types (Z.of_nat r) end ->
                run types idx = 0).
    { destruct idx as [|r]; intros HE; cbn [run]; auto.
      destruct (Z.eqb_spec (types (Z.of_nat (S r))) (types (Z.of_nat r))); congruence. }
    assert (R0 : run types idx = 0).
    { apply G. destruct idx as [|r]; auto. destruct H as (Ht & _). congruence. }
    destruct (io_link (types (Z.of_nat idx))) eqn:C1;
      [|destruct (counter (types (Z.of_nat idx))) eqn:C2];
      cbn [tracks]; rewrite R0; (split; [reflexivity|]); split; intros; try congruence; reflexivity.
Qed.

(** The two bytes of a register, given what the flags put there. *)
Definition word_over (nd : node) (r : nat) (o1 o2 : Z) : Z * Z :=
  let z := Z.of_nat r in
  let t := aO_types nd z in
  let v := aO_ nd z mod 65536 in
  if io_link t then if run (aO_types nd) r mod 32 <=? 2 then (o1, o2) else (v mod 256, v / 256)
  else if counter t then if run (aO_types nd) r mod 14 =? 0 then (5, 5) else (0, 0)
  else if analog t then (v / 256, v mod 256)
  else (o1, o2).

Lemma byte_lo v : byte v 0 = (v mod 65536) mod 256.
Proof.
  unfold byte. change (2 ^ (8 * 0)) with 1. rewrite Z.div_1_r.
  apply Znumtheory.Zmod_div_mod; try lia. exists 256. reflexivity.
Qed.
Lemma byte_hi v : byte v 1 = v mod 65536 / 256.
Proof.
  unfold byte. change (2 ^ (8 * 1)) with 256. change 65536 with (256 * 256).
  rewrite Z.rem_mul_r by lia. rewrite (Z.mul_comm 256), Z.div_add by lia.
  rewrite (Z.div_small (v mod 256)) by (apply Z.mod_pos_bound; lia). lia.
Qed.
Lemma land_lo v : Z.land v 0xFF = byte v 0.
Proof.
  unfold byte. change 0xFF with (Z.ones 8). rewrite Z.land_ones by lia.
  change (2 ^ (8 * 0)) with 1. rewrite Z.div_1_r. reflexivity.
Qed.
Lemma land_hi v : Z.land (Z.shiftr v 8) 0xFF = byte v 1.
Proof. rewrite land_lo. unfold byte. rewrite Z.shiftr_div_pow2 by lia. change (2 ^ (8 * 0)) with 1. rewrite Z.div_1_r. reflexivity. Qed.

Lemma ph_word_spec nd r mt mo l m :
  tracks (aO_types nd) (S r) mt mo ->
  let m' := ph_word (aO_ nd (Z.of_nat r)) mt mo l m in
  (m' (13 + l), m' (13 + l + 1)) = word_over nd r (m (13 + l)) (m (13 + l + 1)) /\
  (forall x, x <> 13 + l -> x <> 13 + l + 1 -> m' x = m x).
Proof.
  intros (Ht & H1 & H2). unfold ph_word, word_over.
  rewrite <- Ht. fold (io_link mt). fold (counter mt). fold (analog mt).
  rewrite land_hi, !land_lo, !byte_lo, !byte_hi.
  destruct (io_link mt); [rewrite H1 by auto|destruct (counter mt); [rewrite H2 by auto|destruct (analog mt)]].
  - destruct (Z.ltb_spec 2 (run (aO_types nd) r mod 32)).
    + replace (run (aO_types nd) r mod 32 <=? 2) with false by lia. split.
      * puts. reflexivity.
      * intros x X1 X2. puts. reflexivity.
    + replace (run (aO_types nd) r mod 32 <=? 2) with true by lia. split; auto.
  - destruct (run (aO_types nd) r mod 14 =? 0); (split; [puts; reflexivity|intros x X1 X2; puts; reflexivity]).
  - split; [puts; reflexivity|intros x X1 X2; puts; reflexivity].
  - split; auto.
Qed.

Lemma ph_words_spec nd : forall n idx l mt mo m,
  tracks (aO_types nd) idx mt mo ->
  let '(m', (mt', mo')) := ph_words nd n (Z.of_nat idx) l mt mo m in
  tracks (aO_types nd) (idx + n) mt' mo' /\
  (forall r, (r < n)%nat ->
     (m' (13 + l + 2 * Z.of_nat r), m' (13 + l + 2 * Z.of_nat r + 1)) =
     word_over nd (idx + r) (m (13 + l + 2 * Z.of_nat r)) (m (13 + l + 2 * Z.of_nat r + 1))) /\
  (forall x, ~ (13 + l <= x < 13 + l + 2 * Z.of_nat n) -> m' x = m x).
Proof.
  induction n as [|n IH]; intros idx l mt mo m H; cbn [ph_words].
  - rewrite Nat.add_0_r. split; [auto|]. split; [lia|auto].
  - pose proof (module_tracks _ _ _ _ H) as T.
    destruct (ph_module (aO_types nd) (Z.of_nat idx) mt mo) as [mt1 mo1].
    pose proof (ph_word_spec nd idx mt1 mo1 l m T) as [W1 W2].
    set (m1 := ph_word (aO_ nd (Z.of_nat idx)) mt1 mo1 l m) in *.
    replace (Z.of_nat idx + 1) with (Z.of_nat (S idx)) by lia.
    pose proof (IH (S idx) (l + 2) mt1 mo1 m1 T) as G.
    destruct (ph_words nd n (Z.of_nat (S idx)) (l + 2) mt1 mo1 m1) as [m' [mt' mo']].
    destruct G as (G1 & G2 & G3). split; [rewrite <- plus_n_Sm; exact G1|]. split.
    + intros r Hr. destruct r as [|r].
      * rewrite !G3 by lia. rewrite Nat.add_0_r.
        replace (13 + l + 2 * Z.of_nat 0) with (13 + l) by lia. exact W1.
      * specialize (G2 r ltac:(lia)).
        replace (13 + (l + 2) + 2 * Z.of_nat r) with (13 + l + 2 * Z.of_nat (S r)) in G2 by lia.
        rewrite (W2 (13 + l + 2 * Z.of_nat (S r))), (W2 (13 + l + 2 * Z.of_nat (S r) + 1)) in G2 by lia.
        rewrite <- plus_n_Sm. exact G2.
    + intros x Hx. rewrite G3 by lia. apply W2; lia.
Qed.

(** Words of a buffer region as a flat list. *)
Lemma words_list m (f : nat -> list Z) n from a :
  (forall r, (r < n)%nat -> f (from + r)%nat = [m (a + 2 * Z.of_nat r); m (a + 2 * Z.of_nat r + 1)]) ->
  bytes_at m a (2 * Z.of_nat n) = flat_map f (seq from n).
Proof.
  revert from a. induction n as [|n IH]; intros from a H.
  - reflexivity.
  - replace (2 * Z.of_nat (S n)) with (2 + 2 * Z.of_nat n) by lia.
    rewrite bytes_at_split by lia. cbn [seq flat_map]. rewrite (IH (S from) (a + 2)).
    + f_equal. specialize (H 0%nat ltac:(lia)). rewrite Nat.add_0_r in H. rewrite H.
      replace (a + 2 * Z.of_nat 0) with a by lia.
      unfold bytes_at. change (Z.to_nat 2) with 2%nat. cbn [seq map].
      change (Z.of_nat 0) with 0. change (Z.of_nat 1) with 1. rewrite Z.add_0_r. reflexivity.
    + intros r Hr. specialize (H (S r) ltac:(lia)). rewrite <- plus_n_Sm in H. cbn [Nat.add].
      rewrite H. replace (a + 2 + 2 * Z.of_nat r) with (a + 2 * Z.of_nat (S r)) by lia. reflexivity.
Qed.

Lemma output_word_over nd r :
  output_word nd r =
  let '(a, b) := word_over nd r (flags_byte (dO_ nd) (16 * Z.of_nat r))
                   (flags_byte (dO_ nd) (16 * Z.of_nat r + 8)) in [a; b].
Proof.
  unfold output_word, word_over.
  destruct (io_link _); [destruct (_ <=? 2); reflexivity|].
  destruct (counter _); [destruct (_ =? 0); reflexivity|]. destruct (analog _); reflexivity.
Qed.

Lemma next_count_ok total start : 0 <= start < total -> total < 2 ^ 32 ->
  0 < next_count total start <= 123 /\ start + next_count total start <= total /\
  (start + 123 <= total -> next_count total start = 123).
Proof.
  intros H1 H2. unfold next_count, max_regs. rewrite u32_small by lia.
  destruct (Z.ltb_spec 123 (total - start)); lia.
Qed.

Lemma be_bytes a : 0 <= a < 65536 ->
  [u8 (Z.shiftr (u16 a) 8); Z.land (u16 a) 0xFF] = be16 a.
Proof.
  intros H. rewrite u16_small by lia. rewrite land_lo. unfold byte, be16.
  change (2 ^ (8 * 0)) with 1. rewrite Z.div_1_r, Z.shiftr_div_pow2 by lia.
  change (2 ^ 8) with 256. rewrite u8_small; auto. split; [apply Z.div_pos; lia|apply Z.div_lt_upper_bound; lia].
Qed.

Lemma write_header_eq a q : 0 <= a < 65536 -> 0 <= q <= 123 ->
  write_regs_header a q =
  [115; 115; 0; 0] ++ be16 (7 + 2 * q) ++ [0; 16] ++ be16 a ++ be16 q ++ [2 * q].
Proof.
  intros Ha Hq. unfold write_regs_header.
  pose proof (be_bytes a Ha) as E1. pose proof (be_bytes q ltac:(lia)) as E2.
  unfold be16 in *. cbn [app]. rewrite !u8_small with (x := 7 + q * 2) by lia.
  rewrite (u8_small (q * 2)) by lia.
  pose proof (f_equal (fun l => nth 0 l 0) E1) as A1. pose proof (f_equal (fun l => nth 1 l 0) E1) as A2.
  pose proof (f_equal (fun l => nth 0 l 0) E2) as B1. pose proof (f_equal (fun l => nth 1 l 0) E2) as B2.
  cbn [nth] in *. rewrite A1, A2, B1, B2.
  rewrite (Z.div_small (7 + 2 * q)), (Z.mod_small (7 + 2 * q)) by lia.
  replace (7 + q * 2) with (7 + 2 * q) by lia. replace (q * 2) with (2 * q) by lia. reflexivity.
Qed.

Lemma output_image_length nd s q : length (output_image nd s q) = (2 * q)%nat.
Proof.
  unfold output_image. revert s. induction q as [|q IH]; intros s; cbn [seq flat_map]; auto.
  rewrite app_length, IH. rewrite output_word_over. destruct (word_over _ _ _ _). cbn [length]. lia.
Qed.

Lemma block_sent nd m (s q : nat) mt mo :
  0 <= Z.of_nat s + 9000 < 65536 -> (0 < q <= 123)%nat ->
  tracks (aO_types nd) s mt mo ->
  let '(m1, p) := ph_bits (dO_ nd) (Z.to_nat (Z.of_nat q * 2)) 0 (16 * Z.of_nat s) m in
  let '(m2, (mt', mo')) := ph_words nd (Z.to_nat (Z.of_nat q)) (Z.of_nat s) 0 mt mo m1 in
  let m3 := store (write_regs_header (holding_start + Z.of_nat s) (Z.of_nat q)) m2 0 in
  p = 16 * Z.of_nat (s + q) /\ tracks (aO_types nd) (s + q) mt' mo' /\
  bytes_at m3 0 (Z.of_nat q * 2 + 13) = block_frame nd s q.
Proof.
  intros Hs Hq T.
  destruct (ph_bits (dO_ nd) (Z.to_nat (Z.of_nat q * 2)) 0 (16 * Z.of_nat s) m) as [m1 p] eqn:E1.
  assert (B1 : forall x, m1 x = if (13 <=? x) && (x <? 13 + 2 * Z.of_nat q)
     then flags_byte (dO_ nd) (16 * Z.of_nat s + 8 * (x - 13)) else m x).
  { intros x. pose proof (ph_bits_spec (dO_ nd) (Z.to_nat (Z.of_nat q * 2)) 0 (16 * Z.of_nat s) m x) as [B _].
    rewrite E1 in B. cbn [fst] in B. rewrite Z2Nat.id in B by lia.
    replace (13 + 0) with 13 in B by lia. replace (13 + 2 * Z.of_nat q) with (13 + Z.of_nat q * 2) by lia.
    replace (x - 13) with (x - 13 - 0) by lia. exact B. }
  assert (B2 : p = 16 * Z.of_nat (s + q)).
  { pose proof (ph_bits_spec (dO_ nd) (Z.to_nat (Z.of_nat q * 2)) 0 (16 * Z.of_nat s) m 0) as [_ B].
    rewrite E1 in B. cbn [snd] in B. lia. }
  rewrite Nat2Z.id. pose proof (ph_words_spec nd q s 0 mt mo m1 T) as G.
  destruct (ph_words nd q (Z.of_nat s) 0 mt mo m1) as [m2 [mt' mo']].
  destruct G as (G1 & G2 & G3). cbv zeta. split; [exact B2|]. split; [exact G1|].
  set (h := write_regs_header (holding_start + Z.of_nat s) (Z.of_nat q)).
  replace (Z.of_nat q * 2 + 13) with (13 + 2 * Z.of_nat q) by lia.
  rewrite bytes_at_split by lia. rewrite Z.add_0_l.
  change 13 with (Z.of_nat (length h)) at 1. rewrite bytes_at_store.
  assert (EB : bytes_at (store h m2 0) 13 (2 * Z.of_nat q) = output_image nd s q).
  { apply words_list. intros r Hr. rewrite output_word_over.
    specialize (G2 r Hr). replace (13 + 0) with 13 in G2 by lia.
    pose proof (store_frame h m2 0) as F. change (Z.of_nat (length h)) with 13 in F.
    rewrite (F (13 + 2 * Z.of_nat r)), (F (13 + 2 * Z.of_nat r + 1)) by lia.
    rewrite !B1 in G2.
    replace ((13 <=? 13 + 2 * Z.of_nat r) && (13 + 2 * Z.of_nat r <? 13 + 2 * Z.of_nat q)) with true in G2 by lia.
    replace ((13 <=? 13 + 2 * Z.of_nat r + 1) && (13 + 2 * Z.of_nat r + 1 <? 13 + 2 * Z.of_nat q)) with true in G2 by lia.
    replace (16 * Z.of_nat s + 8 * (13 + 2 * Z.of_nat r - 13)) with (16 * Z.of_nat (s + r)) in G2 by lia.
    replace (16 * Z.of_nat s + 8 * (13 + 2 * Z.of_nat r + 1 - 13)) with (16 * Z.of_nat (s + r) + 8) in G2 by lia.
    rewrite <- G2. reflexivity. }
  rewrite EB. unfold h. unfold holding_start. rewrite write_header_eq by lia.
  unfold block_frame, frame.
  assert (EL : 1 + Z.of_nat (length ([16] ++ be16 (9000 + Z.of_nat s) ++ be16 (Z.of_nat q) ++
       [2 * Z.of_nat q] ++ output_image nd s q)) = 7 + 2 * Z.of_nat q).
  { rewrite !app_length, output_image_length. cbn [length be16]. lia. }
  rewrite EL. rewrite <- !app_assoc. reflexivity.
Qed.

Definition same_config (nd nd' : node) : Prop :=
  dO_ nd' = dO_ nd /\ aO_ nd' = aO_ nd /\ aO_cnt nd' = aO_cnt nd /\ aO_types nd' = aO_types nd /\
  dI nd' = dI nd /\ aI nd' = aI nd /\ dO_cnt nd' = dO_cnt nd.

Lemma output_image_config nd nd' s q : same_config nd nd' ->
  output_image nd' s q = output_image nd s q.
Proof.
  intros (E1 & E2 & _ & E3 & _). unfold output_image. apply flat_map_ext. intros r.
  unfold output_word. rewrite E1, E2, E3. reflexivity.
Qed.
Lemma block_frame_config nd nd' s q : same_config nd nd' ->
  block_frame nd' s q = block_frame nd s q.
Proof. intros H. unfold block_frame. rewrite output_image_config with (nd' := nd') (nd := nd) by auto. reflexivity. Qed.

Lemma write_loop_spec replies (total : nat) : (forall s, not_cut 8 (replies s)) ->
  (total <= 2016)%nat ->
  forall fuel (s : nat) mt mo nd m,
  (s < total)%nat -> (total - s <= fuel)%nat -> aO_cnt nd = Z.of_nat total ->
  tracks (aO_types nd) s mt mo ->
  let '(rs, nd', m') :=
    ph_write_loop fuel (Z.of_nat s) (next_count (aO_cnt nd) (Z.of_nat s)) (16 * Z.of_nat s) mt mo
      replies nd m in
  exists blocks, covers s total blocks /\
    map (fun r : request => bytes_at (fst r) 0 (snd r)) rs =
      map (fun b => block_frame nd (fst b) (snd b)) blocks /\
    same_config nd nd' /\
    (forall r, aO nd' r = if confirmed_by replies blocks r then aO_ nd r else aO nd r) /\
    (forall i, dO nd' i = if confirmed_by replies blocks (i / 16) then dO_ nd i else dO nd i).
Proof.
  intros Hcut Htot. induction fuel as [|fuel IH]; intros s mt mo nd m Hs Hf Hc T; [lia|].
  cbn [ph_write_loop]. rewrite Hc.
  destruct (next_count_ok (Z.of_nat total) (Z.of_nat s) ltac:(lia) ltac:(lia)) as (Q1 & Q2 & _).
  destruct (Z_of_nat_complete (next_count (Z.of_nat total) (Z.of_nat s)) ltac:(lia)) as [q Eq].
  rewrite Eq in *.
  pose proof (block_sent nd m s q mt mo ltac:(lia) ltac:(lia) T) as B.
  destruct (ph_bits (dO_ nd) (Z.to_nat (Z.of_nat q * 2)) 0 (16 * Z.of_nat s) m) as [m1 p].
  destruct (ph_words nd (Z.to_nat (Z.of_nat q)) (Z.of_nat s) 0 mt mo m1) as [m2 [mt' mo']].
  cbv zeta in B. destruct B as (-> & T' & B).
  set (m3 := store (write_regs_header (holding_start + Z.of_nat s) (Z.of_nat q)) m2 0) in *.
  set (upd := with_dO (with_aO nd (copy_range (aO nd) (aO_ nd) (Z.of_nat s) (Z.of_nat q)))
                (copy_range (dO nd) (dO_ nd) (Z.of_nat s * 16) (Z.of_nat q * 16))).
  set (step := match receive 12 (replies (Z.of_nat s)) m3 with
        | None => (nd, m3)
        | Some mr => if mr 7 =? 16 then (upd, mr) else (nd, mr) end).
  assert (ST : fst step = if confirmed (replies (Z.of_nat s)) then upd else nd).
  { unfold step. specialize (Hcut (Z.of_nat s)). destruct (replies (Z.of_nat s)) as [l|] eqn:ER.
    - cbn [not_cut confirmed] in *. destruct (receive 12 (Some l) m3) as [mr|] eqn:EM.
      + pose proof (receive_read 12 l m3 7 mr EM ltac:(lia)) as R.
        replace ((7 <? 12) && (7 <? Z.of_nat (length l))) with true in R by lia.
        change (Z.to_nat 7) with 7%nat in R. rewrite R. destruct (nth 7 l 0 =? 16); reflexivity.
      + discriminate.
    - reflexivity. }
  destruct step as [nd1 m4]. cbn [fst] in ST.
  assert (SC : same_config nd nd1).
  { rewrite ST. destruct (confirmed _); repeat split; reflexivity. }
  assert (Hown : forall r, aO nd1 r = if (Z.of_nat s <=? r) && (r <? Z.of_nat s + Z.of_nat q)
                    && confirmed (replies (Z.of_nat s)) then aO_ nd r else aO nd r).
  { intros r. rewrite ST. destruct (confirmed _).
    - rewrite andb_true_r. reflexivity.
    - rewrite andb_false_r. reflexivity. }
  assert (Hdn : forall i, dO nd1 i = if (Z.of_nat s <=? i / 16) && (i / 16 <? Z.of_nat s + Z.of_nat q)
                    && confirmed (replies (Z.of_nat s)) then dO_ nd i else dO nd i).
  { intros i. rewrite ST. pose proof (Z.div_mod i 16 ltac:(lia)). pose proof (Z.mod_pos_bound i 16 ltac:(lia)).
    destruct (confirmed _).
    - rewrite andb_true_r. unfold upd, with_dO, dO, copy_range.
      replace ((Z.of_nat s * 16 <=? i) && (i <? Z.of_nat s * 16 + Z.of_nat q * 16)) with
        ((Z.of_nat s <=? i / 16) && (i / 16 <? Z.of_nat s + Z.of_nat q)) by lia. reflexivity.
    - rewrite andb_false_r. reflexivity. }
  destruct (Z.ltb_spec (Z.of_nat s + Z.of_nat q) (Z.of_nat total)).
  - assert (C1 : aO_cnt nd1 = Z.of_nat total) by (destruct SC as (_ & _ & SC & _); congruence).
    assert (T1 : tracks (aO_types nd1) (s + q) mt' mo')
      by (destruct SC as (_ & _ & _ & SC & _); rewrite SC; exact T').
    pose proof (IH (s + q)%nat mt' mo' nd1 m4 ltac:(lia) ltac:(lia) C1 T1) as G.
    rewrite C1 in G. rewrite Nat2Z.inj_add in *.
    destruct (ph_write_loop fuel (Z.of_nat s + Z.of_nat q)
                (next_count (Z.of_nat total) (Z.of_nat s + Z.of_nat q))
                (16 * (Z.of_nat s + Z.of_nat q)) mt' mo' replies nd1 m4) as [[rs nd2] m5].
    destruct G as (bl & G1 & G2 & G3 & G4 & G5).
    exists ((s, q) :: bl). split; [|split; [|split; [|split]]].
    + cbn [covers]. split; [auto|]. split; [lia|exact G1].
    + cbn [map fst snd]. f_equal; [exact B|]. rewrite G2. apply map_ext. intros b.
      apply block_frame_config. auto.
    + destruct SC as (A1 & A2 & A3 & A4 & A5 & A6 & A7), G3 as (D1 & D2 & D3 & D4 & D5 & D6 & D7).
      repeat split; congruence.
    + intros r. rewrite G4. cbn [confirmed_by]. rewrite Hown.
      replace (aO_ nd1 r) with (aO_ nd r) by (destruct SC as (_ & -> & _); reflexivity).
      destruct ((Z.of_nat s <=? r) && (r <? Z.of_nat s + Z.of_nat q) && confirmed (replies (Z.of_nat s)));
        destruct (confirmed_by replies bl r); reflexivity.
    + intros i. rewrite G5. cbn [confirmed_by]. rewrite Hdn.
      replace (dO_ nd1 i) with (dO_ nd i) by (destruct SC as (-> & _); reflexivity).
      destruct ((Z.of_nat s <=? i / 16) && (i / 16 <? Z.of_nat s + Z.of_nat q) && confirmed (replies (Z.of_nat s)));
        destruct (confirmed_by replies bl (i / 16)); reflexivity.
  - exists [(s, q)]. split; [|split; [|split; [|split]]].
    + cbn [covers]. split; [auto|]. split; [lia|]. lia.
    + cbn [map fst snd]. f_equal. exact B.
    + exact SC.
    + intros r. rewrite Hown. cbn [confirmed_by]. rewrite orb_false_r. reflexivity.
    + intros i. rewrite Hdn. cbn [confirmed_by]. rewrite orb_false_r. reflexivity.
Qed.


(** * Input blocks *)

Lemma ph_ai_spec types m : forall n src dest a r,
  fst (ph_ai types m n src dest a) r =
    (if (dest <=? r) && (r <? dest + Z.of_nat n)
     then input_value (types r) (m (9 + src + 2 * (r - dest))) (m (9 + src + 2 * (r - dest) + 1))
     else a r) /\
  snd (ph_ai types m n src dest a) = dest + Z.of_nat n.
Proof.
  induction n as [|n IH]; intros src dest a r.
  - cbn [ph_ai fst snd]. replace ((dest <=? r) && (r <? dest + Z.of_nat 0)) with false by lia.
    split; auto. lia.
  - cbn [ph_ai]. set (v := if _ : bool then _ else _).
    destruct (IH (src + 2) (dest + 1) (put a dest v) r) as [I1 I2]. rewrite I1, I2. split; [|lia].
    unfold put. destruct (Z.eqb_spec r dest).
    + subst r. replace ((dest + 1 <=? dest) && (dest <? dest + 1 + Z.of_nat n)) with false by lia.
      replace ((dest <=? dest) && (dest <? dest + Z.of_nat (S n))) with true by lia.
      unfold v, input_value, io_link.
      replace (9 + src + 2 * (dest - dest)) with (9 + src) by lia.
      destruct ((types dest =? 1027843) || (types dest =? 1088132)); f_equal; lia.
    + replace ((dest <=? r) && (r <? dest + Z.of_nat (S n))) with
        ((dest + 1 <=? r) && (r <? dest + 1 + Z.of_nat n)) by lia.
      replace (9 + (src + 2) + 2 * (r - (dest + 1))) with (9 + src + 2 * (r - dest)) by lia. reflexivity.
Qed.

Lemma ph_unpack8_spec b : forall n k dest d i,
  fst (ph_unpack8 b n k dest d) i =
    (if (dest <=? i) && (i <? dest + Z.of_nat n)
     then Z.land (Z.shiftr b (k + (i - dest))) 1 else d i) /\
  snd (ph_unpack8 b n k dest d) = dest + Z.of_nat n.
Proof.
  induction n as [|n IH]; intros k dest d i.
  - cbn [ph_unpack8 fst snd]. replace ((dest <=? i) && (i <? dest + Z.of_nat 0)) with false by lia.
    split; auto. lia.
  - cbn [ph_unpack8]. destruct (IH (k + 1) (dest + 1) (put d dest (Z.land (Z.shiftr b k) 1)) i) as [I1 I2].
    rewrite I1, I2. split; [|lia]. unfold put. destruct (Z.eqb_spec i dest).
    + subst i. replace ((dest + 1 <=? dest) && (dest <? dest + 1 + Z.of_nat n)) with false by lia.
      replace ((dest <=? dest) && (dest <? dest + Z.of_nat (S n))) with true by lia. f_equal. f_equal. lia.
    + replace ((dest <=? i) && (i <? dest + Z.of_nat (S n))) with
        ((dest + 1 <=? i) && (i <? dest + 1 + Z.of_nat n)) by lia.
      replace (k + 1 + (i - (dest + 1))) with (k + (i - dest)) by lia. reflexivity.
Qed.

Lemma ph_di_spec m : forall bytes fuel src dest d i, (bytes <= fuel)%nat ->
  fst (ph_di m (dest + 8 * Z.of_nat bytes) fuel src dest d) i =
    (if (dest <=? i) && (i <? dest + 8 * Z.of_nat bytes)
     then Z.b2z (Z.testbit (m (9 + src + (i - dest) / 8)) ((i - dest) mod 8)) else d i) /\
  snd (ph_di m (dest + 8 * Z.of_nat bytes) fuel src dest d) = dest + 8 * Z.of_nat bytes.
Proof.
  induction bytes as [|bytes IH]; intros fuel src dest d i Hf.
  - replace (dest + 8 * Z.of_nat 0) with dest by lia.
    replace ((dest <=? i) && (i <? dest)) with false by lia.
    destruct fuel; cbn [ph_di]; [auto|]. rewrite Z.ltb_irrefl. auto.
  - destruct fuel as [|fuel]; [lia|]. cbn [ph_di].
    replace (dest <? dest + 8 * Z.of_nat (S bytes)) with true by lia.
    destruct (ph_unpack8 (m (9 + src)) 8 0 dest d) as [d' dest'] eqn:E.
    assert (I1 : forall i, d' i = if (dest <=? i) && (i <? dest + 8)
        then Z.land (Z.shiftr (m (9 + src)) (0 + (i - dest))) 1 else d i).
    { intros i0. pose proof (ph_unpack8_spec (m (9 + src)) 8 0 dest d i0) as [I _]. rewrite E in I. exact I. }
    assert (I2 : dest' = dest + 8).
    { pose proof (ph_unpack8_spec (m (9 + src)) 8 0 dest d 0) as [_ I]. rewrite E in I. exact I. }
    subst dest'. replace (dest + 8 * Z.of_nat (S bytes)) with (dest + 8 + 8 * Z.of_nat bytes) by lia.
    destruct (IH fuel (src + 1) (dest + 8) d' i ltac:(lia)) as [J1 J2]. rewrite J1, J2. split; [|lia].
    rewrite I1.
    destruct ((dest + 8 <=? i) && (i <? dest + 8 + 8 * Z.of_nat bytes)) eqn:B1.
    + replace ((dest <=? i) && (i <? dest + 8 + 8 * Z.of_nat bytes)) with true by lia.
      f_equal. replace (i - (dest + 8)) with (i - dest + (-1) * 8) by lia.
      rewrite Z.div_add, Z.mod_add by lia. f_equal. f_equal. lia.
    + destruct ((dest <=? i) && (i <? dest + 8)) eqn:B2.
      * replace ((dest <=? i) && (i <? dest + 8 + 8 * Z.of_nat bytes)) with true by lia.
        rewrite bit_land by lia. rewrite Z.div_small, Z.mod_small by lia. f_equal. f_equal; try f_equal; lia.
      * replace ((dest <=? i) && (i <? dest + 8 + 8 * Z.of_nat bytes)) with false by lia. reflexivity.
Qed.
