(** The model of IO-Link valves does what the specification says. *)
From Coq Require Import ZArith List Bool Lia.
From Verif Require Import Base TimeModel IolModel IolSpec.
Import ListNotations.
Open Scope Z_scope.

Record inv (k : cls) (s : ist) (p : past) : Prop := {
  i_pt : pt s = Real;
  i_out : out s = byte_of k (asked p) (lamp p);
  i_in : ib s = load k (got p);
  i_t : t_sw s = since p;
  i_man : man s = held p;
  i_seat : two_seats k = false -> asked p = Shut \/ asked p = Open }.

(** The fields of the inputs. *)
Lemma in_bits k d : gea k = false ->
  de_en (load k d) = bit d 3 0 /\ main (load k d) = bit d 3 1 /\ usl (load k d) = bit d 3 2 /\ lsp (load k d) = bit d 3 3 /\ stt (load k d) = bit d 3 4.
Proof. intros G. destruct k; try discriminate G; repeat split. Qed.
Lemma in_gea k d : gea k = true ->
  s1 (load k d) = bit d 0 0 /\ s2 (load k d) = bit d 0 1 /\ s4 (load k d) = bit d 0 3 /\ sup (load k d) = bit d 0 4 /\
  y1 (load k d) = bit d 1 0 /\ y2 (load k d) = bit d 1 1 /\ y3 (load k d) = bit d 1 2 /\ fld (load k d) 11 = bit d 1 3.
Proof. intros G. destruct k; try discriminate G; repeat split. Qed.
Lemma land31 x : existsb (Z.testbit x) [0; 1; 2; 3; 4] = negb (Z.land x 31 =? 0).
Proof.
  change 31 with (Z.ones 5). rewrite Z.land_ones by lia. change (2 ^ 5) with 32.
  assert (B : forall n, 0 <= n < 5 -> Z.testbit x n = Z.testbit (x mod 2 ^ 5) n) by (intros n Hn; rewrite Z.mod_pow2_bits_low by lia; reflexivity).
  change (2 ^ 5) with 32 in B. cbn [existsb]. rewrite !B by lia. clear B.
  pose proof (Z.mod_pos_bound x 32 ltac:(lia)) as R. generalize dependent (x mod 32). intros y R.
  assert (H : In y (map Z.of_nat (seq 0 32))).
  { apply in_map_iff. exists (Z.to_nat y). split; [lia|]. apply in_seq. lia. }
  cbn in H. repeat (destruct H as [<-|H]; [reflexivity|]). destruct H.
Qed.
Lemma land240 x : existsb (Z.testbit x) [4; 5; 6; 7] = negb (Z.land x 240 =? 0).
Proof.
  assert (E : Z.land x 240 = Z.land (x mod 2 ^ 8) 240).
  { apply Z.bits_inj'. intros n Hn. rewrite !Z.land_spec. destruct (Z.ltb_spec n 8).
    - rewrite Z.mod_pow2_bits_low by lia. reflexivity.
    - replace (Z.testbit 240 n) with false; [rewrite !andb_false_r; reflexivity|]. symmetry. apply (Z.bits_above_log2 240 n); [lia|]. change (Z.log2 240) with 7. lia. }
  rewrite E.
  assert (B : forall n, 0 <= n < 8 -> Z.testbit x n = Z.testbit (x mod 2 ^ 8) n) by (intros n Hn; rewrite Z.mod_pow2_bits_low by lia; reflexivity).
  cbn [existsb]. rewrite !B by lia. clear B E. change (2 ^ 8) with 256.
  pose proof (Z.mod_pos_bound x 256 ltac:(lia)) as R. generalize dependent (x mod 256). intros y R.
  assert (H : In y (map Z.of_nat (seq 0 256))).
  { apply in_map_iff. exists (Z.to_nat y). split; [lia|]. apply in_seq. lia. }
  vm_compute in H. repeat (destruct H as [<-|H]; [reflexivity|]). destruct H.
Qed.
Lemma err_bits k d : err k (load k d) || (gea k && sup (load k d)) = errors k d.
Proof.
  unfold err, errors. destruct k; cbn [gea andb orb]; rewrite ?orb_false_r.
  - exact (land31 (d 2)).
  - exact (land31 (d 2)).
  - exact (land240 (d 3)).
  - reflexivity.
  - reflexivity.
Qed.
Lemma is_gea_gea k : is_gea k = gea k. Proof. destruct k; reflexivity. Qed.

Definition wnum (q : want) : Z := match q with Shut => 0 | Open => 1 | Upper => 2 | Lower => 3 end.
Lemma state_position k d : valve_state k (load k d) = wnum (position k d).
Proof.
  unfold valve_state, position. destruct (gea k) eqn:G.
  - destruct (in_gea k d G) as (_ & _ & _ & _ & A & B & C & _). rewrite A, B, C.
    destruct k; try discriminate G; destruct (bit d 1 0), (bit d 1 1), (bit d 1 2); reflexivity.
  - destruct (in_bits k d G) as (A & B & C & D & _). rewrite A, B, C, D.
    destruct k; try discriminate G; destruct (bit d 3 0), (bit d 3 1), (bit d 3 2), (bit d 3 3); reflexivity.
Qed.

Lemma delta_ge w n t : 0 <= t <= n -> get_delta_millisec w n t = n - t.
Proof.
  intros H. unfold get_delta_millisec. replace (n <? t) with false by lia. replace (t <=? n) with true by lia. reflexivity.
Qed.

Lemma right_fb w k E s p : inv k s p -> 0 <= since p <= now E -> fb_state w k E s = Some (right k E p).
Proof.
  intros I T. unfold fb_state, right. cbv zeta. rewrite (i_in _ _ _ I), (i_t _ _ _ I), delta_ge by assumption.
  pose proof (err_bits k (got p)) as EB. rewrite is_gea_gea.
  destruct (link E =? 0); cbn [negb andb]; [|reflexivity].
  destruct (err k (load k (got p))); cbn [orb] in EB; [rewrite <- EB; reflexivity|].
  rewrite EB. destruct (errors k (got p)); cbn [negb andb]; [reflexivity|].
  destruct (now E - since p <? p_time E); cbn [orb]; [reflexivity|].
  destruct (gea k) eqn:G.
  - destruct (in_gea k (got p) G) as (S1 & S2 & S4 & _ & Y1 & Y2 & Y3 & _). unfold n_active. rewrite S1, S2, S4, Y1, Y2, Y3. unfold confirms.
    destruct k; try discriminate G; destruct (bit (got p) 1 0), (bit (got p) 1 1), (bit (got p) 1 2), (bit (got p) 0 0), (bit (got p) 0 1), (bit (got p) 0 3); reflexivity.
  - destruct (in_bits k (got p) G) as (A & B & C & D & F). rewrite A, B, C, D, F. unfold rd_out. rewrite (i_pt _ _ _ I), (i_out _ _ _ I).
    f_equal. pose proof (i_seat _ _ _ I) as SE.
    destruct k; try discriminate G.
    + unfold confirms. destruct (bit (got p) 3 0), (bit (got p) 3 1), (bit (got p) 3 2), (bit (got p) 3 3), (bit (got p) 3 4); destruct (asked p), (lamp p); reflexivity.
    + unfold confirms. destruct (bit (got p) 3 0), (bit (got p) 3 1), (bit (got p) 3 4); destruct (SE eq_refl) as [-> | ->]; destruct (lamp p); reflexivity.
    + unfold confirms. destruct (bit (got p) 3 0), (bit (got p) 3 1); destruct (SE eq_refl) as [-> | ->]; destruct (lamp p); reflexivity.
Qed.

Lemma reported w k E s p : inv k s p -> 0 <= since p <= now E -> get_state w k E s = Some (report k E p).
Proof.
  intros I T. unfold get_state, report. cbv zeta. rewrite (right_fb w k E s p I T), (i_in _ _ _ I), state_position, (i_man _ _ _ I), (i_t _ _ _ I), delta_ge by assumption.
  pose proof (state_position k (got p)) as SP.
  destruct (position k (got p)) eqn:PO; cbn [wnum]; cbn [Z.eqb orb Pos.eqb];
    destruct (held p), (p_fb E), (right k E p); cbn [negb]; try reflexivity;
    try (destruct (p_time E <? now E - since p); reflexivity);
    destruct k; try reflexivity; try (unfold position in PO; repeat match type of PO with context [if ?b then _ else _] => destruct b end; discriminate PO).
Qed.

(** Orders. *)
Lemma do_order k q t s p : inv k s p -> (two_seats k = false -> q = Shut \/ q = Open) ->
  exists s', direct_set_state k t (wnum q) s = Some s' /\ pt s' = Real /\ ib s' = ib s /\ man s' = man s /\
    out s' = byte_of k q (lamp p) /\ t_sw s' = (if restarts k p q then t else since p) /\ blink s' = blink s.
Proof.
  intros I SQ. pose proof (i_seat _ _ _ I) as SE. pose proof (i_t _ _ _ I) as TT.
  assert (OFF : exists s', direct_off k t s = Some s' /\ pt s' = Real /\ ib s' = ib s /\ man s' = man s /\
    out s' = byte_of k Shut (lamp p) /\ t_sw s' = (if negb (is_shut (asked p)) then t else since p) /\ blink s' = blink s).
  { unfold direct_off, rd_out. rewrite (i_pt _ _ _ I). unfold wr_out.
    assert (P : forall b : bool, pt (if b then wt t s else s) = Real) by (intros []; exact (i_pt _ _ _ I)).
    rewrite P. eexists. split; [reflexivity|]. cbn [pt ib man out t_sw blink]. rewrite (i_out _ _ _ I). rewrite <- TT.
    destruct k; try (destruct (SE eq_refl) as [-> | ->]); try (destruct (asked p)); destruct (lamp p); repeat split. }
  destruct q; unfold direct_set_state; cbn [wnum Z.eqb Pos.eqb]; rewrite ?andb_false_r, ?andb_true_r.
  - destruct OFF as (s' & A & B). exists s'. split; [exact A|]. exact B.
  - unfold direct_on, rd_out. rewrite (i_pt _ _ _ I), is_gea_gea. unfold wr_out.
    assert (P : forall b : bool, pt (if b then wt t s else s) = Real) by (intros []; exact (i_pt _ _ _ I)).
    rewrite P. eexists. split; [reflexivity|]. cbn [pt ib man out t_sw blink]. rewrite (i_out _ _ _ I), (i_in _ _ _ I).
    assert (RS : (if gea k then negb (y1 (load k (got p))) || negb (y2 (load k (got p))) || negb (y3 (load k (got p))) else negb (main (load k (got p)))) = restarts k p Open).
    { unfold restarts. cbn [is_open]. destruct (gea k) eqn:G.
      - destruct (in_gea k (got p) G) as (_ & _ & _ & _ & A & B & C & _). rewrite A, B, C. destruct (bit (got p) 1 0), (bit (got p) 1 1), (bit (got p) 1 2); reflexivity.
      - destruct (in_bits k (got p) G) as (_ & B & _). rewrite B. reflexivity. }
    rewrite RS. rewrite <- TT.
    repeat split; try (destruct (restarts k p Open); (exact (i_in _ _ _ I) || reflexivity)).
    clear RS. destruct k; try (destruct (SE eq_refl) as [-> | ->]); try (destruct (asked p)); destruct (lamp p); reflexivity.
  - assert (S2 : two_seats k = true) by (destruct (two_seats k); [reflexivity|destruct (SQ eq_refl); discriminate]).
    replace (match k with Mix | GeaD => true | _ => false end) with true by (symmetry; exact S2). cbn [andb].
    destruct OFF as (s' & A & B1 & B2 & B3 & B4 & B5 & B6). rewrite A. unfold rd_out, wr_out. rewrite B1. eexists. split; [reflexivity|]. cbn [pt ib man out t_sw blink].
    rewrite B4. repeat split; try assumption. destruct k; try discriminate S2; destruct (lamp p); reflexivity.
  - assert (S2 : two_seats k = true) by (destruct (two_seats k); [reflexivity|destruct (SQ eq_refl); discriminate]).
    replace (match k with Mix | GeaD => true | _ => false end) with true by (symmetry; exact S2). cbn [andb].
    destruct OFF as (s' & A & B1 & B2 & B3 & B4 & B5 & B6). rewrite A. unfold rd_out, wr_out. rewrite B1. eexists. split; [reflexivity|]. cbn [pt ib man out t_sw blink].
    rewrite B4. repeat split; try assumption. destruct k; try discriminate S2; destruct (lamp p); reflexivity.
Qed.
Lemma set_meaning k t n s : direct_set_state k t n s = direct_set_state k t (wnum (meaning k n)) s.
Proof.
  unfold meaning, direct_set_state. cbv zeta. change (match k with Mix | GeaD => true | _ => false end) with (two_seats k).
  destruct (Z.eqb_spec n 0) as [->|N0]; [reflexivity|]. destruct (two_seats k) eqn:S2; cbn [andb].
  - destruct (Z.eqb_spec n 2) as [->|N2]; [reflexivity|]. destruct (Z.eqb_spec n 3) as [->|N3]; [reflexivity|].
    cbn [wnum Z.eqb Pos.eqb]. destruct (n =? 1); reflexivity.
  - cbn [wnum Z.eqb Pos.eqb]. destruct (n =? 1); reflexivity.
Qed.
Lemma meaning_seat k n : two_seats k = false -> meaning k n = Shut \/ meaning k n = Open.
Proof. intros S. unfold meaning. rewrite S. cbn [andb]. destruct (n =? 0); auto. Qed.

Lemma step_inv w c s p x : ao c = true -> ai c = true -> inv (kind c) s p -> 0 <= since p <= now (snd x) ->
  exists s', step w c s x = Some s' /\ inv (kind c) s' (note (kind c) p x).
Proof.
  intros HO HI I T. set (k := kind c) in *. destruct x as (o, E). cbn [fst snd] in *.
  assert (OB : forall q, asks k (held p) o = Some q -> o <> Eval -> (forall n, o <> Man n) -> (forall b, o <> Blink b) -> (two_seats k = false -> q = Shut \/ q = Open) ->
    exists s', direct_set_state k (now E) (wnum q) s = Some s' /\ inv k s' (note k p (o, E))).
  { intros q A N1 N2 N3 SQ. destruct (do_order k q (now E) s p I SQ) as (s' & D & B1 & B2 & B3 & B4 & B5 & B6).
    exists s'. split; [exact D|]. split; cbn [note got held lamp asked since fst snd]; rewrite ?A.
    - exact B1.
    - rewrite B4. destruct o; try reflexivity. destruct (N3 on eq_refl).
    - rewrite B2. destruct o; try exact (i_in _ _ _ I). congruence.
    - exact B5.
    - rewrite B3. destruct o; try exact (i_man _ _ _ I). destruct (N2 n eq_refl).
    - exact SQ. }
  assert (SM : forall o', (o' = Poll \/ (exists u, o' = Seat u) \/ o' = On \/ o' = Instant \/ exists n, o' = Set_ n) -> asks k (held p) o' = None -> inv k s (note k p (o', E))).
  { intros o' HO' A. split; cbn [note got held lamp asked since fst snd]; rewrite ?A; try (destruct HO' as [->|[(u & ->)|[->|[->|(n & ->)]]]]; apply I). }
  destruct o as [| | |n|u|n|n|b|]; unfold step; cbn [fst snd]; cbv zeta; fold k.
  - unfold evaluate_io. fold k. rewrite HO, HI, is_gea_gea. destruct (gea k); (eexists; split; [reflexivity|]; split; cbn [note got held lamp asked since fst snd asks]; try apply I; reflexivity).
  - rewrite (i_man _ _ _ I). destruct (held p) eqn:M.
    + exists s. split; [reflexivity|]. apply SM; [auto|cbn; rewrite ?M; reflexivity].
    + apply (OB Open); try discriminate; cbn; try rewrite M; auto.
  - rewrite (i_man _ _ _ I). destruct (held p) eqn:M.
    + exists s. split; [reflexivity|]. apply SM; [auto|cbn; rewrite ?M; reflexivity].
    + apply (OB Shut); try discriminate; cbn; try rewrite M; auto.
  - rewrite (i_man _ _ _ I). destruct (held p) eqn:M.
    + exists s. split; [reflexivity|]. apply SM; [eauto 6|cbn; rewrite ?M; reflexivity].
    + rewrite set_meaning. apply (OB (meaning k n)); try discriminate; [cbn; rewrite ?M; reflexivity|apply meaning_seat].
  - destruct (two_seats k) eqn:S2.
    + replace (open_seat k u (now E) s) with (direct_set_state k (now E) (wnum (if u then Upper else Lower)) s) by (unfold open_seat; destruct k; try discriminate S2; destruct u; reflexivity).
      apply (OB (if u then Upper else Lower)); try discriminate. cbn. rewrite S2. reflexivity.
    + exists s. split; [unfold open_seat; destruct k; try discriminate S2; reflexivity|]. apply SM; [eauto|cbn; rewrite S2; reflexivity].
  - rewrite set_meaning. apply (OB (meaning k n)); try discriminate; [reflexivity|apply meaning_seat].
  - eexists. split; [reflexivity|]. assert (MM : man (if n =? 0 then wman false s else if n =? 1 then wman true s else s) = if n =? 0 then false else if n =? 1 then true else held p).
    { destruct (n =? 0); [reflexivity|]. destruct (n =? 1); [reflexivity|]. exact (i_man _ _ _ I). }
    split; cbn [note got held lamp asked since fst snd asks]; [| | | |exact MM|apply I]; destruct (n =? 0); [|destruct (n =? 1)| |destruct (n =? 1)| |destruct (n =? 1)| |destruct (n =? 1)]; apply I.
  - unfold set_blink. rewrite is_gea_gea. destruct (gea k) eqn:G.
    + exists s. split; [reflexivity|]. pose proof (i_out _ _ _ I) as O.
      split; cbn [note got held lamp asked since fst snd asks]; try apply I. rewrite O. destruct k; try discriminate G; reflexivity.
    + unfold rd_out. rewrite (i_pt _ _ _ I). unfold wr_out. cbn [wblink pt]. rewrite (i_pt _ _ _ I). eexists. split; [reflexivity|].
      pose proof (i_seat _ _ _ I) as SE.
      split; cbn [note got held lamp asked since fst snd asks pt out ib t_sw man]; try apply I; try reflexivity. rewrite (i_out _ _ _ I).
      destruct k; try discriminate G; try (destruct (SE eq_refl) as [-> | ->]); try (destruct (asked p)); destruct b, (lamp p); reflexivity.
  - rewrite (reported w k E s p I T). exists s. split; [reflexivity|]. apply SM; [auto|reflexivity].
Qed.

Lemma note_since k p x t : 0 <= since p <= t -> t <= now (snd x) -> 0 <= since (note k p x) <= now (snd x).
Proof. intros A B. cbn [note since]. destruct (asks k (held p) (fst x)) as [q|]; [destruct (restarts k p q)|]; lia. Qed.
Lemma run_inv w c l : ao c = true -> ai c = true -> forall t s p, timely w t l -> inv (kind c) s p -> 0 <= since p <= t ->
  exists s', run w c s l = Some s' /\ inv (kind c) s' (fold_left (note (kind c)) l p).
Proof.
  intros HO HI. induction l as [|x l IH]; intros t s p T I S; [exists s; split; [reflexivity|exact I]|].
  destruct T as (T1 & T2). destruct (step_inv w c s p x HO HI I ltac:(lia)) as (s1 & E1 & I1). cbn [run fold_left]. rewrite E1.
  apply (IH (now (snd x)) s1 _ T2 I1). apply (note_since _ _ _ t); lia.
Qed.
Lemma first_inv w c b0 t0 E : ao c = true -> ai c = true ->
  exists s, step w c (start (kind c) b0 t0) (Eval, E) = Some s /\ inv (kind c) s (first (data E) t0).
Proof.
  intros HO HI. unfold step, evaluate_io. cbn [fst snd]. rewrite HO, HI, is_gea_gea.
  destruct (gea (kind c)) eqn:G; (eexists; split; [reflexivity|]; split; cbn; try reflexivity; auto); destruct (kind c); reflexivity || discriminate G.
Qed.
Lemma history w c b0 t0 E0 l : ao c = true -> ai c = true -> 0 <= t0 -> timely w t0 l ->
  exists s, run w c (start (kind c) b0 t0) ((Eval, E0) :: l) = Some s /\ inv (kind c) s (past_of (kind c) (data E0) t0 l).
Proof.
  intros HO HI H0 T. cbn [run]. destruct (first_inv w c b0 t0 E0 HO HI) as (s & E & I). rewrite E.
  apply (run_inv w c l HO HI t0 s _ T I). cbn. lia.
Qed.
Lemma since_before w k l : forall t p u, timely w t l -> 0 <= since p <= t -> t <= u -> (forall x, In x l -> now (snd x) <= u) -> 0 <= since (fold_left (note k) l p) <= u.
Proof.
  induction l as [|x l IH]; intros t p u T S U L; cbn [fold_left]; [lia|]. destruct T as (T1 & T2).
  apply (IH (now (snd x))); [exact T2|apply (note_since _ _ _ t); lia|apply L; left; reflexivity|intros y Hy; apply L; right; exact Hy].
Qed.
