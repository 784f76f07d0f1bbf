(** Properties C27-C30, C53-C55: exchange with the I/O couplers. *)
From Coq Require Import ZArith List Bool Lia.
From Verif Require Import Base TimeModel TimeProofs ModbusModel ModbusSpec ModbusProofs McSpec
  IoModel IoSpec IoProofs IoProofs2 IoProofs3.
Import ListNotations.
Open Scope Z_scope.

Definition node0 : node :=
  {| dO := fun _ => 0; dO_ := fun _ => 0; dO_cnt := 0;
     aO := fun _ => 0; aO_ := fun _ => 0; aO_cnt := 0; aO_size := 0; aO_types := fun _ => 0;
     dI := fun _ => 0; dI_cnt := 0; aI := fun _ => 0; aI_cnt := 0; aI_size := 0;
     aI_types := fun _ => 0 |}.

(** * C27: discrete outputs and inputs of WAGO couplers *)

(** The request is the Modbus "write coils" frame for all outputs. *)
Theorem C27_request : forall nd m, 0 < dO_cnt nd < 256 ->
  let '(m', len) := wago_do_request nd m in
  bytes_at m' 0 len =
    frame ([15] ++ be16 0 ++ be16 (dO_cnt nd) ++ [ceil8 (dO_cnt nd)]
           ++ bytes_at m' 13 (ceil8 (dO_cnt nd))) /\
  forall i, 0 <= i < 8 * ceil8 (dO_cnt nd) ->
    bit_at m' 13 i = if i <? dO_cnt nd then Z.odd (dO_ nd i) else false.
Proof.
  intros nd m H. pose proof (wago_do_frame nd m ltac:(lia)) as F.
  pose proof (wago_do_bits nd m) as B.
  destruct (wago_do_request nd m) as [m' len]. rewrite Z.mod_small in F by lia. split; auto.
  intros i Hi. apply B; lia.
Qed.
Print Assumptions C27_request.

(** The bits are right for every number of outputs, and up to 1992 outputs the
    request stays inside the 262-byte buffer. *)
Theorem C27_bits : forall nd m, 0 < dO_cnt nd ->
  let m' := fst (wago_do_request nd m) in
  (forall i, 0 <= i < 8 * ceil8 (dO_cnt nd) ->
     bit_at m' 13 i = if i <? dO_cnt nd then Z.odd (dO_ nd i) else false) /\
  (dO_cnt nd <= 1992 -> same_outside m m' 0 io_buff_size).
Proof.
  intros nd m H. cbv zeta. split; [intros i Hi; apply wago_do_bits; lia|].
  intros HB x Hx. rewrite wago_do_mem by lia. pose proof (ceil8_bounds (dO_cnt nd) ltac:(lia)).
  unfold io_buff_size in Hx.
  replace ((13 <=? x) && (x <? 13 + ceil8 (dO_cnt nd))) with false by lia.
  apply store_frame. change (Z.of_nat (length (wago_do_header (dO_cnt nd)))) with 13. lia.
Qed.
Print Assumptions C27_bits.

Lemma wago_inputs : forall nd m reply, 0 < dI_cnt nd ->
  match reply with
  | None => dI (fst (wago_read_di nd m None)) = dI nd
  | Some r =>
      (9 + ceil8 (dI_cnt nd) <= Z.of_nat (length r) -> nth 7 r 0 = 2 -> nth 8 r 0 = ceil8 (dI_cnt nd) ->
       forall i, dI (fst (wago_read_di nd m (Some r))) i =
         if (0 <=? i) && (i <? dI_cnt nd)
         then Z.b2z (Z.testbit (nth (Z.to_nat (9 + i / 8)) r 0) (i mod 8)) else dI nd i) /\
      ((9 <= length r)%nat -> nth 7 r 0 <> 2 \/ nth 8 r 0 <> ceil8 (dI_cnt nd) ->
       dI (fst (wago_read_di nd m (Some r))) = dI nd)
  end.
Proof.
  intros nd m reply Hc. destruct reply as [r|]; [|reflexivity].
  unfold wago_read_di, wago_di_request. rewrite bytes_for_ceil by lia. set (m1 := store _ m 0).
  pose proof (ceil8_bounds (dI_cnt nd) ltac:(lia)) as HB.
  destruct (receive (ceil8 (dI_cnt nd) + 9) (Some r) m1) as [m2|] eqn:EM; [|discriminate].
  assert (RD : forall x, 0 <= x < ceil8 (dI_cnt nd) + 9 -> x < Z.of_nat (length r) -> m2 x = nth (Z.to_nat x) r 0).
  { intros x Hx HL. rewrite (receive_read _ _ _ x _ EM) by lia.
    replace ((x <? ceil8 (dI_cnt nd) + 9) && (x <? Z.of_nat (length r))) with true by lia. reflexivity. }
  split.
  - intros HL H7 H8 i. rewrite (RD 7), (RD 8) by lia.
    change (Z.to_nat 7) with 7%nat. change (Z.to_nat 8) with 8%nat. rewrite H7, H8, !Z.eqb_refl. cbn [andb fst].
    unfold with_dI. cbn [dI]. pose proof (unpack_all (dI_cnt nd) m2 (dI nd) i ltac:(lia)) as U. rewrite bytes_for_ceil in U by lia. rewrite U.
    destruct ((0 <=? i) && (i <? dI_cnt nd)) eqn:B; [|reflexivity]. unfold bit_at.
    pose proof (Z.div_mod i 8 ltac:(lia)). pose proof (Z.mod_pos_bound i 8 ltac:(lia)).
    rewrite RD by lia. reflexivity.
  - intros HL HR. rewrite (RD 7), (RD 8) by lia.
    change (Z.to_nat 7) with 7%nat. change (Z.to_nat 8) with 8%nat.
    replace ((nth 7 r 0 =? 2) && (nth 8 r 0 =? ceil8 (dI_cnt nd))) with false by lia. reflexivity.
Qed.

(** Outputs wired back to inputs: what was commanded is what is read. *)
Theorem C27_loop_back : forall nd m m1 hdr,
  0 < dO_cnt nd < 256 -> dI_cnt nd = dO_cnt nd ->
  length hdr = 7%nat ->
  let n := ceil8 (dO_cnt nd) in
  let echo := hdr ++ [2; n] ++ bytes_at (fst (wago_do_request nd m)) 13 n in
  forall i, dI (fst (wago_read_di nd m1 (Some echo))) i =
    if (0 <=? i) && (i <? dO_cnt nd) then Z.b2z (Z.odd (dO_ nd i)) else dI nd i.
Proof.
  intros nd m m1 hdr Hc E Hh n echo i. pose proof (ceil8_bounds (dO_cnt nd) ltac:(lia)) as HC. fold n in HC.
  assert (LE : Z.of_nat (length echo) = 9 + n).
  { unfold echo. rewrite !app_length, Hh. cbn [length].
    pose proof (bytes_at_length (fst (wago_do_request nd m)) 13 n). lia. }
  destruct (wago_inputs nd m1 (Some echo) ltac:(lia)) as [W _]. rewrite E in W. fold n in W.
  rewrite W; [|lia|unfold echo; rewrite app_nth2 by lia; rewrite Hh; reflexivity..].
  destruct ((0 <=? i) && (i <? dO_cnt nd)) eqn:B; [|reflexivity]. f_equal.
  pose proof (wago_do_bits nd m i ltac:(lia) ltac:(fold n; lia)) as V.
  replace (i <? dO_cnt nd) with true in V by lia. rewrite <- V. unfold bit_at.
  pose proof (Z.div_mod i 8 ltac:(lia)). pose proof (Z.mod_pos_bound i 8 ltac:(lia)).
  unfold echo. rewrite app_nth2 by lia. rewrite Hh.
  replace (Z.to_nat (9 + i / 8) - 7)%nat with (2 + Z.to_nat (i / 8))%nat by lia.
  cbn [app nth Nat.add]. rewrite bytes_at_nth by lia. reflexivity.
Qed.
Print Assumptions C27_loop_back.

(** The announced number of outputs is the true one modulo 256. *)
Theorem C27_announced_count_refuted :
  ~ forall nd m, 0 < dO_cnt nd <= 1968 ->
      register (fst (wago_do_request nd m)) 10 0 = dO_cnt nd.
Proof.
  intros H.
  specialize (H {| dO := fun _ => 0; dO_ := fun _ => 0; dO_cnt := 300;
     aO := fun _ => 0; aO_ := fun _ => 0; aO_cnt := 0; aO_size := 0; aO_types := fun _ => 0;
     dI := fun _ => 0; dI_cnt := 0; aI := fun _ => 0; aI_cnt := 0; aI_size := 0;
     aI_types := fun _ => 0 |} (fun _ => 0) ltac:(cbn; lia)).
  vm_compute in H. discriminate.
Qed.
Print Assumptions C27_announced_count_refuted.

(** A coupler with 256 or more inputs is asked for their number modulo 256;
    whatever a coupler answers to that question, the inputs never change. *)
Theorem C27_many_inputs_never_read : forall nd m data,
  256 <= dI_cnt nd < 2 ^ 31 ->
  register (fst (wago_di_request nd m)) 10 0 = dI_cnt nd mod 256 /\
  dI (fst (wago_read_di nd m
       (Some (answer 2 (ceil8 (dI_cnt nd mod 256)) data)))) = dI nd.
Proof.
  intros nd m data H. split.
  - unfold wago_di_request. cbn [fst]. unfold register, wago_di_header. rewrite shr_u8, land_u8.
    cbn [store]. puts. reflexivity.
  - unfold wago_read_di, wago_di_request. rewrite bytes_for_ceil by lia. set (m2 := store _ m 0).
    set (r := answer 2 (ceil8 (dI_cnt nd mod 256)) data).
    destruct (receive (ceil8 (dI_cnt nd) + 9) (Some r) m2) as [m3|] eqn:EM; [|discriminate].
    pose proof (ceil8_bounds (dI_cnt nd) ltac:(lia)) as B1.
    pose proof (Z.mod_pos_bound (dI_cnt nd) 256 ltac:(lia)) as B2.
    pose proof (ceil8_bounds (dI_cnt nd mod 256) ltac:(lia)) as B3.
    assert (N8 : m3 8 = ceil8 (dI_cnt nd mod 256)).
    { rewrite (receive_read _ _ _ 8 _ EM) by lia.
      replace ((8 <? ceil8 (dI_cnt nd) + 9) && (8 <? Z.of_nat (length r))) with true.
      - reflexivity.
      - unfold r, answer. rewrite app_length. cbn [length]. lia. }
    assert (NE : (m3 8 =? ceil8 (dI_cnt nd)) = false).
    { rewrite N8. apply Z.eqb_neq. pose proof (Z.div_mod (dI_cnt nd) 256 ltac:(lia)) as D.
      assert (1 <= dI_cnt nd / 256) by (apply Z.div_le_lower_bound; lia). nia. }
    rewrite NE, andb_false_r. reflexivity.
Qed.
Print Assumptions C27_many_inputs_never_read.

Example C27_example :
  let nd := {| dO := fun _ => 0; dO_ := fun i => if i =? 9 then 1 else if i =? 0 then 255 else 0; dO_cnt := 10;
     aO := fun _ => 0; aO_ := fun _ => 0; aO_cnt := 0; aO_size := 0; aO_types := fun _ => 0;
     dI := fun _ => 0; dI_cnt := 0; aI := fun _ => 0; aI_cnt := 0; aI_size := 0;
     aI_types := fun _ => 0 |} in
  bytes_at (fst (wago_do_request nd (fun _ => 7))) 0 15 =
  [115; 115; 0; 0; 0; 9; 0; 15; 0; 0; 0; 10; 2; 1; 2].
Proof. vm_compute. reflexivity. Qed.

(** * C28: register blocks of Phoenix couplers *)

Lemma covers_image nd : forall blocks a b, covers a b blocks ->
  concat (map (fun x => output_image nd (fst x) (snd x)) blocks) = output_image nd a (b - a) /\ (a <= b)%nat.
Proof.
  induction blocks as [|[s q] bl IH]; intros a b H; cbn [covers] in H.
  - subst b. rewrite Nat.sub_diag. split; [reflexivity|lia].
  - destruct H as (-> & Hq & H). destruct (IH _ _ H) as [I1 I2]. split; [|lia].
    cbn [map concat fst snd]. rewrite I1. replace (b - a)%nat with (q + (b - (a + q)))%nat by lia.
    unfold output_image. rewrite seq_app, flat_map_app. reflexivity.
Qed.

(** Writing sends, in "write registers" frames of at most 123 registers each
    starting at address 9000, exactly the whole output image. *)
Theorem C28_write : forall nd m replies, (forall s, not_cut 8 (replies s)) ->
  0 < aO_cnt nd <= 2016 ->
  let '(rs, nd', m') := ph_write replies nd m in
  exists blocks, covers 0 (Z.to_nat (aO_cnt nd)) blocks /\
    map (fun r : request => bytes_at (fst r) 0 (snd r)) rs =
      map (fun b => block_frame nd (fst b) (snd b)) blocks /\
    concat (map (fun b => output_image nd (fst b) (snd b)) blocks) =
      output_image nd 0 (Z.to_nat (aO_cnt nd)).
Proof.
  intros nd m replies Hcut Hc. unfold ph_write. replace (0 <? aO_cnt nd) with true by lia.
  pose proof (write_loop_spec replies (Z.to_nat (aO_cnt nd)) Hcut ltac:(lia) (Z.to_nat (aO_cnt nd)) 0%nat 0 0 nd m
    ltac:(lia) ltac:(lia) ltac:(lia) ltac:(split; reflexivity)) as G.
  change (Z.of_nat 0) with 0 in G. change (16 * 0) with 0 in G.
  destruct (ph_write_loop _ _ _ _ _ _ _ _ _) as [[rs nd'] m'].
  destruct G as (bl & G1 & G2 & _). exists bl. split; [exact G1|]. split; [exact G2|].
  destruct (covers_image nd _ _ _ G1) as [I _]. rewrite Nat.sub_0_r in I. exact I.
Qed.
Print Assumptions C28_write.

(** Reading: registers are fetched block by block from address 8000 on; the
    inputs up to the first block that is not answered show the coupler's image,
    the others keep their old values. *)
Theorem C28_read : forall img nd m replies,
  0 < aI_cnt nd <= 2016 -> from_coupler img (Z.to_nat (aI_cnt nd)) replies ->
  let '(rs, nd', m') := ph_read replies nd m in
  exists blocks fresh last, covers 0 last blocks /\ (fresh <= last <= Z.to_nat (aI_cnt nd))%nat /\
    map (fun r : request => bytes_at (fst r) 0 (snd r)) rs =
      map (fun b => read_frame (fst b) (snd b)) blocks /\
    (fresh = Z.to_nat (aI_cnt nd) \/ (fresh < last)%nat /\
       forall r, replies (Z.of_nat fresh) = Some r -> refusal (plan (Z.to_nat (aI_cnt nd)) fresh) r) /\
    (forall r, aI nd' r = if (0 <=? r) && (r <? Z.of_nat fresh)
        then input_value (aI_types nd r) (img (2 * r)) (img (2 * r + 1)) else aI nd r) /\
    (forall i, dI nd' i = if (0 <=? i) && (i <? 16 * Z.of_nat fresh)
        then Z.b2z (bit_at img 0 i) else dI nd i).
Proof.
  intros img nd m replies Hc Hr. unfold ph_read. replace (0 <? aI_cnt nd) with true by lia.
  pose proof (read_loop_spec img replies (Z.to_nat (aI_cnt nd)) ltac:(lia) Hr (Z.to_nat (aI_cnt nd)) 0%nat nd m
    ltac:(lia) ltac:(lia) ltac:(lia)) as G.
  change (Z.of_nat 0) with 0 in G. change (16 * 0) with 0 in G.
  destruct (ph_read_loop _ _ _ _ _ _ _ _) as [[rs nd'] m'].
  destruct G as (bl & fr & la & G1 & G2 & G3 & G4 & G5 & G6 & G7 & _).
  exists bl, fr, la. split; [exact G1|]. split; [lia|]. auto.
Qed.
Print Assumptions C28_read.

(** If every block is answered, all inputs are those of the coupler. *)
Theorem C28_read_all : forall img nd m replies,
  0 < aI_cnt nd <= 2016 ->
  (forall s, (s < Z.to_nat (aI_cnt nd))%nat ->
     exists r, replies (Z.of_nat s) = Some r /\ complete img s (plan (Z.to_nat (aI_cnt nd)) s) r) ->
  let '(rs, nd', m') := ph_read replies nd m in
  (forall r, 0 <= r < aI_cnt nd ->
     aI nd' r = input_value (aI_types nd r) (img (2 * r)) (img (2 * r + 1))) /\
  (forall i, 0 <= i < 16 * aI_cnt nd -> dI nd' i = Z.b2z (bit_at img 0 i)).
Proof.
  intros img nd m replies Hc Hr.
  assert (HF : from_coupler img (Z.to_nat (aI_cnt nd)) replies).
  { intros s r Hs E. destruct (Hr s Hs) as (r' & E' & C). left. congruence. }
  pose proof (C28_read img nd m replies Hc HF) as G. destruct (ph_read replies nd m) as [[rs nd'] m'].
  destruct G as (bl & fr & la & G1 & G2 & _ & G5 & G6 & G7).
  assert (fr = Z.to_nat (aI_cnt nd)) as ->.
  { destruct G5 as [->|[Hlt HR]]; [reflexivity|]. exfalso.
    destruct (Hr fr ltac:(lia)) as (r & E & C). specialize (HR r E).
    destruct (complete_facts _ _ _ _ C) as (_ & C7 & C8). destruct HR as [_ [HR|HR]]; congruence. }
  split.
  - intros r Hb. rewrite G6. replace ((0 <=? r) && (r <? Z.of_nat (Z.to_nat (aI_cnt nd)))) with true by lia. auto.
  - intros i Hb. rewrite G7. replace ((0 <=? i) && (i <? 16 * Z.of_nat (Z.to_nat (aI_cnt nd)))) with true by lia. auto.
Qed.
Print Assumptions C28_read_all.

Definition node28 : node :=
  {| dO := fun _ => 0; dO_ := fun i => if i =? 125 * 16 + 9 then 1 else 0; dO_cnt := 2080;
     aO := fun _ => 0; aO_ := fun r => 258 * r; aO_cnt := 130; aO_size := 260;
     aO_types := fun r => if r <? 10 then 2688527 else if r <? 80 then 1027843 else if r <? 120 then 2688093 else 1;
     dI := fun _ => 0; dI_cnt := 0; aI := fun _ => 0; aI_cnt := 0; aI_size := 0;
     aI_types := fun _ => 0 |}.
Example C28_example :
  let '(rs, nd', _) := ph_write (fun s => if s =? 0 then None else Some [0;0;0;0;0;6;0;16;0;0;0;0]) node28 (fun _ => 0) in
  map snd rs = [259; 27] /\
  bytes_at (fst (nth 1 rs ((fun _ => 0), 0))) 0 27 =
    [115; 115; 0; 0; 0; 21; 0; 16; 35; 163; 0; 7; 14; 0; 0; 0; 0; 0; 2; 0; 0; 0; 0; 0; 0; 0; 0] /\
  aO nd' 5 = 0 /\ aO nd' 125 = 258 * 125 /\ dO nd' (125 * 16 + 9) = 1.
Proof. vm_compute. repeat split; reflexivity. Qed.

(** * C29: back-off *)

Theorem C29_delay : forall w t0 es,
  delay_time (run_link w (new_link t0) es) = backoff (failures (attempts w (new_link t0) es)).
Proof. intros w t0 es. apply delay_acc; [reflexivity|discriminate]. Qed.
Print Assumptions C29_delay.

(** A connection is attempted exactly when the link is down and the delay has
    passed since the last failed attempt (or since start-up). *)
Theorem C29_attempts : forall w t0 es e,
  let l := run_link w (new_link t0) es in
  tried (e_communicate w l e) = true <->
  st_ok l = false /\
  backoff (failures (attempts w (new_link t0) es)) <=
    get_delta_millisec w (now e) (last_failure w (new_link t0) t0 es).
Proof.
  intros w t0 es e l. pose proof (e_link w l e) as (_ & _ & _ & E4 & _). rewrite E4.
  unfold l. rewrite C29_delay, last_failure_ok. change (last_init_time (new_link t0)) with t0.
  destruct (st_ok (run_link w (new_link t0) es)); cbn [negb andb]; [split; [discriminate|intros [? _]; discriminate]|].
  split; [intros H; split; [reflexivity|lia]|intros [_ H]; lia].
Qed.
Print Assumptions C29_attempts.

Theorem C29_bounds : forall w t0 es,
  500 <= delay_time (run_link w (new_link t0) es) <= 64000.
Proof.
  intros w t0 es. rewrite C29_delay. generalize (failures (attempts w (new_link t0) es)) as k. intros k.
  unfold backoff. assert (1 <= 2 ^ Z.of_nat (Nat.min k 7)) by (apply (Z.pow_le_mono_r 2 0); lia).
  assert (2 ^ Z.of_nat (Nat.min k 7) <= 2 ^ 7) by (apply Z.pow_le_mono_r; lia). change (2 ^ 7) with 128 in *. lia.
Qed.
Print Assumptions C29_bounds.

Definition failing (t : Z) : io_call :=
  {| now := t; now_init := t; now_end := t; connected := false; sent_ok := false; got_reply := false |}.

Theorem C29_declared_maximum_refuted :
  ~ forall w t0 es, delay_time (run_link w (new_link t0) es) <= C_MAX_DELAY.
Proof.
  intros H. specialize (H 64 0 (map failing [500; 1500; 3500; 7500; 15500; 31500; 63500])).
  vm_compute in H. apply H. reflexivity.
Qed.
Print Assumptions C29_declared_maximum_refuted.

Example C29_example :
  map (fun n => delay_time (run_link 64 (new_link 0) (firstn n (map failing [500; 1000; 1500; 3500; 7500]))))
      [0; 1; 2; 3; 4; 5]%nat = [500; 1000; 1000; 2000; 4000; 8000].
Proof. vm_compute. reflexivity. Qed.

(** * C30: the no-connection error *)

(** After every exchange the error is up exactly if, when the exchange began,
    the last answer (or the start) was more than 6000 ms ago; around a wrap of
    the clock one millisecond is added. *)
Theorem C30_exact : forall w t0 cs c, 2 <= w ->
  let l0 := new_link (clock w t0) in
  let l := run_link w l0 (map (reading w) cs) in
  let tp := last_answer w l0 t0 cs in
  0 <= tp <= t_at c -> t_at c - tp < 2 ^ w - 2 ->
  is_set_err (link' (e_communicate w l (reading w c))) =
  (6000 <? t_at c - tp + (if clock w (t_at c) <? clock w tp then 1 else 0)).
Proof.
  intros w t0 cs c Hw l0 l tp H1 H2.
  pose proof (e_link w l (reading w c)) as (E1 & _). rewrite E1. unfold C_MAX_WAIT_TIME.
  unfold l. rewrite (last_answer_ok w cs l0 t0) by reflexivity. fold tp.
  cbn [reading now]. rewrite delta_true by lia. reflexivity.
Qed.
Print Assumptions C30_exact.

(** The error is raised once and withdrawn once per silence. *)
Theorem C30_reported_once : forall w t0 es, alternating false (all_reports w (new_link t0) es).
Proof. intros w t0 es. apply (reports_alternate w es (new_link t0)). Qed.
Print Assumptions C30_reported_once.

(** An answer is followed by withdrawal at the next exchange within 6 s. *)
Theorem C30_withdrawn : forall w l c c', 2 <= w ->
  let x := e_communicate w l (reading w c) in
  code x = 0 -> 0 <= t_end c <= t_at c' -> t_at c' - t_end c < 6000 -> 6002 < 2 ^ w ->
  is_set_err (link' (e_communicate w (link' x) (reading w c'))) = false.
Proof.
  intros w l c c' Hw x Hx H1 H2 H3.
  pose proof (e_link w (link' x) (reading w c')) as (E1 & _). rewrite E1.
  pose proof (e_link w l (reading w c)) as (_ & E2 & _). fold x in E2. rewrite E2, Hx. cbn [Z.eqb].
  cbn [reading now now_end]. rewrite delta_true by lia. unfold C_MAX_WAIT_TIME.
  destruct (clock w (t_at c') <? clock w (t_end c)); lia.
Qed.
Print Assumptions C30_withdrawn.

(** With a 32-bit clock a silence of 2^32 ms is taken for none. *)
Theorem C30_any_silence_refuted :
  ~ forall t0 cs c,
      let l0 := new_link (clock 32 t0) in
      let tp := last_answer 32 l0 t0 cs in
      0 <= tp <= t_at c -> t_at c - tp > 6000 ->
      is_set_err (link' (e_communicate 32 (run_link 32 l0 (map (reading 32) cs)) (reading 32 c))) = true.
Proof.
  intros H.
  specialize (H 0 [] {| t_at := 2 ^ 32 + 5; t_init := 2 ^ 32 + 5; t_end := 2 ^ 32 + 5;
    t_connected := false; t_sent := false; t_reply := false |}).
  vm_compute in H. assert (E : false = true) by (apply H; [split; congruence|reflexivity]). discriminate.
Qed.
Print Assumptions C30_any_silence_refuted.

Example C30_example :
  let c t ok := {| t_at := t; t_init := t; t_end := t; t_connected := ok; t_sent := ok; t_reply := ok |} in
  all_reports 32 (new_link 0) (map (reading 32) [c 600 true; c 6000 false; c 6601 false; c 9000 true; c 9100 true; c 9200 false; c 15101 false])
  = [Raise; Withdraw; Raise].
Proof. vm_compute. reflexivity. Qed.

(** * C53: outputs are marked as written only when the coupler confirmed them *)

Theorem C53_phoenix : forall nd m replies, (forall s, not_cut 8 (replies s)) ->
  0 < aO_cnt nd <= 2016 ->
  let '(rs, nd', m') := ph_write replies nd m in
  exists blocks, covers 0 (Z.to_nat (aO_cnt nd)) blocks /\
    (forall r, aO nd' r = if confirmed_by replies blocks r then aO_ nd r else aO nd r) /\
    (forall i, dO nd' i = if confirmed_by replies blocks (i / 16) then dO_ nd i else dO nd i) /\
    dO_ nd' = dO_ nd /\ aO_ nd' = aO_ nd /\ dI nd' = dI nd /\ aI nd' = aI nd.
Proof.
  intros nd m replies Hcut Hc. unfold ph_write. replace (0 <? aO_cnt nd) with true by lia.
  pose proof (write_loop_spec replies (Z.to_nat (aO_cnt nd)) Hcut ltac:(lia) (Z.to_nat (aO_cnt nd)) 0%nat 0 0 nd m
    ltac:(lia) ltac:(lia) ltac:(lia) ltac:(split; reflexivity)) as G.
  change (Z.of_nat 0) with 0 in G. change (16 * 0) with 0 in G.
  destruct (ph_write_loop _ _ _ _ _ _ _ _ _) as [[rs nd'] m'].
  destruct G as (bl & G1 & _ & (C1 & C2 & _ & _ & C5 & C6 & _) & G4 & G5). exists bl. auto 10.
Qed.
Print Assumptions C53_phoenix.

Theorem C53_wago : forall nd m reply, 0 < dO_cnt nd -> not_cut 8 reply ->
  (forall i, dO (fst (wago_write_do nd m reply)) i =
     if match reply with Some l => nth 7 l 0 =? 15 | None => false end && (0 <=? i) && (i <? dO_cnt nd)
     then dO_ nd i else dO nd i) /\
  (forall i, aO (fst (wago_write_ao nd m reply)) i =
     if match reply with Some l => nth 7 l 0 =? 16 | None => false end && (0 <=? i) && (i <? 2016)
     then aO_ nd i else aO nd i).
Proof.
  intros nd m reply Hc Hcut. split; intros i.
  - unfold wago_write_do. destruct (wago_do_request nd m) as [m1 len].
    destruct reply as [l|]; [|reflexivity]. cbn [not_cut] in Hcut.
    destruct (receive 12 (Some l) m1) as [m2|] eqn:EM; [|discriminate].
    rewrite (receive_read _ _ _ 7 _ EM) by lia.
    replace ((7 <? 12) && (7 <? Z.of_nat (length l))) with true by lia. change (Z.to_nat 7) with 7%nat.
    destruct (nth 7 l 0 =? 15); reflexivity.
  - unfold wago_write_ao. destruct (wago_ao_request nd m) as [m1 len].
    destruct reply as [l|]; [|reflexivity]. cbn [not_cut] in Hcut.
    destruct (receive 12 (Some l) m1) as [m2|] eqn:EM; [|discriminate].
    rewrite (receive_read _ _ _ 7 _ EM) by lia.
    replace ((7 <? 12) && (7 <? Z.of_nat (length l))) with true by lia. change (Z.to_nat 7) with 7%nat.
    destruct (nth 7 l 0 =? 16); reflexivity.
Qed.
Print Assumptions C53_wago.

(** An answer cut off before its function code counts as a confirmation: the
    buffer still holds the request's own function code. *)
Theorem C53_cut_answers_refuted :
  ~ forall nd m r, 0 < dO_cnt nd -> (0 < length r)%nat ->
      (forall i, 0 <= i < dO_cnt nd -> dO (fst (wago_write_do nd m (Some r))) i = dO_ nd i) ->
      nth 7 r 0 = 15.
Proof.
  intros H. specialize (H
    {| dO := fun _ => 0; dO_ := fun _ => 1; dO_cnt := 3;
     aO := fun _ => 0; aO_ := fun _ => 0; aO_cnt := 0; aO_size := 0; aO_types := fun _ => 0;
     dI := fun _ => 0; dI_cnt := 0; aI := fun _ => 0; aI_cnt := 0; aI_size := 0;
     aI_types := fun _ => 0 |} (fun _ => 0) [115]).
  assert (E : nth 7 [115] 0 = 15).
  { apply H; [cbn; lia|cbn; lia|]. intros i Hi. cbn [dO_cnt] in Hi.
    assert (i = 0 \/ i = 1 \/ i = 2) as [-> | [-> | ->]] by lia; vm_compute; reflexivity. }
  discriminate.
Qed.
Print Assumptions C53_cut_answers_refuted.

Example C53_example :
  let nd := {| dO := fun _ => 0; dO_ := fun _ => 1; dO_cnt := 3;
     aO := fun _ => 0; aO_ := fun _ => 0; aO_cnt := 0; aO_size := 0; aO_types := fun _ => 0;
     dI := fun _ => 0; dI_cnt := 0; aI := fun _ => 0; aI_cnt := 0; aI_size := 0;
     aI_types := fun _ => 0 |} in
  let after r := map (dO (fst (wago_write_do nd (fun _ => 0) r))) [0; 1; 2; 3] in
  (after (Some [115;115;0;0;0;6;0;15;0;0;0;3]), after (Some [115;115;0;0;0;3;0;143;2]), after None) =
  ([1; 1; 1; 0], [0; 0; 0; 0], [0; 0; 0; 0]).
Proof. vm_compute. reflexivity. Qed.

(** * C54: inputs shown are those the coupler sent *)

Theorem C54_wago_inputs : forall nd m reply, 0 < dI_cnt nd ->
  match reply with
  | None => dI (fst (wago_read_di nd m None)) = dI nd
  | Some r =>
      (9 + ceil8 (dI_cnt nd) <= Z.of_nat (length r) -> nth 7 r 0 = 2 -> nth 8 r 0 = ceil8 (dI_cnt nd) ->
       forall i, dI (fst (wago_read_di nd m (Some r))) i =
         if (0 <=? i) && (i <? dI_cnt nd)
         then Z.b2z (Z.testbit (nth (Z.to_nat (9 + i / 8)) r 0) (i mod 8)) else dI nd i) /\
      ((9 <= length r)%nat -> nth 7 r 0 <> 2 \/ nth 8 r 0 <> ceil8 (dI_cnt nd) ->
       dI (fst (wago_read_di nd m (Some r))) = dI nd)
  end.
Proof.
  exact wago_inputs.
Qed.
Print Assumptions C54_wago_inputs.

(** Analog inputs of WAGO couplers, for answers with the announced size. *)
Theorem C54_wago_analog : forall nd m img, 0 < aI_cnt nd ->
  wago_offset (aI_types nd) (Z.to_nat (aI_cnt nd)) = aI_size nd -> aI_size nd < 256 ->
  let r := answer 4 (aI_size nd) (bytes_at img 0 (aI_size nd)) in
  (forall k, aI (fst (wago_read_ai nd m (Some r))) k =
     if (0 <=? k) && (k <? aI_cnt nd) then wago_input (aI_types nd) img (Z.to_nat k) else aI nd k) /\
  register (fst (wago_ai_request nd m)) 10 0 = aI_size nd / 2.
Proof.
  intros nd m img Hc Hs Hlt r.
  assert (Hpos : forall k, 0 <= wago_offset (aI_types nd) k).
  { induction k as [|k IH]; cbn [wago_offset]; [lia|]. destruct (_ =? 638); lia. }
  specialize (Hpos (Z.to_nat (aI_cnt nd))) as H0. split.
  - intros k. unfold wago_read_ai. destruct (wago_ai_request nd m) as [m1 len].
    destruct (receive (aI_size nd + 9) (Some r) m1) as [m2|] eqn:EM; [|discriminate].
    assert (LR : Z.of_nat (length r) = 9 + aI_size nd).
    { unfold r, answer. rewrite app_length. cbn [length]. pose proof (bytes_at_length img 0 (aI_size nd)). lia. }
    assert (RD : forall x, 0 <= x < aI_size nd + 9 -> m2 x = nth (Z.to_nat x) r 0).
    { intros x Hx. rewrite (receive_read _ _ _ x _ EM) by lia.
      replace ((x <? aI_size nd + 9) && (x <? Z.of_nat (length r))) with true by lia. reflexivity. }
    rewrite (RD 7), (RD 8) by lia. change (nth (Z.to_nat 7) r 0) with 4.
    change (nth (Z.to_nat 8) r 0) with (aI_size nd). rewrite !Z.eqb_refl. cbn [andb fst].
    unfold with_aI. cbn [aI].
    pose proof (wago_ai_block_spec (aI_types nd) m2 img (Z.to_nat (aI_cnt nd)) 0 (aI nd) (aI_size nd)) as G.
    change (wago_offset (aI_types nd) 0) with 0 in G. change (Z.of_nat 0) with 0 in G.
    cbn [Nat.add] in G. rewrite G.
    + rewrite Z2Nat.id by lia. reflexivity.
    + intros o Ho. rewrite RD by lia. unfold r, answer. rewrite app_nth2 by (cbn [length]; lia). cbn [length].
      replace (Z.to_nat (9 + o) - 9)%nat with (Z.to_nat o) by lia. rewrite bytes_at_nth by lia. reflexivity.
    + lia.
  - unfold wago_ai_request. cbn [fst]. unfold register, wago_ai_header. cbn [store]. puts.
    rewrite u8_small by lia. assert (0 <= aI_size nd / 2 < 256).
    { split; [apply Z.div_pos; lia|apply Z.div_lt_upper_bound; lia]. }
    rewrite Z.shiftr_div_pow2 by lia. change (2 ^ 8) with 256. rewrite Z.div_small by lia.
    change 0xFF with (Z.ones 8). rewrite Z.land_ones by lia. rewrite Z.mod_small by lia. lia.
Qed.
Print Assumptions C54_wago_analog.

(** What the WAGO couplers are asked: all inputs in one request. *)
Theorem C54_wago_requests : forall nd m, 0 <= dI_cnt nd < 256 -> 0 <= aI_size nd < 256 ->
  let '(m1, n1) := wago_di_request nd m in
  let '(m2, n2) := wago_ai_request nd m in
  bytes_at m1 0 n1 = frame ([2] ++ be16 0 ++ be16 (dI_cnt nd)) /\ same_outside m m1 0 12 /\
  bytes_at m2 0 n2 = frame ([4] ++ be16 0 ++ be16 (aI_size nd / 2)) /\ same_outside m m2 0 12.
Proof.
  intros nd m H1 H2. unfold wago_di_request, wago_ai_request.
  assert (B : 0 <= aI_size nd / 2 < 256).
  { split; [apply Z.div_pos; lia|apply Z.div_lt_upper_bound; lia]. }
  assert (HL : forall x, 0 <= x < 256 -> be16 x = [0; x]).
  { intros x Hx. unfold be16. rewrite Z.div_small, Z.mod_small by lia. reflexivity. }
  assert (D : wago_di_header (dI_cnt nd) = frame ([2] ++ be16 0 ++ be16 (dI_cnt nd))).
  { unfold wago_di_header. rewrite shr_u8, land_u8, (HL (dI_cnt nd)) by lia. rewrite u8_small by lia. reflexivity. }
  assert (A : wago_ai_header (aI_size nd) = frame ([4] ++ be16 0 ++ be16 (aI_size nd / 2))).
  { unfold wago_ai_header. rewrite u8_small, (HL (aI_size nd / 2)) by lia. rewrite Z.shiftr_div_pow2 by lia. change (2 ^ 8) with 256.
    change 0xFF with (Z.ones 8). rewrite Z.land_ones by lia. rewrite Z.div_small, Z.mod_small by lia. reflexivity. }
  rewrite D, A. rewrite !HL by lia.
  repeat split; try reflexivity; intros x Hx; unfold frame; unfold be16; cbn [app length store]; puts; reflexivity.
Qed.
Print Assumptions C54_wago_requests.

(** An answer that arrives in two pieces is completed with old bytes of the
    buffer and shown as inputs. *)
Theorem C54_partial_answers_refuted :
  ~ forall nd m r, 0 < dI_cnt nd -> (0 < length r)%nat ->
      Z.of_nat (length r) < 9 + ceil8 (dI_cnt nd) ->
      forall i, dI (fst (wago_read_di nd m (Some r))) i = dI nd i.
Proof.
  intros H. specialize (H
    {| dO := fun _ => 0; dO_ := fun _ => 1; dO_cnt := 0;
     aO := fun _ => 0; aO_ := fun _ => 0; aO_cnt := 0; aO_size := 0; aO_types := fun _ => 0;
     dI := fun _ => 0; dI_cnt := 24; aI := fun _ => 0; aI_cnt := 0; aI_size := 0;
     aI_types := fun _ => 0 |} (fun _ => 255) [115;115;0;0;0;6;0;2;3]).
  specialize (H ltac:(cbn; lia) ltac:(cbn; lia) ltac:(vm_compute; reflexivity) 19).
  vm_compute in H. discriminate.
Qed.
Print Assumptions C54_partial_answers_refuted.

Example C54_example :
  let nd := {| dO := fun _ => 0; dO_ := fun _ => 1; dO_cnt := 0;
     aO := fun _ => 0; aO_ := fun _ => 0; aO_cnt := 0; aO_size := 0; aO_types := fun _ => 0;
     dI := fun _ => 9; dI_cnt := 10; aI := fun _ => 0; aI_cnt := 3; aI_size := 8;
     aI_types := fun k => if k =? 1 then 638 else 466 |} in
  map (dI (fst (wago_read_di nd (fun _ => 0) (Some [115;115;0;0;0;5;0;2;2;129;2])))) [0; 1; 7; 8; 9; 10]
    = [1; 0; 1; 0; 1; 9] /\
  map (aI (fst (wago_read_ai nd (fun _ => 0) (Some [115;115;0;0;0;11;0;4;8; 255;255; 7;7;1;2; 127;248])))) [0; 1; 2]
    = [-1; 258; 32760].
Proof. vm_compute. split; reflexivity. Qed.

(** * C55: analog outputs of WAGO couplers *)

Theorem C55_request : forall nd m,
  0 < aO_cnt nd -> Z.of_nat (length (wago_image nd)) = aO_size nd -> aO_size nd <= 248 ->
  let '(m', len) := wago_ao_request nd m in
  bytes_at m' 0 len =
    frame ([16] ++ be16 0 ++ be16 (aO_size nd / 2) ++ [aO_size nd] ++ wago_image nd) /\
  same_outside m m' 0 io_buff_size.
Proof.
  intros nd m Hc Hs Hle. unfold wago_ao_request.
  set (h := wago_ao_header (aO_size nd)).
  pose proof (wago_ao_block_spec nd (Z.to_nat (aO_cnt nd)) 0 0 (store h m 0) ltac:(lia)) as [W1 W2].
  change (Z.of_nat 0) with 0 in *. fold (wago_image nd) in W1, W2. rewrite Hs in W1, W2.
  set (m' := wago_ao_block nd (Z.to_nat (aO_cnt nd)) 0 0 (store h m 0)) in *.
  change (13 + 0) with 13 in *. split.
  - replace (aO_size nd + 13) with (13 + aO_size nd) by lia. rewrite bytes_at_split by lia.
    change (0 + 13) with 13. rewrite W1.
    rewrite (bytes_at_ext m' (store h m 0) 0 13) by (intros x Hx; apply W2; lia).
    change 13 with (Z.of_nat (length h)). rewrite bytes_at_store.
    unfold frame.
    assert (EL : 1 + Z.of_nat (length ([16] ++ be16 0 ++ be16 (aO_size nd / 2) ++ [aO_size nd] ++ wago_image nd))
       = 7 + aO_size nd).
    { rewrite !app_length. cbn [length be16]. lia. }
    rewrite EL. unfold h, wago_ao_header, be16.
    assert (0 <= aO_size nd / 2 < 256).
    { split; [apply Z.div_pos; lia|apply Z.div_lt_upper_bound; lia]. }
    rewrite (u8_small (7 + aO_size nd)), (u8_small (aO_size nd)) by lia.
    rewrite Z.shiftr_div_pow2 by lia. change (2 ^ 8) with 256.
    rewrite (Z.div_small (aO_size nd / 2)), (Z.div_small (7 + aO_size nd)), (Z.mod_small (7 + aO_size nd)),
      (Z.mod_small (aO_size nd / 2)) by lia.
    change 0xFF with (Z.ones 8). rewrite Z.land_ones by lia. rewrite Z.mod_small by lia. reflexivity.
  - intros x Hx. unfold io_buff_size in Hx. rewrite W2 by lia. apply store_frame.
    change (Z.of_nat (length h)) with 13. lia.
Qed.
Print Assumptions C55_request.

(** With more than 248 bytes of analog outputs the frame length is wrong. *)
Theorem C55_any_size_refuted :
  ~ forall nd m, 0 < aO_cnt nd -> Z.of_nat (length (wago_image nd)) = aO_size nd ->
      register (fst (wago_ao_request nd m)) 4 0 = 7 + aO_size nd.
Proof.
  intros H. specialize (H
    {| dO := fun _ => 0; dO_ := fun _ => 1; dO_cnt := 0;
     aO := fun _ => 0; aO_ := fun _ => 0; aO_cnt := 125; aO_size := 250; aO_types := fun _ => 554;
     dI := fun _ => 0; dI_cnt := 0; aI := fun _ => 0; aI_cnt := 0; aI_size := 0;
     aI_types := fun _ => 0 |} (fun _ => 0) ltac:(cbn; lia) ltac:(vm_compute; reflexivity)).
  vm_compute in H. discriminate.
Qed.
Print Assumptions C55_any_size_refuted.

Example C55_example :
  let nd := {| dO := fun _ => 0; dO_ := fun _ => 1; dO_cnt := 0;
     aO := fun _ => 0; aO_ := fun k => -2 - k; aO_cnt := 3; aO_size := 8;
     aO_types := fun k => if k =? 1 then 638 else 554;
     dI := fun _ => 0; dI_cnt := 0; aI := fun _ => 0; aI_cnt := 0; aI_size := 0;
     aI_types := fun _ => 0 |} in
  bytes_at (fst (wago_ao_request nd (fun _ => 0))) 0 21 =
  [115;115;0;0;0;15;0;16;0;0;0;4;8; 255;254; 0;0;0;0; 255;252].
Proof. vm_compute. reflexivity. Qed.
