(** Sensors with IO-Link and scales: the theorems. *)
From Coq Require Import ZArith List Bool Lia QArith Qabs Lqa.
From Verif Require Import Base FTextModel FloatModel FloatProofs2 FloatProofs3 AioProofs AioProofs2 SenModel SenSpec SenProofs SenProofs2.
Import ListNotations.
Open Scope Z_scope.

(** * C120: pressure *)

(** The module of the sensor says that the port is in order, or says nothing. *)
Definition in_order (phoenix : bool) (port : Z) (f : frame) : Prop := phoenix = false \/ (1 <= port <= 8 /\ octets (module_ f) /\ port_state port (module_ f) = 0).
Lemma in_order_link phoenix port f : in_order phoenix port f -> link phoenix port (module_ f) = 0.
Proof. intros [->|(P & O & S)]; [reflexivity|]. destruct phoenix; [rewrite link_spec; assumption|reflexivity]. Qed.

Theorem C120_pressure a h f k phoenix port err : octets (data f) -> in_order phoenix port f -> long a = false \/ Nat.even k = true ->
  let s := pt_run a (then_missed h f k) in
  close (pt_value phoenix port err s) (zq (steps a (data f)) * unit_of a) /\ pt_state phoenix port s = status a (data f).
Proof.
  intros O R K. destruct (pt_after a h f k O) as (V & S & M & _). cbv zeta in *. unfold pt_value, pt_state. rewrite M, (in_order_link _ _ _ R). cbn [Z.eqb].
  assert (E : long a && Nat.odd k = false) by (destruct K as [->|K]; [reflexivity|rewrite <- Nat.negb_even, K; apply andb_false_r]).
  rewrite E in V, S. rewrite V, S. split; [apply pt_close, O|reflexivity].
Qed.
Theorem C120_not_ready a h f k port err : octets (data f) -> octets (module_ f) -> 1 <= port <= 8 -> port_state port (module_ f) <> 0 ->
  let s := pt_run a (then_missed h f k) in pt_value true port err s = err /\ pt_state true port s = - port_state port (module_ f).
Proof.
  intros O OM P S0. destruct (pt_after a h f k O) as (_ & _ & M & _). cbv zeta in *. unfold pt_value, pt_state. rewrite M, (link_spec _ _ OM P).
  apply Z.eqb_neq in S0. rewrite S0. split; reflexivity.
Qed.
(** Without new data the memory is decoded again, though its bytes have been exchanged: after an odd number of missed cycles the
    sensors of 16 bits show something else. *)
Theorem C120_missed_cycles a h f k phoenix port err : octets (data f) -> in_order phoenix port f -> long a = true -> Nat.odd k = true ->
  let s := pt_run a (then_missed h f k) in
  close (pt_value phoenix port err s) (zq (steps a (exchanged (data f))) * unit_of a) /\ pt_state phoenix port s = status a (exchanged (data f)).
Proof.
  intros O R L K. destruct (pt_after a h f k O) as (V & S & M & _). cbv zeta in *. unfold pt_value, pt_state. rewrite M, (in_order_link _ _ _ R). cbn [Z.eqb].
  rewrite L, K in V, S. cbn [andb] in V, S. rewrite V, S. split; [apply pt_close, exchanged_octets, O|reflexivity].
Qed.
Theorem C120_missed_cycles_refuted a : long a = true ->
  ~ (forall h f k phoenix port err, octets (data f) -> in_order phoenix port f ->
      close (pt_value phoenix port err (pt_run a (then_missed h f k))) (zq (steps a (data f)) * unit_of a)).
Proof.
  intros L H. set (b := fun n => if n =? 1 then 100 else 0). assert (O : octets b) by (intros n; unfold b; destruct (n =? 1); lia).
  specialize (H [] {| data := b; module_ := b |} 1%nat false 1 0 O (or_introl eq_refl)).
  destruct a; try discriminate; destruct H as (_ & H); revert H; vm_compute; intros H; apply H; reflexivity.
Qed.
Print Assumptions C120_pressure.
Print Assumptions C120_not_ready.
Print Assumptions C120_missed_cycles.
Print Assumptions C120_missed_cycles_refuted.

(** A sensor of 16 bits that received 0x09C4 = 2500, status 2: 2.5 bar; with the port not connected; after one missed cycle: -14.3 bar. *)
Definition of_list (l : list Z) : bytes := fun n => if n <? 0 then 0 else nth (Z.to_nat n) l 0.
Definition fr : frame := {| data := of_list [9; 196; 0; 32]; module_ := of_list [4; 4; 0; 0] |}.
Example C120_example : let s k := pt_run PM1705 (then_missed [] fr k) in
  (pt_value true 3 (f_of_Z (-1)) (s 0%nat) = f_lit (25 # 10) /\ pt_state true 3 (s 0%nat) = 2) /\
  (pt_value true 2 (f_of_Z (-1)) (s 0%nat) = f_of_Z (-1) /\ pt_state true 2 (s 0%nat) = -1) /\
  steps PM1705 (exchanged (data fr)) = -15351 /\ (Qabs (f_val (pt_value true 3 0 (s 1%nat)) + (15351 # 1000)) <= 1 # 100000)%Q /\ pt_value true 3 0 (s 2%nat) = f_lit (25 # 10) /\
  steps PI2794 (of_list [255; 253]) = -1 /\ in_order true 3 fr.
Proof.
  repeat split; try (vm_compute; (reflexivity || discriminate)). right. split; [lia|]. split; [|reflexivity].
  intros n. unfold fr, module_, of_list. destruct (n <? 0) eqn:E; [lia|]. destruct (Z.to_nat n) as [|[|[|[|m]]]]; cbn [nth]; try lia. destruct m; lia.
Qed.

(** * C121: level, and a node that is no longer read *)

Theorem C121_level a h f k phoenix port err maxp : octets (data f) -> in_order phoenix port f -> long a = false \/ Nat.even k = true ->
  f_finite maxp = true -> (1 # 1000 <= Qabs (f_val maxp))%Q ->
  let q := (100 * (zq (steps a (data f)) * unit_of a / f_val maxp))%Q in about (lt_value phoenix port err maxp (pt_run a (then_missed h f k))) q (Qabs q).
Proof.
  intros O R K F M q. destruct (C120_pressure a h f k phoenix port err O R K) as (V & _). unfold lt_value. unfold pt_value in V.
  destruct (pt_after a h f k O) as (_ & _ & ML & _). cbv zeta in *. rewrite ML, (in_order_link _ _ _ R) in *. cbn [Z.eqb] in *. apply percent; [exact V|exact F| |exact M].
  pose proof (steps_range a (data f) O) as SR. eapply Qle_trans; [apply zq_mul with (C := 1%Q); [|discriminate|lia]|vm_compute; discriminate].
  destruct a; vm_compute; discriminate.
Qed.
(** However long a node is not read, the sensors go on with the last data: no number of missed cycles turns the state negative. *)
Theorem C121_lost_node_refuted a phoenix port : phoenix = false \/ 1 <= port <= 8 ->
  ~ (exists limit, forall h f k, octets (data f) -> in_order phoenix port f -> (limit <= k)%nat -> pt_state phoenix port (pt_run a (then_missed h f k)) < 0).
Proof.
  intros P (limit & H). set (m := fun n : Z => 255). assert (OM : octets m) by (intros n; unfold m; lia).
  assert (R : in_order phoenix port {| data := m; module_ := m |}).
  { destruct P as [->|P]; [left; reflexivity|right]. split; [exact P|split; [exact OM|]]. cbn [module_]. unfold port_state, m.
    assert (C : port = 1 \/ port = 2 \/ port = 3 \/ port = 4 \/ port = 5 \/ port = 6 \/ port = 7 \/ port = 8) by lia.
    repeat destruct C as [->|C]; try reflexivity. subst. reflexivity. }
  specialize (H [] {| data := m; module_ := m |} limit OM R (Nat.le_refl _)).
  destruct (pt_after a [] {| data := m; module_ := m |} limit OM) as (_ & S & M & _). cbv zeta in *. unfold pt_state in H. rewrite M, (in_order_link _ _ _ R), S in H.
  cbn [Z.eqb] in H. revert H. unfold status. destruct (long a), (Nat.odd limit); cbn [andb data]; unfold exchanged, m; cbn [Z.eqb Pos.eqb]; vm_compute; discriminate.
Qed.
Print Assumptions C121_level.
Print Assumptions C121_lost_node_refuted.

(** 0.125 of at most 0.5 bar: 25 %; a maximum of 0 that was never set: not a number, or infinite. *)
Definition fr2 : frame := {| data := of_list [4; 226; 0; 0]; module_ := of_list [1; 1; 0; 0] |}.
Example C121_example : let s := pt_run PM1709 [Some fr2] in
  (Qabs (f_val (lt_value true 1 0 (f_lit (5 # 10)) s) - 25) <= 1 # 100000)%Q /\ f_isinf (lt_value true 1 0 0 s) = true /\ f_isnan (lt_value false 1 0 0 (pt_run PM1709 [])) = true /\ pt_state true 1 (pt_run PM1709 (then_missed [] fr2 1000)) = 0.
Proof. vm_compute. repeat split; discriminate. Qed.

(** * C122: concentration, level switches, flow meters *)

Theorem C122_concentration b : octets b -> exists x t, qt_decode b = (x, t, b 11 / 16) /\ close x (zq (be32 b 0) * (1 # 1000)) /\ close t (zq (be32 b 6) * (1 # 10)).
Proof.
  intros O. rewrite (qt_spec b O). eexists. eexists. split; [reflexivity|]. pose proof (be32_range b 0 O). pose proof (be32_range b 6 O).
  split; [apply thousandth|apply tenth]; lia.
Qed.
(** A temperature below zero, sent as a number with sign, is never shown as such: it shows as more than 200 million degrees. *)
Theorem C122_cold_refuted b : octets b -> with_sign 32 (be32 b 6) < 0 -> exists x t n, qt_decode b = (x, t, n) /\ (200000000 <= f_val t)%Q.
Proof.
  intros O N. rewrite (qt_spec b O). eexists. eexists. eexists. split; [reflexivity|]. pose proof (be32_range b 6 O) as R.
  assert (L : 2 ^ 31 <= be32 b 6) by (unfold with_sign in N; change (2 ^ (32 - 1)) with (2 ^ 31) in N; destruct (be32 b 6 <? 2 ^ 31) eqn:E; lia).
  set (x := be32 b 6) in *. clearbody x. clear N. destruct (tenth x ltac:(lia)) as (F & E). apply abs_iff in E. destruct E as (E & _).
  assert (X0 : (inject_Z (2 ^ 31) <= zq x)%Q) by (unfold zq; rewrite <- Zle_Qle; exact L).
  assert (XA : (Qabs (zq x * (1 # 10)) == zq x * (1 # 10))%Q) by (apply Qabs_pos; assert (0 <= inject_Z (2 ^ 31))%Q by (vm_compute; discriminate); lra).
  rewrite XA in E. assert (H1 : (p2 (-140) <= 1 # 100)%Q) by (vm_compute; discriminate).
  assert (X1 : (zq x <= inject_Z (2 ^ 32))%Q) by (unfold zq; rewrite <- Zle_Qle; lia).
  assert (X2 : (inject_Z (2 ^ 31) == 2147483648 /\ inject_Z (2 ^ 32) == 4294967296)%Q) by (split; reflexivity). destruct X2 as (X2 & X3). rewrite X2 in X0. rewrite X3 in X1. lra.
Qed.
Theorem C122_level_switch_LMT err b : octets b -> exists x, ls_decode LMT err b = (x, b 1 mod 2) /\ f_finite x = true /\ (f_val x == zq (with_sign 14 (be16 b 0 / 4)))%Q.
Proof.
  intros O. rewrite (ls_lmt err b O). eexists. split; [reflexivity|]. destruct (shift2 b O) as (_ & S2). pose proof (sign_range 14 _ ltac:(lia) S2) as R.
  change (2 ^ (14 - 1)) with 8192 in R. apply of_Z_exact. lia.
Qed.
Theorem C122_level_switch_FTL err b : octets b -> exists x, ls_decode FTL33 err b = (x, (b 0 / 64) mod 2) /\ close x (zq (with_sign 14 (be16 b 0 mod 2 ^ 14)) * (1 # 10)).
Proof. intros O. rewrite (ls_ftl err b O). eexists. split; [reflexivity|]. apply tenth, small14, be16_low, O. Qed.
Theorem C122_flow cz b : octets b -> f_finite cz = true -> (Qabs (f_val cz) <= inject_Z (2 ^ 60))%Q -> exists x t, fq_decode cz b = (be32 b 0, x, t) /\
  let q := (zq (with_sign 16 (be16 b 4)) * (1 # 100))%Q in about x (q + f_val cz) (Qabs q + Qabs (f_val cz)) /\ close t (zq (with_sign 14 (be16 b 6 / 4)) * (1 # 10)).
Proof.
  intros O F C. rewrite (fq_spec cz b O). eexists. eexists. split; [reflexivity|]. cbv zeta. pose proof (be16_range b 4 O) as R4. pose proof (be16_range b 6 O) as R6.
  pose proof (sign_range 16 _ ltac:(lia) R4) as S4. change (2 ^ (16 - 1)) with 32768 in S4. split.
  - apply sum_close; [apply hundredth; lia|exact F| |exact C]. eapply Qle_trans; [apply zq_mul with (C := 1%Q); [vm_compute; discriminate|discriminate|lia]|vm_compute; discriminate].
  - apply tenth, small14. split; [apply Z.div_pos; lia|apply Z.div_lt_upper_bound; lia].
Qed.
Print Assumptions C122_concentration.
Print Assumptions C122_cold_refuted.
Print Assumptions C122_level_switch_LMT.
Print Assumptions C122_level_switch_FTL.
Print Assumptions C122_flow.

(** 12.345 mS/cm at 60.5 degrees, state 3; the same at -1 degree; a switch that is on, at -3; 21.3, off; 12.5 litres, flow -1.5, 20 degrees. *)
Example C122_example :
  (let '(x, t, n) := qt_decode (of_list [0; 0; 48; 57; 0; 0; 0; 0; 2; 93; 0; 48]) in
    ((Qabs (f_val x - (12345 # 1000)) <= 1 # 100000)%Q /\ (Qabs (f_val t - (605 # 10)) <= 1 # 100000)%Q) /\ n = 3) /\
  (let '(_, t, _) := qt_decode (of_list [0; 0; 48; 57; 0; 0; 255; 255; 255; 246; 0; 48]) in (429496000 <= f_val t)%Q) /\
  ls_decode LMT 0 (of_list [255; 245]) = (f_of_Z (-3), 1) /\ snd (ls_decode FTL33 0 (of_list [0; 213])) = 0 /\
  (let '(total, x, t) := fq_decode 0 (of_list [65; 72; 0; 0; 255; 106; 3; 32]) in
    total = f_lit (125 # 10) /\ (Qabs (f_val x + (15 # 10)) <= 1 # 100000)%Q /\ (Qabs (f_val t - 20) <= 1 # 100000)%Q).
Proof. vm_compute. repeat split; discriminate. Qed.

(** * C123: temperature *)

(** [sc]: characters have a sign on the target. *)
Theorem C123_temperature sc zero b : octets b -> f_finite zero = true -> (Qabs (f_val zero) <= inject_Z (2 ^ 60))%Q -> sc = false \/ b 1 < 128 ->
  let q := (zq (with_sign 16 (be16 b 0)) * (1 # 10))%Q in about (te_value sc zero b) (q + f_val zero) (Qabs q + Qabs (f_val zero)).
Proof.
  intros O F C L q. unfold te_value. rewrite (te_steps sc b O). replace (sc && (128 <=? b 1)) with false by (destruct L as [->|L]; [reflexivity|]; replace (128 <=? b 1) with false by lia; symmetry; apply andb_false_r).
  pose proof (be16_range b 0 O) as R. pose proof (small16 _ R) as S. apply sum_close; [apply tenth, S|exact F| |exact C].
  eapply Qle_trans; [apply zq_mul with (C := 1%Q); [vm_compute; discriminate|discriminate|exact S]|vm_compute; discriminate].
Qed.
(** Otherwise 25.6 degrees too low (and in the lowest 25.6 degrees of the range, far too high). *)
Theorem C123_signed_char zero b : octets b -> f_finite zero = true -> (Qabs (f_val zero) <= inject_Z (2 ^ 60))%Q -> 128 <= b 1 -> b 0 <> 128 ->
  let q := (zq (with_sign 16 (be16 b 0)) * (1 # 10) - (256 # 10))%Q in about (te_value true zero b) (q + f_val zero) (Qabs q + Qabs (f_val zero)).
Proof.
  intros O F C L N. unfold te_value. rewrite (te_steps true b O). replace (true && (128 <=? b 1)) with true by (cbn [andb]; lia).
  pose proof (be16_range b 0 O) as R. pose proof (O 0) as B0. pose proof (O 1) as B1.
  assert (RM : 0 <= (be16 b 0 - 256) mod 2 ^ 16 < 2 ^ 16) by (apply Z.mod_pos_bound; lia).
  assert (E : with_sign 16 ((be16 b 0 - 256) mod 2 ^ 16) = with_sign 16 (be16 b 0) - 256).
  { unfold with_sign. change (2 ^ (16 - 1)) with 32768. change (2 ^ 16) with 65536 in *. unfold be16 in *. cbn [Z.add] in *.
    pose proof (Z.div_mod (256 * b 0 + b 1 - 256) 65536 ltac:(lia)) as DM.
    assert (b 0 < 128 \/ 129 <= b 0) as [H|H] by lia.
    - replace (256 * b 0 + b 1 <? 32768) with true by lia. destruct (_ mod 65536 <? 32768) eqn:X; lia.
    - replace (256 * b 0 + b 1 <? 32768) with false by lia. destruct (_ mod 65536 <? 32768) eqn:X; lia. }
  cbv zeta. set (x := with_sign 16 ((be16 b 0 - 256) mod 2 ^ 16)) in *.
  assert (Q : (zq x * (1 # 10) == zq (with_sign 16 (be16 b 0)) * (1 # 10) - (256 # 10))%Q) by (rewrite E; unfold zq, Z.sub; rewrite inject_Z_plus; change (inject_Z (- (256))) with (- (256 # 1))%Q; ring).
  pose proof (small16 _ RM) as S. fold x in S.
  destruct (sum_close _ _ zero (tenth x S) F) as (A & B); [|exact C|].
  - eapply Qle_trans; [apply zq_mul with (C := 1%Q); [vm_compute; discriminate|discriminate|exact S]|vm_compute; discriminate].
  - split; [exact A|]. rewrite Q in B. exact B.
Qed.
Theorem C123_signed_char_refuted : ~ (forall b, octets b -> let q := (zq (with_sign 16 (be16 b 0)) * (1 # 10))%Q in about (te_value true 0 b) (q + f_val 0) (Qabs q + Qabs (f_val 0))).
Proof.
  intros H. set (b := fun n => if n =? 1 then 200 else 0). assert (O : octets b) by (intros n; unfold b; destruct (n =? 1); lia).
  specialize (H b O). destruct H as (_ & H). revert H. vm_compute. intros H. apply H. reflexivity.
Qed.
Print Assumptions C123_temperature.
Print Assumptions C123_signed_char.
Print Assumptions C123_signed_char_refuted.

(** 20.0 degrees (0x00C8) and -5.0 degrees (0xFFCE), with a correction of 0.5: with characters without sign, with sign. *)
Example C123_example : let v sc l := f_val (te_value sc (f_lit (5 # 10)) (of_list l)) in
  (Qabs (v false [0; 200]%Z - (205 # 10)) <= 1 # 100000)%Q /\ (Qabs (v true [0; 200]%Z + (51 # 10)) <= 1 # 100000)%Q /\
  (Qabs (v false [255; 206]%Z + (45 # 10)) <= 1 # 100000)%Q /\ (Qabs (v true [255; 206]%Z + (301 # 10)) <= 1 # 100000)%Q /\ (Qabs (v true [1; 44]%Z - (305 # 10)) <= 1 # 100000)%Q.
Proof. vm_compute. repeat split; discriminate. Qed.

(** * C124: scales *)

(** After a reading, an even number of missed cycles, and calls of other kinds: weight, state. *)
Theorem C124_scale h b j l k : octets b -> calls_with k h -> plain l -> Nat.even j = true -> f_finite k = true -> (Qabs (f_val k) <= 1000000)%Q ->
  let s := wt_run (read_then h b j ++ l) in let q := (zq (reading b) * (1 # 1000) * f_val k)%Q in
  w_st s = fault (reading b) /\
  (f_finite (par_cz s) = true -> (Qabs (f_val (par_cz s)) <= inject_Z (2 ^ 60))%Q -> about (wt_value s) (q + f_val (par_cz s)) (Qabs q + Qabs (f_val (par_cz s)))).
Proof.
  intros O K P J F B s q. destruct (read_spec h b j k O K) as (A1 & A2 & A3 & A4 & _). cbv zeta in *.
  destruct (plain_run l P (wt_run (read_then h b j))) as (B1 & B2 & B3 & B4). cbv zeta in *.
  assert (ES : s = fold_left wt_step l (wt_run (read_then h b j))) by (unfold s, wt_run; apply fold_left_app). rewrite <- ES in *.
  rewrite <- Nat.negb_even, J in *. cbn [negb] in *. rewrite B2. split; [exact A2|]. intros FC C. unfold wt_value. rewrite B1, A1. apply value_close; assumption.
Qed.
(** The value right after a tare is 0; what is read later is the difference to what was tared. *)
Theorem C124_tare h b b' k c : octets b -> octets b' -> calls_with k h -> f_finite k = true -> (Qabs (f_val k) <= 1000000)%Q -> c = Tare \/ c = State 1 ->
  let t := read_then h b 0 ++ [c] in let q x := (zq (reading x) * (1 # 1000) * f_val k)%Q in
  (f_val (wt_value (wt_run t)) == 0)%Q /\ about (wt_value (wt_run (read_then t b' 0))) (q b' - q b) (Qabs (q b) + Qabs (q b')).
Proof.
  intros O O' K F B C t q. destruct (read_spec h b 0 k O K) as (A1 & A2 & A3 & A4 & _). cbv zeta in *. cbn [Nat.odd Nat.even negb] in *.
  assert (T : w (wt_run t) = weight b k /\ par_cz (wt_run t) = f_opp (weight b k) /\ calls_with k t).
  { assert (ET : wt_run t = set_cz (wt_run (read_then h b 0)) (f_opp (w (wt_run (read_then h b 0))))) by (unfold t, wt_run; rewrite fold_left_app; destruct C as [->| ->]; reflexivity).
    rewrite ET, A1. unfold set_cz. cbn [w par_cz]. split; [exact A1|split; [reflexivity|]]. unfold calls_with, t, read_then in *. rewrite !fold_left_app. cbn [repeat fold_left].
    destruct C as [->| ->]; exact K. }
  destruct T as (T1 & T2 & T3). split.
  - unfold wt_value. rewrite T1, T2. apply tare_zero, weight_close; assumption.
  - destruct (read_spec t b' 0 k O' T3) as (D1 & D2 & D3 & D4 & _). cbv zeta in *. cbn [Nat.odd Nat.even negb] in *. unfold wt_value. rewrite D1, D4, T2. apply tare_close; assumption.
Qed.
(** After an odd number of missed cycles the registers are exchanged: another weight, and another state. *)
Theorem C124_missed_cycles h b j k : octets b -> calls_with k h -> Nat.odd j = true -> f_finite k = true -> (Qabs (f_val k) <= 1000000)%Q ->
  f_finite (par_cz (wt_run h)) = true -> (Qabs (f_val (par_cz (wt_run h))) <= inject_Z (2 ^ 60))%Q ->
  let s := wt_run (read_then h b j) in let q := (zq (reading (crossed b)) * (1 # 1000) * f_val k)%Q in
  w_st s = fault (reading (crossed b)) /\ about (wt_value s) (q + f_val (par_cz s)) (Qabs q + Qabs (f_val (par_cz s))).
Proof.
  intros O K J F B FC C s q. destruct (read_spec h b j k O K) as (A1 & A2 & A3 & A4 & _). cbv zeta in *. fold s in A1, A2, A3, A4. rewrite J in *. split; [exact A2|].
  unfold wt_value. rewrite A1, A4. apply value_close; try assumption. apply crossed_octets, O.
Qed.
Theorem C124_missed_cycles_refuted : ~ (forall b j, octets b -> let s n := wt_run (read_then [ParK (f_of_Z 1)] b n) in wt_value (s j) = wt_value (s 0%nat)).
Proof.
  intros H. set (b := fun n => if n =? 2 then 1 else 0). assert (O : octets b) by (intros n; unfold b; destruct (n =? 2); lia).
  specialize (H b 1%nat O). revert H. vm_compute. discriminate.
Qed.
(** A fault of the module is in the state only: the value is an ordinary number (a weight of -2147483 times the coefficient). *)
Theorem C124_fault_value h b k : octets b -> calls_with k h -> fault (reading b) <> 0 -> f_finite k = true -> (0 <= f_val k)%Q -> (f_val k <= 1000000)%Q ->
  let s := wt_run (read_then h b 0) in f_finite (w s) = true /\ (- (2147485 * f_val k) - 1 <= f_val (w s))%Q /\ (f_val (w s) <= - (2147482 * f_val k) + 1)%Q.
Proof.
  intros O K N F B0 B1 s. destruct (read_spec h b 0 k O K) as (A1 & A2 & A3 & A4 & _). cbv zeta in *. cbn [Nat.odd Nat.even negb] in *. fold s in A1. rewrite A1.
  assert (B : (Qabs (f_val k) <= 1000000)%Q) by (rewrite (Qabs_pos _ B0); exact B1).
  destruct (weight_close b k O F B) as (W1 & W2 & _). split; [exact W1|]. set (W := f_val (weight b k)) in *. clearbody W.
  assert (R : -2147483647 <= reading b <= -2147483520).
  { revert N. unfold fault. pose proof (reading_range b O) as R0. destruct (reading b) as [|p|p]; try congruence.
    repeat (match goal with |- context [match ?p with _ => _ end] => is_var p; destruct p end; try congruence); intros _; lia. }
  assert (Q1 : (- (2147483647) <= zq (reading b))%Q) by (change (- (2147483647))%Q with (inject_Z (-2147483647)); unfold zq; rewrite <- Zle_Qle; lia).
  assert (Q2 : (zq (reading b) <= - (2147483520))%Q) by (change (- (2147483520))%Q with (inject_Z (-2147483520)); unfold zq; rewrite <- Zle_Qle; lia).
  set (x := zq (reading b)) in *. clearbody x. set (K0 := f_val k) in *. clearbody K0.
  assert (KX : (- (2147483647) * K0 <= x * K0 /\ x * K0 <= - (2147483520) * K0)%Q) by (split; nra). destruct KX as (KX1 & KX2).
  assert (QA : (Qabs (x * (1 # 1000) * K0) == - (x * (1 # 1000) * K0))%Q) by (apply Qabs_neg; lra). rewrite QA in W2. apply abs_iff in W2. destruct W2 as (W2 & W3).
  assert (ZZ : (p2 (-110) <= 1 # 100)%Q) by (vm_compute; discriminate). split; lra.
Qed.
Print Assumptions C124_scale.
Print Assumptions C124_tare.
Print Assumptions C124_missed_cycles.
Print Assumptions C124_missed_cycles_refuted.
Print Assumptions C124_fault_value.

(** 0x00012345 = 74565 grams, a coefficient of 2; after one missed cycle; after a tare, with 1000 grams more; a broken wire. *)
Example C124_example : let h := [ParK (f_of_Z 2)] in let b := of_list [1; 0; 69; 35] in
  (Qabs (f_val (wt_value (wt_run (read_then h b 0))) - (14913 # 100)) <= 1 # 10000)%Q /\ reading (crossed b) = 591724545 /\
  (Qabs (f_val (wt_value (wt_run (read_then h b 1))) - (1183449 # 1)) <= 1)%Q /\
  (Qabs (f_val (wt_value (wt_run (read_then (read_then h b 0 ++ [Tare]) (of_list [1; 0; 45; 39]%Z) 0))) - 2) <= 1 # 10000)%Q /\
  w_st (wt_run (read_then h (of_list [0; 128; 2; 0]) 0)) = -2 /\ w_st (wt_run (read_then h b 0)) = 0.
Proof. vm_compute. repeat split; discriminate. Qed.
