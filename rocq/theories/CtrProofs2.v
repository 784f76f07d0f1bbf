(** Proofs about counters: the pulses counted. *)
From Coq Require Import ZArith List Bool Lia QArith Qround.
From Verif Require Import Base TimeModel FTextModel FTextProofs FloatModel FloatProofs FloatProofs2 FloatProofs3 CtrModel CtrSpec CtrProofs.
Import ListNotations.
Open Scope Z_scope.

Lemma counted_cases m p p' : 0 <= m < 65536 -> p <= p' <= p + m ->
  (p mod 65536 <= p' mod 65536 /\ counted p p' = p' mod 65536 - p mod 65536 /\ p' / 65536 = p / 65536) \/
  (p' mod 65536 < p mod 65536 /\ counted p p' = 65535 - p mod 65536 + p' mod 65536 /\ p' / 65536 = p / 65536 + 1 /\ counted p p' = p' - p - 1).
Proof.
  intros M R. unfold counted.
  pose proof (Z.div_mod p 65536 ltac:(lia)). pose proof (Z.div_mod p' 65536 ltac:(lia)).
  pose proof (Z.mod_pos_bound p 65536 ltac:(lia)). pose proof (Z.mod_pos_bound p' 65536 ltac:(lia)).
  assert (p' / 65536 = p / 65536 \/ p' / 65536 = p / 65536 + 1) as [E|E] by lia; [left|right]; rewrite ?E; lia.
Qed.
Lemma counted_pos p p' : p <= p' -> 0 <= counted p p'.
Proof.
  intros R. unfold counted. pose proof (Z.div_mod p 65536 ltac:(lia)). pose proof (Z.div_mod p' 65536 ltac:(lia)).
  pose proof (Z.mod_pos_bound p 65536 ltac:(lia)). pose proof (Z.mod_pos_bound p' 65536 ltac:(lia)).
  assert (p / 65536 <= p' / 65536) by (apply Z.div_le_mono; lia). lia.
Qed.
Lemma counted_add p q r : counted p q + counted q r = counted p r.
Proof. unfold counted. lia. Qed.
Lemma counted_le m p p' : 0 <= m < 65536 -> p <= p' <= p + m -> 0 <= counted p p' <= m.
Proof.
  intros M R. pose proof (counted_pos p p' (proj1 R)). destruct (counted_cases m p p' M R) as [(A & B & C)|(A & B & C & D)]; unfold counted in *; lia.
Qed.
Lemma counted_refl p : counted p p = 0.
Proof. unfold counted. lia. Qed.

Lemma small_mod p : - 2 ^ 24 < p mod 65536 < 2 ^ 24.
Proof. pose proof (Z.mod_pos_bound p 65536 ltac:(lia)). lia. Qed.

(** The difference of a cycle. *)
Lemma zero_lt d : - 2 ^ 24 < d < 2 ^ 24 -> f_lt 0 (f_of_Z d) = (0 <? d).
Proof. intros D. change 0 with (f_of_Z 0) at 1. apply of_Z_lt; [lia|exact D]. Qed.
Lemma max_pulses k : k <> Iol -> max_raw k = f_of_Z 65535.
Proof. destruct k; [reflexivity|reflexivity|congruence]. Qed.
Lemma calc_up k a b v : 0 <= a <= b -> b < 65536 ->
  calc k (f_of_Z b) v (f_of_Z a) false = (f_of_Z (b - a), ((if 0 <? b - a then f_add v (f_of_Z (b - a)) else v), f_of_Z b, false)).
Proof.
  intros A B. unfold calc. rewrite (of_Z_lt b a) by lia. rewrite (proj2 (Z.ltb_ge b a)) by lia. cbv iota zeta.
  rewrite (sub_int b a) by lia. rewrite (zero_lt (b - a)) by lia. reflexivity.
Qed.
Lemma calc_over k a b v d : k <> Iol -> 0 <= b < a -> a < 65536 -> d = 65535 - a + b -> d <= 300 ->
  calc k (f_of_Z b) v (f_of_Z a) false = (f_of_Z d, ((if 0 <? d then f_add v (f_of_Z d) else v), f_of_Z b, false)).
Proof.
  intros K A B D E. unfold calc. rewrite (max_pulses k K), (of_Z_lt b a) by lia. rewrite (proj2 (Z.ltb_lt b a)) by lia. cbv iota zeta.
  rewrite (sub_int 65535 a), (add_int (65535 - a) b), <- D, (of_Z_lt 300 d) by lia. rewrite (proj2 (Z.ltb_ge 300 d)) by lia. cbn [andb].
  rewrite (zero_lt d) by lia. reflexivity.
Qed.
Lemma calc_delta k p p' v : k <> Iol -> p <= p' <= p + 301 ->
  calc k (shown p') v (shown p) false =
  (f_of_Z (counted p p'), ((if 0 <? counted p p' then f_add v (f_of_Z (counted p p')) else v), shown p', false)).
Proof.
  intros K R. unfold shown.
  pose proof (Z.mod_pos_bound p 65536 ltac:(lia)) as M1. pose proof (Z.mod_pos_bound p' 65536 ltac:(lia)) as M2.
  destruct (counted_cases 301 p p' ltac:(lia) R) as [(A & B & C)|(A & B & C & D)].
  - rewrite B. apply calc_up; [exact (conj (proj1 M1) A)|exact (proj2 M2)].
  - apply calc_over; [exact K|exact (conj (proj1 M2) A)|exact (proj2 M1)|exact B|]. rewrite D. clear - R. lia.
Qed.
Lemma calc_total k p p' v : k <> Iol -> p <= p' <= p + 301 -> 0 <= v < 2 ^ 24 ->
  calc k (shown p') (f_of_Z v) (shown p) false =
  (f_of_Z (counted p p'), (f_of_Z (v + counted p p'), shown p', false)).
Proof.
  intros K R V. rewrite calc_delta by assumption. pose proof (counted_le 301 p p' ltac:(lia) R) as CL.
  destruct (Z.ltb_spec 0 (counted p p')) as [L|L].
  - rewrite add_int by lia. reflexivity.
  - assert (E : counted p p' = 0) by lia. rewrite E, Z.add_0_r. reflexivity.
Qed.
(** A reading that went back. *)
Lemma calc_back k a b v : k <> Iol -> 0 <= b < a -> a < 65535 -> 300 < 65535 - a + b -> 0 <= v < 2 ^ 24 ->
  calc k (f_of_Z b) (f_of_Z v) (f_of_Z a) false = (f_of_Z b, (f_of_Z (v + b), f_of_Z b, false)).
Proof.
  intros K B A D V. unfold calc. rewrite (max_pulses k K), (of_Z_lt b a) by lia. rewrite (proj2 (Z.ltb_lt b a)) by lia. cbv iota zeta.
  rewrite (sub_int 65535 a), (add_int (65535 - a) b), (of_Z_lt 300 (65535 - a + b)), (of_Z_lt b (65535 - a + b)) by lia.
  rewrite (proj2 (Z.ltb_lt 300 (65535 - a + b))) by lia. rewrite (proj2 (Z.ltb_lt b (65535 - a + b))) by lia. cbn [andb].
  rewrite (zero_lt b) by lia. destruct (Z.ltb_spec 0 b) as [L|L].
  - rewrite (add_int v b) by lia. reflexivity.
  - assert (b = 0) by lia. subst b. rewrite Z.add_0_r. reflexivity.
Qed.

(** * The parts of a counter that calls leave alone *)

Definition abs_part (c : ctr) := (a_val c, a_last c, a_first c).
Definition val_part (c : ctr) := (c_val c, c_last c, c_first c).
Definition day_part (c : ctr) := (d1_on c, d1 c, yd1 c, (d2_on c, d2 c, yd2 c), day c).

Lemma get_state_parts w k i c st c' : get_state w k i c = Some (st, c') ->
  abs_part c' = abs_part c /\ val_part c' = val_part c /\ day_part c' = day_part c.
Proof.
  unfold get_state, base_state. destruct (chan_error k i); [intros [= <- <-]; repeat split|].
  destruct (flowing k i); [|intros [= <- <-]; repeat split]. destruct (abs_quantity k c); [|discriminate].
  repeat match goal with |- context [if ?x then _ else _] => destruct x end; intros [= <- <-]; repeat split.
Qed.
Lemma cycle_parts w k i c c' : cycle w k i c = Some c' -> exists st c1, get_state w k i c = Some (st, c1) /\
  let a := calc k (i_raw i) (a_val c) (a_last c) (a_first c) in
  let r := snd (calc k (i_raw i) (c_val c) (c_last c) (c_first c)) in
  let v1 := if d1_on c then f_add (d1 c) (fst a) else d1 c in
  let v2 := if d2_on c then f_add (d2 c) (fst a) else d2 c in
  abs_part c' = (fst (fst (snd a)), snd (fst (snd a)), snd (snd a)) /\
  val_part c' = (if st =? S_WORK then (fst (fst r), snd (fst r), snd r) else val_part c) /\
  c_st c' = c_st c1 /\ t_pump c' = t_pump c1 /\ prev_q c' = prev_q c1 /\
  day_part c' = (if day c =? i_yday i then (d1_on c, v1, yd1 c, (d2_on c, v2, yd2 c), day c)
                 else (d1_on c, 0, v1, (d2_on c, 0, v2), i_yday i)).
Proof.
  unfold cycle. destruct (get_state w k i c) as [[st c1]|] eqn:G; [|discriminate]. intros H. exists st, c1. split; [reflexivity|].
  destruct (get_state_parts w k i c st c1 G) as (A & B & D).
  unfold abs_part, val_part, day_part in A, B, D. injection A as A1 A2 A3. injection B as B1 B2 B3. injection D as D1 D2 D3 D4 D5 D6 D7.
  revert H. cbv zeta.
  destruct (st =? S_WORK); unfold set_val, set_abs, set_days;
    cbn [a_val a_last a_first c_val c_last c_first d1_on d1 yd1 d2_on d2 yd2 day c_st t_pump prev_q];
    rewrite A1, A2, A3, B1, B2, B3, D1, D2, D3, D4, D5, D6, D7;
    (destruct (day c =? i_yday i)); intros [= <-]; unfold abs_part, val_part, day_part;
    cbn [a_val a_last a_first c_val c_last c_first d1_on d1 yd1 d2_on d2 yd2 day c_st t_pump prev_q]; rewrite ?A1, ?A2, ?A3, ?B1, ?B2, ?B3, ?D1, ?D2, ?D3, ?D4, ?D5, ?D6, ?D7; repeat split.
Qed.
Lemma other_parts w k x c c' : (forall i, x <> Cycle i) -> ctr_step w k c x = Some c' ->
  (keeps_total x -> abs_part c' = abs_part c) /\ (keeps_days x -> day_part c' = day_part c).
Proof.
  intros N. destruct x; cbn [ctr_step keeps_total keeps_days].
  - exfalso. apply (N i). reflexivity.
  - destruct (get_state w k i c) as [[st c1]|] eqn:G; [|discriminate]. intros [= <-].
    destruct (get_state_parts w k i c st c1 G) as (A & B & D). split; intros _; assumption.
  - destruct (quantity k c); [|discriminate]. intros [= <-]. split; reflexivity.
  - unfold c_start. repeat match goal with |- context [if ?x then _ else _] => destruct x end; intros [= <-]; split; reflexivity.
  - intros [= <-]. split; reflexivity.
  - intros [= <-]. split; [contradiction|reflexivity].
  - unfold c_start. repeat match goal with |- context [if ?x then _ else _] => destruct x end; intros [= <-]; split; reflexivity.
  - unfold c_start. destruct (n =? S_WORK); [|destruct (n =? S_PAUSE); [destruct (quantity k c); [|discriminate]|]];
      repeat match goal with |- context [if ?x then _ else _] => destruct x end; intros [= <-]; split; reflexivity.
  - intros [= <-]. split; reflexivity.
  - intros [= <-]. split; [contradiction|reflexivity].
  - intros [= <-]. split; [reflexivity|contradiction].
  - destruct (n =? 1); intros [= <-]; (split; [reflexivity|contradiction]).
  - destruct (n =? 1); intros [= <-]; (split; [reflexivity|contradiction]).
Qed.

Lemma fed_le m p l q : fed m p l q -> p <= q.
Proof. induction 1; lia. Qed.

(** * The total *)

Section TOTAL.
Variables (w : Z) (k : ckind).
Hypothesis K : k <> Iol.

Lemma total_run p l q : fed 301 p l q -> Forall keeps_total l -> forall c c' v,
  abs_part c = (f_of_Z v, shown p, false) -> 0 <= v -> v + counted p q < 2 ^ 24 ->
  ctr_run w k c l = Some c' -> abs_part c' = (f_of_Z (v + counted p q), shown q, false).
Proof.
  induction 1 as [p|p p' q i l R I F IH|p q x l N F IH]; intros T c c' v A V U H; cbn [ctr_run] in H.
  - injection H as <-. rewrite counted_refl, Z.add_0_r. exact A.
  - inversion T as [|? ? T1 T2]; subst. cbn [ctr_step] in H. destruct (cycle w k i c) as [c1|] eqn:Y; [|discriminate].
    destruct (cycle_parts w k i c c1 Y) as (st & c0 & _ & P & _). cbv zeta in P.
    unfold abs_part in A. injection A as A1 A2 A3. rewrite A1, A2, A3, I in P.
    pose proof (counted_add p p' q) as CA. pose proof (counted_pos p' q (fed_le _ _ _ _ F)) as CP. pose proof (counted_pos p p' (proj1 R)) as CP2.
    rewrite calc_total in P by (try assumption; lia). cbn [fst snd] in P.
    rewrite <- CA, Z.add_assoc. apply (IH T2 c1); [exact P|lia|lia|exact H].
  - inversion T as [|? ? T1 T2]; subst. destruct (ctr_step w k c x) as [c1|] eqn:Y; [|discriminate].
    destruct (other_parts w k x c c1 N Y) as (P & _). apply (IH T2 c1); [rewrite (P T1); exact A|exact V|exact U|exact H].
Qed.
Lemma zero_run l : forall c c', Forall keeps_total l -> Forall reads_zero l -> abs_part c = (0, 0, true) ->
  ctr_run w k c l = Some c' -> abs_part c' = (0, 0, true).
Proof.
  induction l as [|x l IH]; intros c c' T Z0 A H; cbn [ctr_run] in H; [injection H as <-; exact A|].
  inversion T as [|? ? T1 T2]; subst. inversion Z0 as [|? ? Z1 Z2]; subst.
  destruct (ctr_step w k c x) as [c1|] eqn:Y; [|discriminate]. apply (IH c1); try assumption.
  assert (D : (exists i, x = Cycle i) \/ forall i, x <> Cycle i) by (destruct x; try (right; discriminate); left; eexists; reflexivity).
  destruct D as [(i & ->)|D].
  - cbn [ctr_step reads_zero] in *. destruct (cycle_parts w k i c c1 Y) as (st & c0 & _ & P & _). cbv zeta in P.
    unfold abs_part in A. injection A as A1 A2 A3. rewrite A1, A2, A3, Z1 in P. exact P.
  - destruct (other_parts w k x c c1 D Y) as (P & _). rewrite (P T1). exact A.
Qed.
Lemma run_app l1 : forall c l2, ctr_run w k c (l1 ++ l2) = match ctr_run w k c l1 with None => None | Some c1 => ctr_run w k c1 l2 end.
Proof.
  induction l1 as [|x l1 IH]; intros c l2; cbn [app ctr_run]; [reflexivity|]. destruct (ctr_step w k c x); [apply IH|reflexivity].
Qed.
Lemma first_cycle i c c' p : abs_part c = (0, 0, true) -> i_raw i = shown p -> p mod 65536 <> 0 -> cycle w k i c = Some c' ->
  abs_part c' = (f_of_Z 0, shown p, false).
Proof.
  intros A I N Y. destruct (cycle_parts w k i c c' Y) as (st & c0 & _ & P & _). cbv zeta in P.
  unfold abs_part in A. injection A as A1 A2 A3. rewrite A1, A2, A3, I in P. revert P. unfold calc, shown.
  assert (X : f_eq (f_of_Z (p mod 65536)) 0 = false).
  { change 0 with (f_of_Z 0) at 1. rewrite (of_Z_eq (p mod 65536) 0 (small_mod p) ltac:(lia)). exact (proj2 (Z.eqb_neq _ _) N). }
  rewrite X. cbn [fst snd]. intros P. exact P.
Qed.
Lemma total_new y l0 i p l q c' : Forall keeps_total (l0 ++ Cycle i :: l) -> Forall reads_zero l0 ->
  i_raw i = shown p -> p mod 65536 <> 0 -> fed 301 p l q -> counted p q < 2 ^ 24 ->
  ctr_run w k (new_ctr y) (l0 ++ Cycle i :: l) = Some c' -> abs_quantity k c' = Some (counted p q).
Proof.
  intros T Z0 I N F U H. apply Forall_app in T. destruct T as (T1 & T2). inversion T2 as [|? ? _ T3]; subst.
  rewrite run_app in H. destruct (ctr_run w k (new_ctr y) l0) as [c1|] eqn:R; [|discriminate].
  pose proof (zero_run l0 (new_ctr y) c1 T1 Z0 eq_refl R) as A. cbn [ctr_run ctr_step] in H.
  destruct (cycle w k i c1) as [c2|] eqn:Y; [|discriminate]. pose proof (first_cycle i c1 c2 p A I N Y) as B.
  pose proof (total_run p l q F T3 c2 c' 0 B ltac:(lia) ltac:(lia) H) as E. rewrite Z.add_0_l in E.
  unfold abs_quantity. injection E as E _ _. rewrite E. pose proof (counted_pos p q (fed_le _ _ _ _ F)).
  destruct k; try congruence; apply to_u32_int; lia.
Qed.

(** * The ceiling *)

Lemma calc_slow p p' v : p <= p' <= p + 1 -> 0 <= v <= 2 ^ 24 ->
  calc k (shown p') (f_of_Z v) (shown p) false =
  (f_of_Z (counted p p'), (f_of_Z (Z.min (2 ^ 24) (v + counted p p')), shown p', false)).
Proof.
  intros R V. rewrite calc_delta by (try assumption; lia). pose proof (counted_le 1 p p' ltac:(lia) R) as CL.
  destruct (Z.ltb_spec 0 (counted p p')) as [L|L].
  - assert (E : counted p p' = 1) by lia. rewrite E. destruct (Z.eq_dec v (2 ^ 24)) as [->|NE].
    + reflexivity.
    + rewrite add_int by lia. rewrite Z.min_r by lia. reflexivity.
  - assert (E : counted p p' = 0) by lia. rewrite E, Z.add_0_r, Z.min_r by lia. reflexivity.
Qed.
Lemma slow_run p l q : fed 1 p l q -> Forall keeps_total l -> forall c c' v,
  abs_part c = (f_of_Z v, shown p, false) -> 0 <= v <= 2 ^ 24 ->
  ctr_run w k c l = Some c' -> abs_part c' = (f_of_Z (Z.min (2 ^ 24) (v + counted p q)), shown q, false).
Proof.
  induction 1 as [p|p p' q i l R I F IH|p q x l N F IH]; intros T c c' v A V H; cbn [ctr_run] in H.
  - injection H as <-. rewrite counted_refl, Z.add_0_r, Z.min_r by lia. exact A.
  - inversion T as [|? ? T1 T2]; subst. cbn [ctr_step] in H. destruct (cycle w k i c) as [c1|] eqn:Y; [|discriminate].
    destruct (cycle_parts w k i c c1 Y) as (st & c0 & _ & P & _). cbv zeta in P.
    unfold abs_part in A. injection A as A1 A2 A3. rewrite A1, A2, A3, I in P.
    pose proof (counted_add p p' q) as CA. pose proof (counted_pos p' q (fed_le _ _ _ _ F)) as CP. pose proof (counted_pos p p' (proj1 R)) as CP2.
    rewrite calc_slow in P by (try assumption; lia). cbn [fst snd] in P.
    replace (Z.min (2 ^ 24) (v + counted p q)) with (Z.min (2 ^ 24) (Z.min (2 ^ 24) (v + counted p p') + counted p' q)) by lia.
    apply (IH T2 c1); [exact P|lia|exact H].
  - inversion T as [|? ? T1 T2]; subst. destruct (ctr_step w k c x) as [c1|] eqn:Y; [|discriminate].
    destruct (other_parts w k x c c1 N Y) as (P & _). apply (IH T2 c1); [rewrite (P T1); exact A|exact V|exact H].
Qed.
Lemma slow_quantity c v : 0 <= v <= 2 ^ 24 -> a_val c = f_of_Z v -> abs_quantity k c = Some v.
Proof.
  intros V E. unfold abs_quantity. assert (X : f_to_u32 (f_of_Z v) = Some v).
  { destruct (Z.eq_dec v (2 ^ 24)) as [->|]; [vm_compute; reflexivity|apply to_u32_int; lia]. }
  destruct k; rewrite ?E; try exact X. congruence.
Qed.

(** * Days *)

Lemma day_run p l q : fed 301 p l q -> Forall keeps_total l -> Forall keeps_days l -> forall y c c' d v, Forall (on_day y) l ->
  abs_part c = (v, shown p, false) -> day_part c = (true, f_of_Z d, yd1 c, (d2_on c, d2 c, yd2 c), y) ->
  0 <= d -> d + counted p q < 2 ^ 24 -> ctr_run w k c l = Some c' ->
  (exists v', abs_part c' = (v', shown q, false)) /\ day_part c' = (true, f_of_Z (d + counted p q), yd1 c, (d2_on c, d2 c', yd2 c), y).
Proof.
  induction 1 as [p|p p' q i l R I F IH|p q x l N F IH]; intros T TD y c c' d v OD A D V U H; cbn [ctr_run] in H.
  - injection H as <-. rewrite counted_refl, Z.add_0_r. split; [eexists; exact A|exact D].
  - inversion T as [|? ? T1 T2]; subst. inversion TD as [|? ? TD1 TD2]; subst. inversion OD as [|? ? O1 O2]; subst. cbn [ctr_step on_day] in H, O1.
    destruct (cycle w k i c) as [c1|] eqn:Y; [|discriminate].
    destruct (cycle_parts w k i c c1 Y) as (st & c0 & _ & P & _ & _ & _ & _ & PD). cbv zeta in P, PD.
    unfold abs_part in A. injection A as A1 A2 A3. unfold day_part in D. injection D as D1 D2 D3. rewrite A1, A2, A3, I in P, PD.
    pose proof (counted_add p p' q) as CA. pose proof (counted_pos p' q (fed_le _ _ _ _ F)) as CP. pose proof (counted_le 301 p p' ltac:(lia) R) as CP2.
    rewrite calc_delta in P, PD by assumption. cbn [fst snd] in P, PD. rewrite D1, D2, D3, O1, Z.eqb_refl, add_int in PD by lia.
    assert (E : yd1 c1 = yd1 c /\ d2_on c1 = d2_on c /\ yd2 c1 = yd2 c) by (unfold day_part in PD; injection PD as _ _ E1 E2 _ E3 _; auto).
    destruct E as (E1 & E2 & E3).
    assert (PD' : day_part c1 = (true, f_of_Z (d + counted p p'), yd1 c1, (d2_on c1, d2 c1, yd2 c1), y)).
    { unfold day_part in *. injection PD as X1 X2 X3 X4 X5 X6 X7. rewrite X1, X2, X7. reflexivity. }
    rewrite <- E1, <- E2, <- E3. rewrite <- CA, Z.add_assoc. apply (IH T2 TD2 y c1 c' (d + counted p p') _ O2 P PD'); [lia|lia|exact H].
  - inversion T as [|? ? T1 T2]; subst. inversion TD as [|? ? TD1 TD2]; subst. inversion OD as [|? ? O1 O2]; subst.
    destruct (ctr_step w k c x) as [c1|] eqn:Y; [|discriminate].
    destruct (other_parts w k x c c1 N Y) as (P & PD). specialize (P T1). specialize (PD TD1).
    assert (E : yd1 c1 = yd1 c /\ d2_on c1 = d2_on c /\ yd2 c1 = yd2 c) by (unfold day_part in PD; injection PD as _ _ E1 E2 _ E3 _; auto).
    destruct E as (E1 & E2 & E3). rewrite <- E1, <- E2, <- E3. apply (IH T2 TD2 y c1 c' d v O2); [rewrite P; exact A| |exact V|exact U|exact H].
    rewrite PD. unfold day_part in *. injection D as X1 X2 X3. injection PD as _ _ _ _ X4 _ _. rewrite X1, X2, X3, E1, E2, E3, X4. reflexivity.
Qed.
Lemma new_day i c c' p p' d v y : abs_part c = (v, shown p, false) -> d1_on c = true -> d1 c = f_of_Z d -> day c = y ->
  p <= p' <= p + 301 -> i_raw i = shown p' -> i_yday i <> y -> 0 <= d < 2 ^ 24 -> cycle w k i c = Some c' ->
  yd1 c' = f_of_Z (d + counted p p') /\ d1 c' = f_of_Z 0 /\ day c' = i_yday i /\ d1_on c' = true /\ exists v', abs_part c' = (v', shown p', false).
Proof.
  intros A O D DY R I N V Y. destruct (cycle_parts w k i c c' Y) as (st & c0 & _ & P & _ & _ & _ & _ & PD). cbv zeta in P, PD.
  unfold abs_part in A. injection A as A1 A2 A3. rewrite A1, A2, A3, I in P, PD. pose proof (counted_le 301 p p' ltac:(lia) R).
  rewrite calc_delta in P, PD by assumption. cbn [fst snd] in P, PD. rewrite DY in PD. rewrite (proj2 (Z.eqb_neq y (i_yday i))) in PD by congruence.
  rewrite O, D, add_int in PD by lia. unfold day_part in PD. injection PD as X1 X2 X3 X4 X5 X6 X7. repeat split; try assumption. eexists. exact P.
Qed.
End TOTAL.
