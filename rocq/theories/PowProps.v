(** C115, C116 and C117: power units and circuit breakers with IO-Link. *)
From Coq Require Import ZArith List Bool Lia QArith Qabs.
From Verif Require Import Base TimeModel FTextModel FloatModel PowModel PowSpec PowProofs.
Import ListNotations.
Open Scope Z_scope.

(** * C115: orders of a power unit *)

(** Orders given after a cycle in which no order was in progress: until 1 s after the last of them the outputs hold what
    the unit reported in that cycle, changed by the orders, and the unit is told to take it from 300 ms after the last. *)
Theorem C115_command : forall w t0 h i0 cs js i t s,
  0 <= t0 -> timely w t0 ((h ++ [Cycle i0]) ++ cs ++ map Cycle (js ++ [i])) ->
  run w new_pu ((h ++ [Cycle i0]) ++ cs ++ map Cycle (js ++ [i])) = Some s ->
  ok i0 = true -> in_progress (h ++ [Cycle i0]) = None ->
  Forall (fun e => order_time (manual h) e <> None) cs -> in_progress ((h ++ [Cycle i0]) ++ cs) = Some t ->
  Forall (fun j => ok j = true) (js ++ [i]) -> now i - t <= 1000 ->
  take (sent s) = (300 <? now i - t) /\
  forall c, 1 <= c <= 8 -> switch (sent s) c = fold_left (order_sw c) cs (is_on (bytes i0) c) /\
                          rated (sent s) c = fold_left (order_nm c) cs (current (bytes i0) c).
Proof. exact command. Qed.
Print Assumptions C115_command.

(** Otherwise the outputs repeat the inputs and the unit is told nothing. *)
Theorem C115_idle : forall w t0 h i s,
  0 <= t0 -> timely w t0 (h ++ [Cycle i]) -> run w new_pu (h ++ [Cycle i]) = Some s -> ok i = true ->
  in_progress (h ++ [Cycle i]) = None -> echo (sent s) (bytes i).
Proof. intros w t0 h i s H0 T R K N. unfold sent. destruct (idle_state w t0 h i s H0 T R K N) as (-> & _). apply sync_echo. Qed.
Print Assumptions C115_idle.

(** The unit is told to take the outputs only while an order is in progress; [set_state] of the program is no order. *)
Theorem C115_only : forall w t0 l s,
  0 <= t0 -> timely w t0 l -> run w new_pu l = Some s -> take (sent s) = true -> in_progress l <> None.
Proof.
  intros w t0 l s H0 T R K. unfold sent in K. rewrite take_out in K.
  apply (run_calm w l new_pu (false, None) t0 s (inv_new t0 H0) (conj eq_refl (fun H => match Bool.diff_false_true H with end)) T R). exact K.
Qed.
Print Assumptions C115_only.

(** Orders repeated so that no cycle comes more than 300 ms after the order before it are never executed, however long. *)
Theorem C115_repeated : forall w t0 h i0 e t l s,
  0 <= t0 -> timely w t0 ((h ++ [Cycle i0]) ++ e :: l) -> run w new_pu ((h ++ [Cycle i0]) ++ e :: l) = Some s ->
  ok i0 = true -> in_progress (h ++ [Cycle i0]) = None -> manual h = false -> order_time false e = Some t -> hasty t l ->
  take (sent s) = false.
Proof.
  intros w t0 h i0 e t l s H0 T R K N M OT H. unfold sent. rewrite take_out.
  rewrite run_app in R. destruct (run w new_pu (h ++ [Cycle i0])) as [s1|] eqn:E1; [|discriminate].
  destruct (timely_app w (h ++ [Cycle i0]) _ _ T) as (T1 & T2).
  destruct (idle_state w t0 h i0 s1 H0 T1 E1 K N) as (A1 & A2).
  pose proof (history w t0 _ s1 H0 T1 E1) as I1.
  pose proof (run_calm w _ new_pu (false, None) t0 s1 (inv_new t0 H0) (conj eq_refl (fun H => match Bool.diff_false_true H with end)) T1 E1) as (C1 & _).
  assert (M1 : man s1 = false).
  { rewrite (i_man _ _ _ I1). unfold manual, past_of in *. rewrite fold_app_note. cbn [fold_left]. destruct (fold_left note h (false, None)). exact M. }
  cbn [run] in R. destruct (step w s1 e) as [s2|] eqn:E2; [|discriminate].
  assert (NC : forall i, e <> Cycle i) by (intros i ->; discriminate).
  destruct (step_order w s1 e s2 t E2 ltac:(rewrite M1; exact OT) NC) as (f & -> & F1 & _).
  destruct (timely_cons w _ e l T2) as (TA & TB).
  assert (AT : after (last_t t0 (h ++ [Cycle i0])) e = t).
  { unfold after. clear - OT. destruct e; cbn in OT; try discriminate; injection OT as <-; reflexivity. }
  rewrite AT in *. pose proof (i_pos _ _ _ I1) as P0.
  refine (run_hasty w l (order t f s1) t s eq_refl eq_refl _ M1 _ _ TB H R).
  - clear - P0 TA. lia.
  - cbn [order area]. rewrite A2, F1, A1. reflexivity.
  - cbn [order stub]. rewrite A2. exact C1.
Qed.
Print Assumptions C115_repeated.

(** An order given before the first cycle is lost, and the first frame the unit is told to take switches everything off,
    with nominal currents 0. *)
Theorem C115_early : forall w t0 l i t s,
  0 <= t0 -> timely w t0 (l ++ [Cycle i]) -> Forall (fun e => forall j, e <> Cycle j) l -> run w new_pu (l ++ [Cycle i]) = Some s ->
  in_progress l = Some t -> ok i = true -> 300 < now i - t <= 1000 ->
  take (sent s) = true /\ forall c, 1 <= c <= 8 -> switch (sent s) c = false /\ rated (sent s) c = 0.
Proof.
  intros w t0 l i t s H0 T F R P K L.
  destruct (timely_app w l _ _ T) as (T1 & T2). rewrite run_app in R. destruct (run w new_pu l) as [s1|] eqn:E1; [|discriminate].
  pose proof (history w t0 _ s1 H0 T1 E1) as [I1 I2 I3 I4 I5]. destruct (run_early w l new_pu s1 eq_refl F E1) as (A1 & A2).
  unfold in_progress in P. rewrite P in I2, I3. cbn [run step] in R. injection R as <-. unfold sent, evaluate. rewrite K, I2.
  destruct I3 as (E & B). rewrite E, delta_ge by (clear - L B I5; lia). replace (300 <? now i - t) with true by (clear - L; lia). replace (1000 <? now i - t) with false by (clear - L; lia).
  cbn [area]. rewrite A1. split; [reflexivity|]. apply eight; split; reflexivity.
Qed.
Print Assumptions C115_early.

(** The orders of an operator: channel 3 on, its nominal current 4; before, channel 1 is on (byte 4 = 64) and the
    nominal currents of channels 1 and 2 are 2 and 5. *)
Definition ins (b : list Z) : Z -> Z := fun n => nth (Z.to_nat n) b 0.
Definition rep := ins [0; 0; 1; 7; 64; 0; 21; 0; 0; 0].
Definition cyc (n : Z) : ev := Cycle {| now := n; bytes := rep; ok := true |}.
Definition show (o : option pus) : list Z := match o with None => [] | Some s => map (sent s) [0; 1; 2; 3; 4; 5; 6] end.
Example C115_at_400 : show (run 32 new_pu [cyc 0; cyc 100; CmdCh 120 3 1; CmdNom 150 3 4; cyc 200; cyc 400]) = [0; 21; 32; 0; 0; 0; 160].
Proof. reflexivity. Qed.
Example C115_at_500 : show (run 32 new_pu [cyc 0; cyc 100; CmdCh 120 3 1; CmdNom 150 3 4; cyc 200; cyc 500]) = [128; 21; 32; 0; 0; 0; 160].
Proof. reflexivity. Qed.
Example C115_at_1200 : show (run 32 new_pu [cyc 0; cyc 100; CmdCh 120 3 1; CmdNom 150 3 4; cyc 200; cyc 500; cyc 1200]) = [0; 21; 0; 0; 0; 0; 128].
Proof. reflexivity. Qed.
(** A program that calls [on] in every cycle, every 100 ms: never executed. *)
Example C115_each_cycle : show (run 32 new_pu [cyc 0; On 50; cyc 100; On 150; cyc 200; On 250; cyc 300; On 350; cyc 400; On 450; cyc 500; On 550; cyc 600]) = [0; 21; 0; 0; 0; 0; 255].
Proof. reflexivity. Qed.
Example C115_early_on : show (run 32 new_pu [On 10; cyc 400]) = [128; 0; 0; 0; 0; 0; 0].
Proof. reflexivity. Qed.

(** A channel that is off when the unit takes the outputs and that no order switches on is not switched on: not so. *)
Theorem C115_stale_refuted : ~ (forall w t0 l i s c,
  0 <= t0 -> timely w t0 (l ++ [Cycle i]) -> run w new_pu (l ++ [Cycle i]) = Some s -> take (sent s) = true -> 1 <= c <= 8 ->
  Forall (fun e => forall x, order_sw c x e = x) l -> is_on (bytes i) c = false -> switch (sent s) c = false).
Proof.
  intros H.
  specialize (H 32 0 [cyc 0; CmdCh 100 3 1] {| now := 500; bytes := ins []; ok := true |}).
  specialize (H _ 1 ltac:(lia) ltac:(cbn; lia) eq_refl eq_refl ltac:(lia)).
  discriminate H; [|reflexivity]. constructor; [reflexivity|]. constructor; [reflexivity|constructor].
Qed.
Print Assumptions C115_stale_refuted.
(** An order to a unit whose port works again is executed at last: not if the port was away for 1 s. *)
Theorem C115_lost_refuted : ~ (forall w t0 l s t,
  0 <= t0 -> timely w t0 l -> run w new_pu l = Some s -> In (On t) l -> manual l = false ->
  (exists i, In (Cycle i) l /\ ok i = true /\ now i - t > 300) ->
  exists l1 l2 s1, l = l1 ++ l2 /\ run w new_pu l1 = Some s1 /\ take (sent s1) = true).
Proof.
  intros H.
  specialize (H 32 0 [cyc 0; On 100; Cycle {| now := 200; bytes := ins []; ok := false |}; cyc 1200] _ 100 ltac:(lia) ltac:(cbn; lia) eq_refl).
  destruct H as (l1 & l2 & s1 & E & R & T); [right; left; reflexivity|reflexivity| |].
  - exists {| now := 1200; bytes := rep; ok := true |}. split; [do 3 right; left; reflexivity|]. cbn. split; [reflexivity|lia].
  - destruct l1 as [|a [|b [|c [|d [|e l1]]]]]; cbn [app] in E; inversion E; subst; cbn in R; injection R as <-; discriminate T.
Qed.
Print Assumptions C115_lost_refuted.

(** What a history does is defined exactly if the commands of channels have numbers that fit a byte with sign. *)
Theorem C115_defined : forall w l,
  run w new_pu l <> None <-> (forall t c v, In (CmdCh t c v) l \/ In (CmdNom t c v) l -> - 128 <= v <= 127).
Proof.
  intros w l. generalize new_pu. induction l as [|e l IH]; intros s; [split; [intros _ t c v [[]|[]]|discriminate]|]. cbn [run].
  assert (C : step w s e <> None <-> (forall t c v, e = CmdCh t c v \/ e = CmdNom t c v -> - 128 <= v <= 127)).
  { destruct e as [i|t|t|t n|t n|t c v|t c v|n]; cbn [step]; try (split; [intros _ ? ? ? [X|X]; discriminate X|discriminate]);
      unfold to_byte; destruct ((-128 <=? v) && (v <=? 127)) eqn:E; (split; [intros N ? ? ? [X|X]; try discriminate X; injection X as <- <- <-; lia || (exfalso; apply N; reflexivity)|intros H; try discriminate]);
      specialize (H t c v); rewrite andb_false_iff in E; [specialize (H (or_introl eq_refl))|specialize (H (or_intror eq_refl))]; lia. }
  destruct (step w s e) as [s'|].
  - rewrite (IH s'). split; intros H t c v.
    + intros [[X|I]|[X|I]]; [|apply (H t c v); auto| |apply (H t c v); auto]; apply (proj1 C ltac:(discriminate) t c v); auto.
    + intros [I|I]; apply (H t c v); [left|right]; right; exact I.
  - split; [congruence|]. intros H. exfalso. apply (proj2 C); [|reflexivity]. intros t c v [X|X]; apply (H t c v); [left|right]; left; exact X.
Qed.
Print Assumptions C115_defined.
Example C115_undefined : run 32 new_pu [cyc 0; CmdNom 150 3 128] = None /\ run 32 new_pu [cyc 0; CmdCh 150 3 (-129)] = None /\ run 32 new_pu [cyc 0; CmdNom 150 3 127] <> None.
Proof. repeat split; discriminate. Qed.

(** * C116: circuit breakers *)

(** An order for all channels, the port working: all switches, sent with the bit that makes the breaker take them, until
    the next order, as long as the port works; nominal currents stay. *)
Theorem C116_all : forall h e b l, s_ok (seen h) = true -> br_all (s_man (seen h)) e = Some b -> Forall steady l ->
  let f := c_sent (c_run new_cb (h ++ e :: l)) in
  br_take f = true /\ forall c, 1 <= c <= 4 -> br_switch f c = b /\ br_rated f c = br_rated (c_sent (c_run new_cb h)) c.
Proof.
  intros h e b l K B F f. pose proof (c_history h) as [K1 K2 K3 K4 K5]. rewrite <- K1 in B.
  assert (RO : c_att (c_run new_cb h) = true).
  { rewrite K2. clear - K. unfold seen in *. assert (G : forall l p, (s_ok p = true -> s_run p = true) -> s_ok (fold_left see l p) = true -> s_run (fold_left see l p) = true).
    { clear. induction l as [|e l IH]; intros p P; [exact P|]. cbn [fold_left]. apply IH. destruct e; cbn; auto. }
    apply (G h); [discriminate|exact K]. }
  subst f. rewrite c_run_app. change (c_run (c_run new_cb h) (e :: l)) with (c_run (c_step (c_run new_cb h) e) l). unfold c_sent.
  rewrite (c_step_all _ e b B), c_steady; [|cbn; congruence|exact F]. cbn [c_order c_area]. rewrite RO. rewrite br_take_out. split; [reflexivity|].
  intros c C. rewrite br_switch_out, !br_rated_out by (assumption || (apply c_all_fits; assumption)). split; reflexivity.
Qed.
Print Assumptions C116_all.

(** An order for one channel changes the switch of this channel only; of none, if the channel does not exist. *)
Theorem C116_one : forall h d v l, s_ok (seen h) = true -> Forall steady l ->
  let f := c_sent (c_run new_cb (h ++ CCmdCh d v :: l)) in let f0 := c_sent (c_run new_cb h) in
  br_take f = br_take f0 /\ forall c, 1 <= c <= 4 -> br_switch f c = (if c =? d then negb (v =? 0) else br_switch f0 c) /\ br_rated f c = br_rated f0 c.
Proof.
  intros h d v l K F f f0. pose proof (c_history h) as [K1 K2 K3 K4 K5].
  assert (RO : c_att (c_run new_cb h) = true).
  { rewrite K2. clear - K. unfold seen in *. assert (G : forall l p, (s_ok p = true -> s_run p = true) -> s_ok (fold_left see l p) = true -> s_run (fold_left see l p) = true).
    { clear. induction l as [|e l IH]; intros p P; [exact P|]. cbn [fold_left]. apply IH. destruct e; cbn; auto. }
    apply (G h); [discriminate|exact K]. }
  subst f f0. rewrite c_run_app. change (c_run (c_run new_cb h) (CCmdCh d v :: l)) with (c_run (c_step (c_run new_cb h) (CCmdCh d v)) l). unfold c_sent.
  cbn [c_step]. unfold ch_ok. destruct ((1 <=? d) && (d <=? 4)) eqn:D.
  - rewrite c_steady; [|cbn; congruence|exact F]. cbn [c_order c_area]. rewrite RO, !br_take_out. split; [reflexivity|].
    intros c C. rewrite !br_switch_out, !br_rated_out by assumption. cbn [sw nm]. unfold upd. split; [destruct (c =? d); reflexivity|reflexivity].
  - rewrite c_steady; [|congruence|exact F]. split; [reflexivity|]. intros c C. replace (c =? d) with false by lia. split; reflexivity.
Qed.
Print Assumptions C116_one.

(** The breaker is told to take the outputs exactly from the first order for all channels after the first cycle on: orders
    for single channels before that have no effect on it. *)
Theorem C116_take : forall l, br_take (c_sent (c_run new_cb l)) = s_armed (seen l).
Proof. intros l. unfold c_sent. rewrite br_take_out. apply (c_history l). Qed.
Print Assumptions C116_take.

(** When the port works again, the switches and nominal currents of the cycle before are sent, in which it did not work -
    and the breaker goes on taking them if it did. *)
Theorem C116_reconnect : forall h i j, ok i = false -> ok j = true ->
  let f := c_sent (c_run new_cb (h ++ [CCycle i; CCycle j])) in
  br_take f = s_armed (seen h) /\ forall c, 1 <= c <= 4 -> br_switch f c = br_on (bytes i) c /\ br_rated f c = br_current (bytes i) c.
Proof.
  intros h i j I J f. subst f. rewrite c_run_app. pose proof (c_history h) as [K1 K2 K3 K4 K5]. unfold c_sent.
  set (s := c_run new_cb h) in *. cbn [c_run fold_left c_step].
  unfold c_evaluate. cbn [c_area read_ok c_in]. rewrite I, J. cbn [andb negb].
  rewrite br_take_out. split; [exact K4|]. intros c C. rewrite br_switch_out, br_rated_out by (assumption || (intros k; apply b_nom_range)).
  cbn [sw nm]. split; [apply b_stat_spec; exact C|apply b_nom_spec; exact C].
Qed.
Print Assumptions C116_reconnect.

(** The state: [-link] when the port does not work, otherwise 1 when a channel is on and 0 when none is. *)
Theorem C116_state : forall h i link, c_get_state link (c_run new_cb (h ++ [CCycle i])) =
  if link =? 0 then (if br_on (bytes i) 1 || br_on (bytes i) 2 || br_on (bytes i) 3 || br_on (bytes i) 4 then 1 else 0) else - link.
Proof.
  intros h i link. rewrite c_run_app. unfold c_get_state. destruct (link =? 0); [|reflexivity]. cbn [negb].
  cbn [c_run fold_left c_step c_evaluate c_in existsb]. rewrite !b_stat_spec by lia. rewrite orb_false_r, !orb_assoc. reflexivity.
Qed.
Print Assumptions C116_state.

Definition brk := ins [192; 66; 51; 0].
Definition cc (k : bool) (b : Z -> Z) : cev := CCycle {| now := 0; bytes := b; ok := k |}.
Definition cshow (s : cbs) : list Z := map (c_sent s) [0; 1; 2].
Example C116_on : cshow (c_run new_cb [cc false brk; cc true brk; CCmdCh 3 1]) = [7; 66; 51].
Proof. reflexivity. Qed.
Example C116_on_all : cshow (c_run new_cb [cc false brk; cc true brk; COn; cc true brk; cc true (ins [])]) = [143; 66; 51].
Proof. reflexivity. Qed.

(** Orders are kept when the port is away for a cycle: not so (everything is switched off). *)
Theorem C116_reconnect_refuted : ~ (forall h l b c, s_ok (seen h) = true -> Forall (fun e => exists i, e = CCycle i) l -> s_ok (seen (h ++ COn :: l)) = true ->
  1 <= c <= 4 -> b = br_switch (c_sent (c_run new_cb (h ++ [COn]))) c -> br_switch (c_sent (c_run new_cb (h ++ COn :: l))) c = b).
Proof.
  intros H. specialize (H [cc false brk; cc true brk] [cc false (ins []); cc true brk] true 1 eq_refl).
  discriminate H; try reflexivity; try lia. repeat (constructor; [eexists; reflexivity|]). constructor.
Qed.
Print Assumptions C116_reconnect_refuted.
(** An order for all channels keeps the nominal currents the breaker has: not if the port works from the first cycle on. *)
Theorem C116_start_refuted : ~ (forall h i c, ok i = true -> s_man (seen h) = false -> 1 <= c <= 4 ->
  br_rated (c_sent (c_run new_cb (h ++ [CCycle i; COn]))) c = br_current (bytes i) c).
Proof. intros H. specialize (H [] {| now := 0; bytes := brk; ok := true |} 1 eq_refl eq_refl ltac:(lia)). discriminate H. Qed.
Print Assumptions C116_start_refuted.

(** * C117: readings of a power unit *)

(** State 1 exactly when the status of some channel is not 0 in the last cycle. *)
Theorem C117_state : forall w h i s, octets (bytes i) -> run w new_pu (h ++ [Cycle i]) = Some s ->
  get_state s = (if (bytes i 4 =? 0) && (bytes i 5 =? 0) then 0 else 1).
Proof.
  intros w h i s O R. unfold get_state. rewrite (pin_last w h i s R). cbn [existsb]. rewrite !stat_spec by lia.
  pose proof (byte_parts (bytes i 4) (O 4)) as A. pose proof (byte_parts (bytes i 5) (O 5)) as B.
  unfold is_on. cbn [Z.leb Z.compare Pos.compare Pos.compare_cont].
  change (8 - 2 * 1) with 6. change (8 - 2 * 2) with 4. change (8 - 2 * 3) with 2. change (8 - 2 * 4) with 0.
  change (16 - 2 * 5) with 6. change (16 - 2 * 6) with 4. change (16 - 2 * 7) with 2. change (16 - 2 * 8) with 0.
  rewrite orb_false_r.
  match goal with |- (if ?a || (?b || (?c || (?d || ?r))) then _ else _) = _ => replace (a || (b || (c || (d || r)))) with ((a || (b || (c || d))) || r) by (rewrite <- !orb_assoc; reflexivity) end.
  rewrite A, B. destruct (bytes i 4 =? 0), (bytes i 5 =? 0); reflexivity.
Qed.
Print Assumptions C117_state.

Lemma amps : forall x, 0 <= x < 1024 -> f_finite (f_mul (f_lit (1 # 10)) (f_of_Z x)) = true /\ (Qabs (f_val (f_mul (f_lit (1 # 10)) (f_of_Z x)) - inject_Z x * (1 # 10)) <= 1 # 100000)%Q.
Proof.
  intros x H.
  assert (A : forallb (fun x => f_finite (f_mul (f_lit (1 # 10)) (f_of_Z x)) && Qle_bool (Qabs (f_val (f_mul (f_lit (1 # 10)) (f_of_Z x)) - inject_Z x * (1 # 10))) (1 # 100000)) (map Z.of_nat (seq 0 1024)) = true) by (vm_compute; reflexivity).
  rewrite forallb_forall in A. specialize (A x). rewrite andb_true_iff, Qle_bool_iff in A. apply A.
  rewrite <- (Z2Nat.id x) by lia. apply in_map, in_seq. lia.
Qed.
(** The value: a tenth of the ten bits of the total current, within 10 microamperes. *)
Theorem C117_value : forall w h i s, octets (bytes i) -> run w new_pu (h ++ [Cycle i]) = Some s ->
  f_finite (get_value s) = true /\
  (Qabs (f_val (get_value s) - inject_Z (bits (bytes i 2) 0 2 * 256 + bytes i 3) * (1 # 10)) <= 1 # 100000)%Q.
Proof.
  intros w h i s O R. unfold get_value. rewrite (pin_last w h i s R). unfold fld, bits. change (2 ^ 0) with 1. change (2 ^ 2) with 4. change (2 ^ 8) with 256.
  rewrite !Z.div_1_r, (Z.mod_small (bytes i 3)) by apply O. apply amps.
  pose proof (O 3). pose proof (Z.mod_pos_bound (bytes i 2) 4 ltac:(lia)). lia.
Qed.
Print Assumptions C117_value.
Example C117_ex : match run 32 new_pu [cyc 0] with Some s => (get_state s, f_val (get_value s)) | None => (0, 0%Q) end = (1, (13788775 # 524288)%Q).
Proof. vm_compute. reflexivity. Qed.
