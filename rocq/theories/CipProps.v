(** Properties of the washing sequencer. *)
From Coq Require Import ZArith List Bool Lia.
From Verif Require Import CipModel CipSpec CipProofs CipProofs2 CipProofs3 CipProofs4 CipProofs5.
Import ListNotations.
Open Scope Z_scope.

(** Inputs for examples: all is well; a step that goes on; the check of the devices fails. *)
Definition ok_in : inp := {| i_do := 1; i_delay := true; i_held := false; i_ready := true; i_conf := false; i_acid := false; i_resume := false |}.
Definition wait_in : inp := {| i_do := 0; i_delay := false; i_held := false; i_ready := true; i_conf := false; i_acid := false; i_resume := false |}.
Definition bad_in : inp := {| i_do := 0; i_delay := false; i_held := false; i_ready := false; i_conf := false; i_acid := false; i_resume := false |}.
Definition o0 : opts := {| circ_s := false; circ_k := false; vol_s := false; vol_k := false; vol_w := false |}.

(** * C125 *)

(** Whatever happens to a line that does not wash, as long as the program is not changed and the
    washing not reset: the steps begun are those of the program, in its order, up to repeated
    preparations of a solution. *)
Theorem C125_order : forall o es0 es,
  let l := fst (run o new_line es0) in
  state l = 0 -> cmd l <> 4 -> selprg l <= 0 -> Forall keeps_program es ->
  exists rest, unloop (inits (snd (run o l es))) ++ rest = plan o (prog l) (norinse l) ++ [555].
Proof.
  intros o es0 es l Z0 C SP F. apply (order_from o (prog l) es l); auto. apply run_sound, new_sound.
Qed.
Print Assumptions C125_order.

(** A washing that is started and goes well begins all steps of its program, reports its end, puts
    the recipe out of service and leaves the line ready for the next one. *)
Theorem C125_completes : forall o es0 i is,
  let l := fst (run o new_line es0) in
  state l = 0 -> locked l = false -> selrec l <= 0 -> selprg l <= 0 ->
  0 < prog l -> 0 <= recipe l \/ 256 <= prog l ->
  i_conf i = false -> i_ready i = true -> i_acid i = false ->
  Forall good is -> (length (plan o (prog l) (norinse l)) + 2 <= length is)%nat ->
  let x := run o l (Cmd 3 :: Cycle i :: map Cycle is) in
  inits (snd x) = plan o (prog l) (norinse l) ++ [555]
  /\ In (Finished false) (snd x) /\ In (RecOn (recipe l)) (snd x) /\ In (RecOff (recipe l)) (snd x)
  /\ state (fst x) = 0 /\ step (fst x) = 0 /\ prog (fst x) = 0 /\ recipe (fst x) = -1.
Proof.
  intros o es0 i is l Z0 U SR SP P R CI RD AC F LEN x.
  assert (SD : sound l) by apply run_sound, new_sound.
  assert (S0 : step l = 0) by (apply SD, Z0). assert (T0 : stage l = -1) by (apply SD, S0).
  unfold x. cbn [run step_ev fst snd app]. rewrite cycle_cmd by auto. rewrite rec_none by assumption.
  assert (E : eval_command o i (set_cmd 3 l) =
    (set_state 1 (set_conflict false (set_abort false (isreset l) (set_cmd 3 l))), RecOn (recipe l) :: [Init 0 false])).
  { unfold eval_command. cbn [cmd set_cmd]. cbn [Z.eqb Pos.eqb NEXT PAUSE RESET EVALUATE]. cbn [state prog recipe set_cmd].
    rewrite Z0. cbn [Z.ltb Z.eqb Z.compare andb].
    replace ((0 <=? recipe l) || (256 <=? prog l)) with true.
    2: { symmetry. apply orb_true_iff. rewrite !Z.leb_le. exact R. }
    replace (0 <? prog l) with true by (symmetry; apply Z.ltb_lt; exact P). cbn [andb]. rewrite CI, RD, AC. cbn [negb andb].
    unfold init_step. cbn [step set_state set_conflict set_abort set_cmd isreset]. rewrite S0. reflexivity. }
  rewrite E. cbv zeta. cbn [fst snd].
  set (m := set_cmd 0 _).
  destruct (completes o (prog l) (norinse l) (recipe l) is m []) as (A1 & A2 & A3 & A4 & A5 & A6 & A7); try reflexivity; auto.
  - left. cbn. auto.
  - cbn [length]. lia.
  - cbn [app] in A1. split; [exact A1|]. split; [right; right; apply A6; cbn; lia|].
    split; [left; reflexivity|]. split; [right; right; exact A7|]. repeat split; assumption.
Qed.
Print Assumptions C125_completes.

(** Alkali and acid with rinsing: its stages are 7, 5, 4. *)
Example C125_example :
  plan o0 176 false = [5; 7; 8; 16; 22; 23; 24; 26; 28; 29; 31; 33; 34; 35; 37; 39; 40;
                       42; 43; 44; 46; 48; 49; 53; 54; 55; 57; 59; 60]
  /\ inits (snd (run o0 (fst (run o0 new_line [SelRec 4; SelPrg 128; Cycle wait_in])) ([Cmd 3; Cycle ok_in] ++ repeat (Cycle ok_in) 7)))
     = [5; 7; 8; 16; 9; 555]
  /\ inits (snd (run o0 (fst (run o0 new_line [SelPrg 512; Cycle wait_in]))
       ([Cmd 3; Cycle ok_in] ++ [Cycle ok_in; Cycle ok_in; Cycle ok_in; Cmd 1; Cycle ok_in; Cycle ok_in; Cycle ok_in; Cycle ok_in; Cycle ok_in])))
     = [105; 106; 108; 109; 106; 108; 111; 555]
  /\ unloop [105; 106; 108; 109; 106; 108; 111; 555] = plan o0 512 false ++ [555]
  /\ plan o0 (4096 + 160) false = [].
Proof. repeat split; vm_compute; reflexivity. Qed.

(** Not guaranteed: that a washing goes through its program if another program, even an unknown one,
    is selected in the meantime; it ends after the present stage, without an abort. *)
Theorem C125_refuted : exists es,
  let l := fst (run o0 new_line [SelRec 1; SelPrg 176; Cycle wait_in]) in
  let x := run o0 l ([Cmd 3; Cycle ok_in] ++ es) in
  In (SelPrg 7) es /\ inits (snd x) = [5; 7; 8; 16; 555] /\ In (Finished false) (snd x) /\ state (fst x) = 0.
Proof.
  exists ([Cycle ok_in; SelPrg 7] ++ repeat (Cycle ok_in) 6). vm_compute. repeat split; auto 20.
Qed.
Print Assumptions C125_refuted.

(** * C126 *)

(** A locked line stops all devices in each cycle, does nothing else, and ignores all commands but the
    one to unlock it. *)
Theorem C126_locked : forall o i l es, ~ In (Cmd 11) es ->
  let x := run o l (Cmd 10 :: Cycle i :: es) in
  Forall (fun a => a = Halt) (snd x) /\ In Halt (snd x) /\ state (fst x) = -1000 /\ locked (fst x) = true.
Proof.
  intros o i l es N x. unfold x. cbn [run step_ev fst snd app].
  destruct (held_cycle o i (set_cmd 10 l)) as (A & B & C); [right; reflexivity|].
  destruct (held_run o es (fst (cycle o i (set_cmd 10 l))) A N) as (D & E & F).
  split; [|split; [|split]].
  - apply Forall_app. split; [|exact E]. destruct C as [-> | ->]; repeat constructor.
  - apply in_or_app. left. destruct C as [-> | ->]; left; reflexivity.
  - apply F, B.
  - apply D.
Qed.
Print Assumptions C126_locked.

(** Devices work only while the line washes, if it is unlocked only when it is locked. *)
Theorem C126_stopped : forall o es, always unlock_locked o new_line [] es ->
  let x := run o new_line es in busy (snd x) = true -> 0 < state (fst x).
Proof.
  intros o es A x B. destruct (busy_run o es new_line []) as [C _]; [split; discriminate|exact A|]. apply C. exact B.
Qed.
Print Assumptions C126_stopped.

(** A pause stops the devices; the line then waits, however long, and goes on in the same step with
    its timers and counters, in the same state. *)
Theorem C126_pause : forall o i is j l, 0 < state l -> step l <> 555 -> locked l = false -> selrec l <= 0 -> selprg l <= 0 ->
  conflict l = false -> i_ready j = true ->
  run o l (Cmd 2 :: Cycle i :: map Cycle is ++ [Cmd 3; Cycle j]) = (set_cmd 0 (set_state 1 l), [Halt; Init (step l) true]).
Proof. exact pause_resume. Qed.
Print Assumptions C126_pause.

(** A reset stops the devices, reports an abort, begins no other step than the last one, and ends when
    the delay has passed, whatever the object reports. *)
Theorem C126_reset : forall o i is l, locked l = false -> state l <> 0 ->
  let x := run o l (Cmd 4 :: Cycle i :: map Cycle is) in
  Forall only_end (snd x) /\ In (Finished true) (snd x)
  /\ (existsb i_delay is = true -> state (fst x) = 0 /\ step (fst x) = 0 /\ prog (fst x) = 0 /\ recipe (fst x) = -1)
  /\ (existsb i_delay is = false -> state (fst x) = 1 /\ step (fst x) = 555).
Proof. exact reset_ends. Qed.
Print Assumptions C126_reset.

(** Skipping alone never leaves the preparation of a solution. *)
Theorem C126_skip_mixing : forall o is l s, locked l = false -> selrec l <= 0 -> selprg l <= 0 -> state l <> 0 ->
  s = 0 \/ s = 10 -> In (step l) [105 + s; 106 + s; 108 + s; 109 + s] ->
  let x := run o l (flat_map (fun i => [Cmd 1; Cycle i]) is) in
  In (step (fst x)) [105 + s; 106 + s; 108 + s; 109 + s] /\ Forall (fun n => In n [105 + s; 106 + s; 108 + s; 109 + s]) (inits (snd x)).
Proof. exact mixing. Qed.
Print Assumptions C126_skip_mixing.

(** No step is begun and no recipe put in service as long as no program is chosen. *)
Definition no_choice (e : ev) : Prop := match e with SelPrg n | SetProg n => n <= 0 | _ => True end.
Definition unused (l : line) : Prop := prog l <= 0 /\ selprg l <= 0 /\ step l = 0 /\ (locked l = true \/ state l = 0).
Lemma unused_step : forall o l e, unused l -> no_choice e ->
  unused (fst (step_ev o l e)) /\ Forall (fun a => a = Halt) (snd (step_ev o l e)).
Proof.
  intros o l e (A & B & C & D) N. unfold unused.
  destruct e as [n|n|n|n|i]; cbn [step_ev fst snd no_choice] in *; try (split; [cbn; auto|constructor]).
  unfold cycle. cbv zeta. set (l0 := eval_lock l).
  assert (U : prog l0 <= 0 /\ selprg l0 <= 0 /\ step l0 = 0 /\ (locked l0 = true \/ state l0 = 0)).
  { unfold l0, eval_lock. destruct (cmd l =? LOCK); [cbn; auto|]. destruct (cmd l =? UNLOCK); [|auto]. cbn. rewrite C. cbn. auto. }
  clearbody l0. clear A B C D l N. destruct U as (A & B & C & D).
  destruct (locked l0) eqn:L.
  - split; [cbn; auto|]. destruct (0 <? state l0); repeat constructor.
  - assert (S0 : state l0 = 0) by (destruct D as [D|D]; [discriminate D|exact D]). clear D.
    assert (E : prog (eval_recipes l0) <= 0 /\ selprg (eval_recipes l0) <= 0 /\ step (eval_recipes l0) = 0 /\ state (eval_recipes l0) = 0).
    { unfold eval_recipes. cbv zeta. destruct (0 <? selrec l0); cbn [selprg set_sel set_recipe];
        replace (0 <? selprg l0) with false by (symmetry; apply Z.ltb_ge; exact B); cbn; auto. }
    set (m := eval_recipes l0) in *. clearbody m. clear l0 A B C L S0. destruct E as (A & B & C & D).
    destruct (cmd m =? 0); cbn [negb].
    + rewrite D. cbn. split; [auto|constructor].
    + unfold eval_command. rewrite D. replace (0 <? prog m) with false by (symmetry; apply Z.ltb_ge; exact A).
      rewrite andb_false_r. cbn [Z.eqb Z.ltb Z.compare negb andb].
      destruct (cmd m =? NEXT); [split; [cbn; auto|constructor]|].
      destruct (cmd m =? PAUSE); [split; [cbn; auto|constructor]|].
      destruct (cmd m =? RESET); [split; [cbn; split; [lia|auto]|constructor]|].
      destruct (cmd m =? EVALUATE); split; cbn; auto.
Qed.
Theorem C126_needs_program : forall o es, Forall no_choice es -> Forall (fun a => a = Halt) (snd (run o new_line es)).
Proof.
  intros o es F. assert (U : unused new_line) by (unfold unused; cbn; split; [lia|split; [lia|auto]]).
  revert U. generalize new_line. induction F as [|e r N F IH]; intros l U; [constructor|].
  destruct (unused_step o l e U N) as [U1 H1]. cbn [run fst snd]. apply Forall_app. split; [exact H1|exact (IH _ U1)].
Qed.
Print Assumptions C126_needs_program.

Definition started : list ev := [SelRec 1; SelPrg 160; Cycle wait_in; Cmd 3; Cycle ok_in; Cycle ok_in].
Example C126_example :
  let l := fst (run o0 new_line started) in
  state l = 1 /\ step l = 5
  /\ snd (run o0 l [Cmd 2; Cycle ok_in; Cycle ok_in; Cmd 3; Cycle ok_in]) = [Halt; Init 5 true]
  /\ snd (run o0 l [Cmd 10; Cycle ok_in; Cmd 3; Cycle ok_in]) = [Halt; Halt; Halt]
  /\ snd (run o0 l [Cmd 4; Cycle wait_in; Cycle wait_in; Cycle ok_in]) = [Halt; Init 555 false; Finished true; Do 555; Do 555; Halt; RecOff 0]
  /\ always unlock_locked o0 new_line [] (started ++ [Cmd 10; Cycle ok_in; Cmd 11; Cycle ok_in]).
Proof. vm_compute. repeat split; auto; intros; discriminate. Qed.

(** Not guaranteed: that devices stand still while the line reports a pause: a line that washes and is
    told to unlock reports one, and nothing is stopped; it does so until the next command. *)
Theorem C126_refuted : forall is,
  let x := run o0 new_line (started ++ [Cmd 11] ++ map Cycle is) in
  is <> [] -> state (fst x) = -1 /\ busy (snd x) = true.
Proof.
  intros is x N. unfold x. rewrite run_app. cbn [fst snd].
  destruct is as [|i r]; [contradiction|]. set (l := fst (run o0 new_line started)).
  change ([Cmd 11] ++ map Cycle (i :: r)) with ([Cmd 11; Cycle i] ++ map Cycle r). rewrite run_app.
  assert (E : run o0 l [Cmd 11; Cycle i] = (set_state (-1) l, [])).
  { unfold l. destruct i as [a b c d e f []]; vm_compute; reflexivity. }
  rewrite E. cbn [fst snd]. rewrite paused_cycles by (vm_compute; auto; discriminate). cbn [fst snd app].
  split; vm_compute; reflexivity.
Qed.
Print Assumptions C126_refuted.
(** Not guaranteed: that a paused washing can be resumed: one that was begun by skipping, although its
    valves are in conflict, cannot. *)
Theorem C126_resume_refuted : forall i, exists es,
  let l := fst (run o0 new_line es) in
  state l = -1 /\ 0 < step l /\ locked l = false
  /\ snd (run o0 l [Cmd 3; Cycle i]) = [] /\ state (fst (run o0 l [Cmd 3; Cycle i])) = -1.
Proof.
  intros i. exists [SelRec 1; SelPrg 160; Cmd 3; Cycle (with_conf true ok_in); Cmd 1; Cycle ok_in; Cmd 2; Cycle ok_in].
  destruct i as [a b c d e f []]; vm_compute; repeat split.
Qed.
Print Assumptions C126_resume_refuted.

(** * C127 *)

(** The valves of a recipe that is put in service are put out of service when the line gets idle, if no
    recipe is selected in the meantime and the line is not unlocked in step 0. *)
Theorem C127_service : forall o es, always keeps_recipe o new_line [] es ->
  let x := run o new_line es in
  (state (fst x) = 0 -> service (snd x) = None)
  /\ forall r, service (snd x) = Some r -> recipe (fst x) = r.
Proof.
  intros o es A x.
  assert (S : served (fst x) (service (snd x))).
  { apply (serve_run o es new_line [] new_sound); [intros r E; discriminate E|exact A]. }
  split; [|intros r E; apply (S r E)]. intros Z0. destruct (service (snd x)) as [r|]; [|reflexivity].
  destruct (S r eq_refl). contradiction.
Qed.
Print Assumptions C127_service.
(** If moreover a refused start is heeded, all washing is done with the valves of the recipe in service. *)
Theorem C127_washes : forall o es, always keeps_recipe o new_line [] es -> always heeds_refusal o new_line [] es ->
  let x := run o new_line es in
  0 < state (fst x) -> step (fst x) <> 555 -> service (snd x) = Some (recipe (fst x)).
Proof. exact washes_served. Qed.
Print Assumptions C127_washes.
(** A start puts the recipe in service unless the valves are in conflict, the devices of the object are
    not there, or acid is due and the program has the stage of alkali but not that of acid; in these
    cases nothing is done and the reason is reported. *)
Theorem C127_starts : forall o i l, state l = 0 -> locked l = false -> selrec l <= 0 -> selprg l <= 0 ->
  0 < prog l -> 0 <= recipe l \/ 256 <= prog l ->
  let x := run o l [Cmd 3; Cycle i] in
  let due := i_acid i = true /\ Z.testbit (prog l) 5 = true /\ Z.testbit (prog l) 4 = false in
  (In (RecOn (recipe l)) (snd x) <-> i_conf i = false /\ i_ready i = true /\ ~ due)
  /\ (~ In (RecOn (recipe l)) (snd x) -> snd x = [])
  /\ (state (fst x) = -31 <-> i_conf i = true)
  /\ (state (fst x) = -30 <-> i_conf i = false /\ i_ready i = false)
  /\ (state (fst x) = -32 <-> i_conf i = false /\ i_ready i = true /\ due).
Proof.
  intros o i l Z0 U SR SP P R x due. unfold x. cbn [run step_ev fst snd app]. rewrite cycle_cmd by auto. rewrite rec_none by assumption.
  rewrite app_nil_r. cbv zeta. cbn [fst snd].
  unfold eval_command. cbn [cmd set_cmd]. cbn [Z.eqb Pos.eqb NEXT PAUSE RESET EVALUATE]. cbn [state prog recipe set_cmd].
  rewrite Z0. cbn [Z.ltb Z.eqb Z.compare andb].
  replace ((0 <=? recipe l) || (256 <=? prog l)) with true.
  2: { symmetry. apply orb_true_iff. rewrite !Z.leb_le. exact R. }
  replace (0 <? prog l) with true by (symmetry; apply Z.ltb_lt; exact P). cbn [andb]. unfold due.
  assert (LS : forall z, state (set_cmd 0 (set_state z l)) = z) by reflexivity.
  destruct (i_conf i) eqn:E1; cbn [negb fst snd In].
  { split; [intuition congruence|]. split; [reflexivity|]. split; [cbn; tauto|]. split; cbn; intuition congruence. }
  destruct (i_ready i) eqn:E2; cbn [negb fst snd In].
  2: { split; [intuition congruence|]. split; [reflexivity|]. split; [cbn; intuition congruence|]. split; cbn; intuition congruence. }
  destruct (i_acid i) eqn:E3, (Z.testbit (prog l) 4) eqn:E4, (Z.testbit (prog l) 5) eqn:E5; cbn [negb andb fst snd In];
    (split; [intuition congruence|]; split; [intuition congruence|]; split; [cbn; intuition congruence|]; split; cbn; intuition congruence).
Qed.
Print Assumptions C127_starts.
Example C127_example :
  always keeps_recipe o0 new_line [] (started ++ repeat (Cycle ok_in) 3)
  /\ always heeds_refusal o0 new_line [] (started ++ repeat (Cycle ok_in) 3)
  /\ service (snd (run o0 new_line (started ++ repeat (Cycle ok_in) 3))) = Some 0
  /\ service (snd (run o0 new_line (started ++ repeat (Cycle ok_in) 25))) = None
  /\ state (fst (run o0 new_line (started ++ repeat (Cycle ok_in) 25))) = 0.
Proof. vm_compute. repeat split; intros; try discriminate; try (intros Q; discriminate Q); auto. Qed.

(** Not guaranteed: the same with a recipe selected while the line washes, ... *)
Theorem C127_refuted : exists es,
  let x := run o0 new_line (started ++ es) in
  In (SelRec 2) es /\ state (fst x) = 0 /\ service (snd x) = Some 0 /\ In (RecOff 1) (snd x).
Proof. exists (SelRec 2 :: repeat (Cycle ok_in) 25). vm_compute. repeat split; auto 80. Qed.
Print Assumptions C127_refuted.
(** ... with locking and unlocking while the tank is filled, ... *)
Theorem C127_unlock_refuted : exists es,
  let x := run o0 new_line ([SelRec 1; SelPrg 160; Cycle wait_in; Cmd 3; Cycle ok_in] ++ es) in
  es = [Cmd 10; Cycle ok_in; Cmd 11; Cycle ok_in] /\ state (fst x) = 0 /\ service (snd x) = Some 0.
Proof. eexists. split; [reflexivity|]. vm_compute. split; reflexivity. Qed.
Print Assumptions C127_unlock_refuted.
(** ... and washing with the valves of the recipe after a start that was refused, if it is repeated. *)
Theorem C127_washes_refuted : exists es,
  let x := run o0 new_line ([SelRec 1; SelPrg 160; Cycle wait_in; Cmd 3; Cycle bad_in] ++ es) in
  es = [Cmd 3; Cycle ok_in; Cycle ok_in; Cycle ok_in] /\ state (fst x) = 1 /\ step (fst x) = 7 /\ service (snd x) = None.
Proof. eexists. split; [reflexivity|]. vm_compute. repeat split; reflexivity. Qed.
Print Assumptions C127_washes_refuted.

(** * C128 *)

(** However many lines wash: two recipes in service on different lines never disagree about a valve
    below 1000, under the same condition. *)
Theorem C128_no_conflict : forall os b n es, always_all keeps_recipe os b (repeat new_line n) [] es ->
  let x := station os b (repeat new_line n) es in
  forall j k rj rk, j <> k -> service (of_line j (snd x)) = Some rj -> service (of_line k (snd x)) = Some rk ->
  0 <= rj -> 0 <= rk -> ~ disagree (opens b j rj) (closes b j rj) (opens b k rk) (closes b k rk).
Proof.
  intros os b n es A x. destruct (peace_run os b es (repeat new_line n) [] (peace_new b n) A) as (_ & P & _). exact P.
Qed.
Print Assumptions C128_no_conflict.

(** Both lines can open valve 5 by their recipe 0, close it by recipe 1. *)
Definition book0 : book := {| opens := fun _ r => if r =? 0 then [5; 0; 1001] else [7]; closes := fun _ r => if r =? 1 then [5] else [] |}.
Definition go (k : nat) : list (nat * ev) := map (pair k) [SelRec 1; SelPrg 160; Cycle wait_in; Cmd 3; Cycle ok_in; Cycle ok_in].
Example C128_example :
  let x := station (fun _ => o0) book0 (repeat new_line 3) (go 0 ++ go 1) in
  always_all keeps_recipe (fun _ => o0) book0 (repeat new_line 3) [] (go 0 ++ go 1)
  /\ service (of_line 0 (snd x)) = Some 0 /\ service (of_line 1 (snd x)) = None
  /\ map state (fst x) = [1; -31; 0].
Proof.
  split; [|vm_compute; repeat split; reflexivity].
  vm_compute. repeat split; intros l H; inversion H; subst; vm_compute; intros; try discriminate; auto; congruence.
Qed.
(** Not guaranteed: the same with a recipe selected on a line that washes. *)
Theorem C128_refuted : exists es,
  let x := station (fun _ => o0) book0 (repeat new_line 2) (go 0 ++ es) in
  In (0%nat, SelRec 3) es
  /\ service (of_line 0 (snd x)) = Some 0 /\ service (of_line 1 (snd x)) = Some 0
  /\ disagree (opens book0 0 0) (closes book0 0 0) (opens book0 1 0) (closes book0 1 0).
Proof.
  exists ([(0%nat, SelRec 3); (0%nat, Cycle wait_in)] ++ go 1). split; [left; reflexivity|].
  split; [vm_compute; reflexivity|]. split; [vm_compute; reflexivity|].
  exists 5. split; [lia|]. split; [lia|]. left. split; [left; reflexivity|left; left; reflexivity].
Qed.
Print Assumptions C128_refuted.
