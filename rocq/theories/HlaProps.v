(** Properties C96 to C99: signal columns. *)
From Coq Require Import ZArith List Bool Lia.
From Verif Require Import Base TimeModel HlaModel HlaSpec HlaProofs HlaProofs2 HlaProofs3.
Import ListNotations.
Open Scope Z_scope.

(** * C96: what is displayed for several objects *)

(** After the requests of a cycle, made at any times by any objects, from any earlier state
    outside manual mode. *)
Theorem C96_display : forall w wr c t0 l, man c = false -> l <> [] ->
  displayed (run w wr ((t0, Cycle) :: map (fun x => (fst x, Show (snd x))) l) c) = display (self c) (map snd l).
Proof.
  intros w wr c t0 l M N. destruct l as [|(t, e) l]; [congruence|]. unfold run. cbn [map fold_left fst snd]. cbn [step snd fst].
  change (fold_left (step w wr) ?q ?s) with (run w wr q s).
  set (c1 := show w wr t e (set_shown Idle c)).
  assert (K : keeps e Idle = false) by (destruct e; reflexivity).
  assert (M1 : man c1 = false) by (unfold c1; rewrite show_man; exact M).
  assert (F1 : self c1 = self c) by (unfold c1; rewrite show_self; reflexivity).
  assert (H1 : shown c1 = e) by (unfold c1; rewrite show_shown; cbn [man set_shown shown]; rewrite M, K; reflexivity).
  assert (D1 : displayed c1 = face (self c1) (shown c1)).
  { rewrite H1, F1. unfold c1. rewrite show_face; [reflexivity|exact M|exact K]. }
  destruct (shows_inv w wr l c1 M1 D1) as (_ & _ & A & B). rewrite A, B, H1, F1.
  rewrite <- face_display. cbn [fold_left]. unfold wins at 3. rewrite K. reflexivity.
Qed.
(** The blue lamp: dark if the first request of the cycle is not one of the two that spare
    it; as before if there are only such requests. *)
Theorem C96_blue : forall w wr c t0 l, man c = false -> separate wr ->
  let c' := run w wr ((t0, Cycle) :: map (fun x => (fst x, Show (snd x))) l) c in
  (forall t e r, l = (t, e) :: r -> spares_blue e = false ->
     look_of (sp (li c' Blue)) = Dark /\ (drives wr (ch wr Blue) -> out c' (ch wr Blue) = false)) /\
  (Forall (fun x => spares_blue (snd x) = true) l ->
     li c' Blue = li c Blue /\ (drives wr (ch wr Blue) -> out c' (ch wr Blue) = out c (ch wr Blue))).
Proof.
  intros w wr c t0 l M SE. cbv zeta. unfold run. cbn [fold_left]. cbn [step snd fst].
  change (fold_left (step w wr) ?q ?s) with (run w wr q s).
  assert (X : forall q c, li (show w wr (fst q) (snd q) c) Blue = li c Blue /\ (drives wr (ch wr Blue) -> out (show w wr (fst q) (snd q) c) (ch wr Blue) = out c (ch wr Blue)) \/
                spares_blue (snd q) = false /\ sp (li (show w wr (fst q) (snd q) c) Blue) = Off /\ (drives wr (ch wr Blue) -> out (show w wr (fst q) (snd q) c) (ch wr Blue) = false)).
  { clear c M. intros (t, e) c. cbn [fst snd]. unfold show. destruct (man c); [left; split; reflexivity|].
    destruct (keeps e (shown c)); [left; split; reflexivity|]. cbv zeta.
    destruct e; cbn [spares_blue];
      try (left; rewrite ts_li; rewrite !turn_li by reflexivity; rewrite ?db_other by reflexivity; split; [reflexivity|]; intros D;
           rewrite ts_out, (hits_siren wr _ SE), !turn_out, !(hits_other wr Blue) by (assumption || discriminate);
           rewrite ?db_out by (apply hits_other; assumption || discriminate); reflexivity);
      (right; split; [reflexivity|]; rewrite ts_li; rewrite !turn_sp; cbn [lamp_eqb]; split; [reflexivity|]; intros D;
           rewrite ts_out, (hits_siren wr _ SE), turn_out, (hits_self wr _ D); reflexivity). }
  split.
  - intros t e r -> SB. cbn [map fst snd]. cbn [run fold_left step snd fst].
    assert (G : forall (l : list (Z * event)) c, sp (li c Blue) = Off -> (drives wr (ch wr Blue) -> out c (ch wr Blue) = false) ->
      sp (li (run w wr (map (fun x => (fst x, Show (snd x))) l) c) Blue) = Off /\
      (drives wr (ch wr Blue) -> out (run w wr (map (fun x => (fst x, Show (snd x))) l) c) (ch wr Blue) = false)).
    { clear - X. induction l as [|q l IH]; intros c A B; [split; assumption|]. cbn [map run fold_left step fst snd].
      change (fold_left (step w wr) ?q ?s) with (run w wr q s).
      destruct (X q c) as [(E & F)|(_ & E & F)]; apply IH; try assumption; [rewrite E; exact A|intros D; rewrite (F D); exact (B D)]. }
    change (fold_left (step w wr) ?q ?s) with (run w wr q s).
    assert (A : sp (li (show w wr t e (set_shown Idle c)) Blue) = Off /\ (drives wr (ch wr Blue) -> out (show w wr t e (set_shown Idle c)) (ch wr Blue) = false)).
    { unfold show. cbn [set_shown man shown]. rewrite M. replace (keeps e Idle) with false by (destruct e; reflexivity). cbv zeta.
      destruct e; try discriminate SB; (split; [rewrite ts_li, turn_sp; reflexivity|]; intros D;
        rewrite ts_out, (hits_siren wr _ SE), turn_out, (hits_self wr _ D); reflexivity). }
    destruct (G r _ (proj1 A) (proj2 A)) as (B1 & B2). split; [rewrite B1; reflexivity|exact B2].
  - intros F. assert (G : forall c0, li (run w wr (map (fun x => (fst x, Show (snd x))) l) c0) Blue = li c0 Blue /\
      (drives wr (ch wr Blue) -> out (run w wr (map (fun x => (fst x, Show (snd x))) l) c0) (ch wr Blue) = out c0 (ch wr Blue))).
    { induction F as [|q l Hq F IH]; intros c0; [split; reflexivity|]. cbn [map run fold_left step fst snd].
      change (fold_left (step w wr) ?q ?s) with (run w wr q s).
      destruct (IH (show w wr (fst q) (snd q) c0)) as (A & B). destruct (X q c0) as [(E & E')|(E & _)]; [|congruence].
      rewrite A, E. split; [reflexivity|]. intros D. rewrite (B D). exact (E' D). }
    exact (G (set_shown Idle c)).
Qed.
(** In manual mode requests of the program change nothing one can see. *)
Theorem C96_manual : forall w wr c l, man c = true ->
  Forall (fun x => snd x = Cycle \/ exists e, snd x = Show e \/ exists n, snd x = SetState n) l ->
  let c' := run w wr l c in
  (forall k, li c' k = li c k) /\ siren c' = siren c /\ (forall n, out c' n = out c n).
Proof.
  intros w wr c l M F. cbv zeta. revert c M. induction F as [|x l Hx F IH]; intros c M; [repeat split|].
  cbn [run fold_left]. change (fold_left (step w wr) ?q ?s) with (run w wr q s).
  destruct x as (t, x). cbn [snd] in Hx.
  destruct Hx as [->|(e & [->|(n & ->)])]; cbn [step snd fst].
  - exact (IH (set_shown Idle c) M).
  - unfold show. rewrite M. exact (IH c M).
  - rewrite M. exact (IH c M).
Qed.
(** Not guaranteed: that the order of the objects does not matter. *)
Theorem C96_order_refuted : ~ (forall w wr c t l l', man c = false -> (forall e, In e l <-> In e l') ->
  displayed (run w wr ((t, Cycle) :: map (fun e => (t, Show e)) l) c) =
  displayed (run w wr ((t, Cycle) :: map (fun e => (t, Show e)) l') c)).
Proof.
  intros H. specialize (H 64 (wdisc 4) new_col 5 [OpOff; BatchOn] [BatchOn; OpOff] eq_refl).
  assert (E : forall e, In e [OpOff; BatchOn] <-> In e [BatchOn; OpOff]) by (intros e; cbn; tauto).
  specialize (H E). vm_compute in H. discriminate H.
Qed.
Print Assumptions C96_display.
Print Assumptions C96_blue.
Print Assumptions C96_manual.
Print Assumptions C96_order_refuted.
Example C96_example :
  map (fun l => displayed (run 64 (wdisc 4) ((5, Cycle) :: map (fun e => (5, Show e)) l) new_col))
    [[OpOn; Error; Message; Idle]; [Idle; OpOn; Message]; [OpOn; BatchOff; BatchOn]; [OpOff; OpOn]; [OpOff; BatchOn]; [Idle]]
  = [(Lit, Dark, Dark, true); (Dark, Blinking, Dark, false); (Dark, Lit, Dark, false); (Dark, Lit, Dark, false); (Dark, Dark, Lit, false); (Dark, Dark, Dark, false)].
Proof. vm_compute. reflexivity. Qed.

(** * C97: blinking *)

(** A dark lamp told to blink in every cycle, with gaps of at most [g]: dark after the first
    cycle, lit after the second, and then stretches of the length wanted. *)
Theorem C97_blinks : forall w wr l slow g c t1 x1 t2 x2 rs, separate wr -> drives wr (ch wr l) -> 0 <= g <= half slow ->
  man c = false -> (l = Red -> self c = true) -> sp (li c l) = Off -> out c (ch wr l) = false ->
  0 <= t1 -> rounds l slow w g t1 ((t1, x1) :: (t2, x2) :: rs) ->
  exists tr, trace w wr l ((t1, x1) :: (t2, x2) :: rs) c = (t1, false) :: (t2, true) :: tr /\
    length tr = length rs /\ stretches (half slow) g t2 true tr.
Proof.
  intros w wr l slow g c t1 x1 t2 x2 rs SE D G M SF SP O T0 R. inversion R as [|? ? ? ? T1 W1 X1 R1]. subst. clear R.
  inversion R1 as [|? ? ? ? T2 W2 X2 R2]. subst. clear R1.
  destruct (round_step w wr l slow t1 x1 c SE D M SF X1) as (A1 & A2 & A3 & A4).
  set (c1 := run w wr x1 c) in *.
  destruct (round_step w wr l slow t2 x2 c1 SE D A3 ltac:(rewrite A4; exact SF) X2) as (B1 & B2 & B3 & B4).
  cbn [trace]. fold c1. set (c2 := run w wr x2 c1) in *. rewrite A1, A2 in B1. rewrite A1 in B2.
  unfold blink1 in A1, A2. rewrite SP in A1, A2. cbn [fst snd] in A1, A2.
  unfold blink1 in B1, B2. rewrite SP in B1, B2. cbn [fst snd sp t_on] in B1, B2.
  rewrite (delta_ge w t2 t1) in B1 by lia. replace (half slow <? t2 - t1) with false in B1 by lia.
  exists (trace w wr l rs c2). rewrite A2, O, B2. split; [reflexivity|]. split.
  { generalize c2. clear. induction rs as [|(t, x) rs IH]; intros c; cbn [trace length]; [reflexivity|]. f_equal. apply IH. }
  apply (trace_stretches w wr l slow g SE D G t2 rs R2 c2 true true t2); [exact B3|rewrite B4, A4; exact SF|exact B2|].
  rewrite B1. split; [reflexivity|]. cbn [since t_on]. split; [lia|]. left. lia.
Qed.
(** Not guaranteed, and false: if an object before it requests something less urgent in every
    cycle, the lamp of a message (or of an error, if it blinks by program) stays dark for
    ever, though it is reported lit. *)
Theorem C97_shared_refuted : forall w wr l e u c n (ts : nat -> Z), separate wr -> drives wr (ch wr l) -> man c = false ->
  (l = Yellow /\ u = Message /\ (e = Idle \/ e = OpOn \/ e = BatchOn)) \/ (l = Red /\ u = Error /\ self c = true /\ e <> Error) ->
  (0 < n)%nat ->
  let h := concat (map (fun k => [(ts k, Cycle); (ts k, Show e); (ts k, Show u)]) (seq 0 n)) in
  out (run w wr h c) (ch wr l) = false /\ reported (run w wr h c) l = true.
Proof.
  intros w wr l e u c n ts SE D M H N. cbv zeta.
  assert (SF : l = Red -> self c = true) by (intros ->; destruct H as [(X & _)|(_ & _ & X & _)]; [discriminate|exact X]).
  assert (H' : (l = Yellow /\ u = Message /\ (e = Idle \/ e = OpOn \/ e = BatchOn)) \/ (l = Red /\ u = Error /\ e <> Error)) by tauto.
  clear H. rename H' into H.
  assert (G : forall t c, man c = false -> (l = Red -> self c = true) ->
    let c' := run w wr [(t, Cycle); (t, Show e); (t, Show u)] c in
    out c' (ch wr l) = false /\ reported c' l = true /\ man c' = false /\ self c' = self c).
  { clear c M N SF. intros t c M SF. cbv zeta. cbn [run fold_left step snd fst].
    set (c1 := show w wr t e (set_shown Idle c)).
    assert (M1 : man c1 = false) by (unfold c1; rewrite show_man; exact M).
    assert (F1 : self c1 = self c) by (unfold c1; rewrite show_self; reflexivity).
    rewrite show_man, show_self, M1, F1.
    enough (Q : out (show w wr t u c1) (ch wr l) = false /\ reported (show w wr t u c1) l = true) by (destruct Q; repeat split; assumption).
    assert (S1 : shown c1 = e) by (unfold c1; rewrite show_shown; cbn [set_shown man shown]; rewrite M; destruct e; reflexivity).
    destruct H as [(-> & -> & HE)|(-> & -> & HE)].
    - assert (A : sp (li c1 Yellow) = Off /\ out c1 (ch wr Yellow) = false).
      { unfold c1, show. cbn [set_shown man shown]. rewrite M. 
        destruct HE as [->|[->| ->]]; cbn [keeps existsb event_eqb orb]; cbv iota zeta;
          (split; [rewrite ts_li, !turn_sp; reflexivity|
            rewrite ts_out, (hits_siren wr _ SE), !turn_out, !(hits_other wr Yellow), (hits_self wr _ D) by (assumption || discriminate); reflexivity]). }
      destruct A as (A1 & A2). unfold show. rewrite M1, S1. 
      replace (keeps Message e) with false by (destruct HE as [->|[->| ->]]; reflexivity). cbv zeta.
      unfold reported. rewrite ts_li, ts_out, (hits_siren wr _ SE). rewrite !turn_sp. cbn [lamp_eqb].
      rewrite !turn_out, !(hits_other wr Yellow) by (assumption || discriminate). cbn [do_blink].
      rewrite blink_li, blink_out. cbn [lamp_eqb]. rewrite (hits_self wr _ D). unfold blink1.
      rewrite !turn_sp. cbn [lamp_eqb set_shown li]. rewrite A1. cbn [fst snd sp]. rewrite turn_out.
      rewrite (hits_other wr Yellow Red) by (assumption || discriminate). split; [exact A2|reflexivity].
    - specialize (SF eq_refl).
      assert (A : sp (li c1 Red) = Off /\ out c1 (ch wr Red) = false).
      { unfold c1, show. cbn [set_shown man shown]. rewrite M. replace (keeps e Idle) with false by (destruct e; reflexivity). cbv zeta.
        destruct e; try congruence;
          (split; [rewrite ts_li; rewrite ?turn_sp; cbn [lamp_eqb]; rewrite ?db_other by reflexivity; rewrite ?turn_sp; reflexivity|
            rewrite ts_out, (hits_siren wr _ SE), !turn_out; rewrite ?db_out by (apply hits_other; assumption || discriminate);
            rewrite ?turn_out; rewrite !(hits_other wr Red), (hits_self wr _ D) by (assumption || discriminate); reflexivity]). }
      destruct A as (A1 & A2). unfold show. rewrite M1, S1. replace (keeps Error e) with false by reflexivity. cbv zeta.
      unfold reported. rewrite ts_li, ts_out, (hits_siren wr _ SE). rewrite !turn_sp. cbn [lamp_eqb].
      rewrite !turn_out, !(hits_other wr Red) by (assumption || discriminate). cbn [do_blink set_shown self]. rewrite F1, SF.
      rewrite blink_li, blink_out. cbn [lamp_eqb]. rewrite (hits_self wr _ D). unfold blink1. cbn [set_shown li out].
      rewrite A1. cbn [fst snd sp]. split; [exact A2|reflexivity]. }
  clear H. destruct n as [|n]; [lia|]. clear N.
  assert (X : forall k s c, man c = false -> (l = Red -> self c = true) -> out c (ch wr l) = false -> reported c l = true ->
    let c' := run w wr (concat (map (fun k => [(ts k, Cycle); (ts k, Show e); (ts k, Show u)]) (seq s k))) c in
    out c' (ch wr l) = false /\ reported c' l = true).
  { clear c M SF. induction k as [|k IH]; intros s c M SF O R; [split; assumption|]. cbn [seq map concat]. cbv zeta.
    unfold run. rewrite fold_left_app. change (fold_left (step w wr) ?q ?s) with (run w wr q s).
    destruct (G (ts s) c M SF) as (A & B & C & F). apply (IH (Datatypes.S s)); try assumption. intros E. exact (eq_trans F (SF E)). }
  cbn [seq map concat]. unfold run. rewrite fold_left_app. change (fold_left (step w wr) ?q ?s) with (run w wr q s).
  destruct (G (ts 0%nat) c M SF) as (A & B & C & F). apply (X n 1%nat); try assumption. intros E. exact (eq_trans F (SF E)).
Qed.
(** Not guaranteed, and false: that a command to blink makes a lamp blink; given once it
    changes no output, though the lamp is reported lit. *)
Theorem C97_one_command_refuted : forall w wr c l slow t, (sp (li c l) = Off \/ sp (li c l) = On) -> (l = Red -> self c = true) ->
  let c' := run w wr [(t, Cmd (blink_code l slow))] c in
  (forall n, out c' n = out c n) /\ reported c' l = true.
Proof.
  intros w wr c l slow t H SF. cbv zeta. cbn [run fold_left step snd fst].
  replace (direct_set_state w wr t (blink_code l slow) c) with (blink w wr t l (half slow) c).
  2:{ destruct l, slow; cbn; try reflexivity; rewrite (SF eq_refl); reflexivity. }
  split.
  - intros n. rewrite blink_out. unfold blink1. destruct H as [->| ->]; cbn [snd]; destruct (hits _ _ _); reflexivity.
  - unfold reported. rewrite blink_li, lamp_eqb_refl. unfold blink1. destruct H as [->| ->]; reflexivity.
Qed.
Print Assumptions C97_blinks.
Print Assumptions C97_shared_refuted.
Print Assumptions C97_one_command_refuted.
Definition msg t : Z * list (Z * call) := (t, [(t, Cycle); (t, Show Message); (t, Show OpOn)]).
Example C97_example : trace 64 (wdisc 4) Yellow (map (fun k => msg (Z.of_nat k * 100)) (seq 1 9)) new_col
  = [(100, false); (200, true); (300, true); (400, true); (500, false); (600, false); (700, false); (800, true); (900, true)].
Proof. vm_compute. reflexivity. Qed.
Example C97_dark : trace 64 (wdisc 4) Yellow (map (fun k => let t := Z.of_nat k * 100 in (t, [(t, Cycle); (t, Show OpOn); (t, Show Message)])) (seq 1 9)) new_col
  = map (fun k => (Z.of_nat k * 100, false)) (seq 1 9).
Proof. vm_compute. reflexivity. Qed.

(** * C98: reports and commands *)

(** After any history the lamps reported steadily lit or dark are so, and so is the
    siren; the state 0 means that all of them are off. *)
Theorem C98_report : forall w wr h, separate wr ->
  let c := run w wr h new_col in
  (forall l, drives wr (ch wr l) -> look_of (sp (li c l)) <> Blinking -> out c (ch wr l) = reported c l) /\
  (drives wr (sch wr) -> out c (sch wr) = siren c) /\
  (get_state c = 0 <-> (forall l, look_of (sp (li c l)) = Dark) /\ siren c = false) /\
  (get_state c = 0 -> (forall l, drives wr (ch wr l) -> out c (ch wr l) = false) /\ (drives wr (sch wr) -> out c (sch wr) = false)).
Proof.
  intros w wr h SE. cbv zeta. destruct (agree_run w wr h SE) as (A & B). set (c := run w wr h new_col) in *. clearbody c.
  assert (Z0 : get_state c = 0 <-> (forall l, look_of (sp (li c l)) = Dark) /\ siren c = false).
  { unfold get_state. split.
    - intros H. destruct (_ || siren c) eqn:E; [discriminate|]. clear H.
      repeat (apply orb_false_iff in E; let E' := fresh "E" in destruct E as (E & E')). split; [|assumption].
      assert (X : forall l, negb (is_off (sp (li c l))) = false -> look_of (sp (li c l)) = Dark) by (intros l; destruct (sp (li c l)); cbn; congruence).
      intros []; apply X; assumption.
    - intros (L & S). assert (X : forall l, is_off (sp (li c l)) = true) by (intros l; specialize (L l); destruct (sp (li c l)); try discriminate L; reflexivity).
      rewrite !X, S. reflexivity. }
  split; [|split; [exact B|split; [exact Z0|]]].
  - intros l D L. destruct (A l D) as (A1 & A2). unfold reported. destruct (sp (li c l)) eqn:E; cbn in L; try congruence; auto.
  - intros H. apply Z0 in H. destruct H as (L & S). split.
    + intros l D. destruct (A l D) as (_ & A2). apply A2. specialize (L l). destruct (sp (li c l)); try discriminate L. reflexivity.
    + intros D. rewrite (B D). exact S.
Qed.
(** What a command does: all it asks for, and nothing to other lamps; an unknown number does
    nothing. *)
Theorem C98_command : forall w wr t n c, separate wr ->
  (forall x, In x (wishes n) -> fulfilled wr (run w wr [(t, Cmd n)] c) x) /\
  (forall l, ~ touches n l -> n <> blink_code l false -> n <> blink_code l true ->
     li (run w wr [(t, Cmd n)] c) l = li c l /\ (drives wr (ch wr l) -> out (run w wr [(t, Cmd n)] c) (ch wr l) = out c (ch wr l))) /\
  (~ 0 <= n <= 20 -> run w wr [(t, Cmd n)] c = c).
Proof.
  intros w wr t n c SE. cbn [run fold_left step snd fst]. split; [intros x H; apply command_wishes; assumption|]. split.
  - intros l T B1 B2. destruct (command_frame w wr t n c l T B1 B2) as (A & B). split; [exact A|exact (B SE)].
  - apply set_outside.
Qed.
(** The setting: number 0 makes the red lamp shine steadily at errors, any other number
    makes it blink; it changes nothing displayed or put out at once. *)
Theorem C98_setting : forall w wr v t t0 l c, man c = false ->
  displayed (run w wr ((t, Self v) :: (t0, Cycle) :: map (fun x => (fst x, Show (snd x))) ((t0, Error) :: l)) c) =
    (if v =? 0 then Lit else Blinking, Dark, Dark, true) /\
  out (run w wr [(t, Self v)] c) = out c /\ displayed (run w wr [(t, Self v)] c) = displayed c.
Proof.
  intros w wr v t t0 l c M. split; [|split; reflexivity].
  change (run w wr ((t, Self v) :: ?r) c) with (run w wr r (step w wr c (t, Self v))).
  rewrite C96_display; [|exact M|discriminate]. cbn [step snd self]. unfold display. cbn [map snd asked existsb orb]. destruct (v =? 0); reflexivity.
Qed.
Print Assumptions C98_setting.
Print Assumptions C98_report.
Print Assumptions C98_command.
Example C98_example :
  let c := run 64 (wdisc 4) [(1, Cmd 5); (2, Cmd 19); (3, Cmd 6); (4, Cmd 9)] new_col in
  (map (out c) [1; 2; 3; 4], map (reported c) [Red; Yellow; Green; Blue], get_state c, get_state (run 64 (wdisc 4) [(5, Cmd 2); (6, Cmd 20)] c))
  = ([false; false; false; true], [false; false; false; true], 1, 0).
Proof. vm_compute. reflexivity. Qed.

(** * C99: the sequence of signals of an IO-Link column *)

(** Each letter of the text gives its lamp the channel of its first place; a lamp without
    letter has none; no channel is shared. *)
Theorem C99_sequence : forall t,
  (forall l n, first_at t (letter l) n -> ch (sequence t wiol) l = n) /\
  (forall n, first_at t 65 n -> sch (sequence t wiol) = n) /\
  (forall l, ~ In (letter l) t -> ~ drives (sequence t wiol) (ch (sequence t wiol) l)) /\
  separate (sequence t wiol).
Proof.
  intros t. repeat split.
  - intros l n F. cbn [ch sequence]. unfold place. apply find_some in F. rewrite F. reflexivity.
  - intros n F. cbn [sch sequence]. unfold place. apply find_some in F. rewrite F. reflexivity.
  - intros l N (D & _). cbn [ch sequence wiol] in D. unfold place in D. apply find_none in N. rewrite N in D. lia.
  - exact (proj1 (sequence_separate t)).
  - exact (proj2 (sequence_separate t)).
Qed.
(** The outputs of a column on discrete channels are never shared. *)
Theorem C99_discrete : forall n, separate (wdisc n).
Proof. exact discrete_separate. Qed.
(** Not guaranteed: the same after a second setting; the lamps it leaves out keep their old
    channels. *)
Theorem C99_twice_refuted : ~ (forall t t', separate (sequence t' (sequence t wiol))).
Proof.
  intros H. destruct (H [82; 71] [71]) as (A & _). specialize (A Red Green).
  cbn in A. unfold drives in A. cbn in A. assert (X : Red = Green) by (apply A; [lia|reflexivity]). discriminate X.
Qed.
Print Assumptions C99_sequence.
Print Assumptions C99_discrete.
Print Assumptions C99_twice_refuted.
(** RYGBA, and AR without the others. *)
Example C99_example : map (ch (sequence [82; 89; 71; 66; 65] wiol)) [Red; Yellow; Green; Blue] = [1; 2; 3; 4] /\
  sch (sequence [82; 89; 71; 66; 65] wiol) = 5 /\ map (ch (sequence [65; 82] wiol)) [Red; Yellow; Green; Blue] = [2; 0; 0; 0].
Proof. vm_compute. repeat split. Qed.
