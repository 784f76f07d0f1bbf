(** Properties of valves on discrete channels: outputs that exclude each other, reported
    states, bistable valves. *)
From Coq Require Import ZArith List Bool Lia.
From Verif Require Import Base TimeModel ValveModel ValveSpec ValveProofs ValveProofs2 ValveProofs3 ValveProofs4 ValveProofs5 ValveProps.
Import ListNotations.
Open Scope Z_scope.

(** * C84: outputs that exclude each other *)

Theorem C84_exclusive :
  forall w K B t0 l d,
    wired K B ->
    let s := vs (run w K B (start t0) l) d in
    exclusive (K d) (o0 s) (o1 s) (o2 s).
Proof.
  intros w K B t0 l d HB. cbv zeta. rewrite (run_vs w K B) by assumption.
  apply run_excl, start_excl.
Qed.
Print Assumptions C84_exclusive.

Lemma left_o2 w d a x :
  (target (fst x) <> Some d \/ fst x = Off d \/ exists n, fst x = Man d n) ->
  b_left a -> o2 (fst (step1 w Bottom d a x)) = o2 (fst a).
Proof.
  intros T H. pose proof H as (H1 & H2 & H3 & H4). destruct x as (o, E). cbn [fst] in *.
  destruct T as [T|[->|(m & ->)]].
  - destruct (eval_dec o) as [->|N].
    + unfold step1. cbn [fst snd]. rewrite H4, eval1_out by discriminate. reflexivity.
    + destruct (foreign w Bottom d a o E T N) as (A & C). apply core_fields in C. destruct C as (c1 & c2 & c3 & _). exact c3.
  - unfold step1. cbn [fst snd]. rewrite Z.eqb_refl. unfold off. cbv zeta. cbn [valve_state]. rewrite H1, H2. cbn [negb andb].
    change (V_UPPER =? V_UPPER) with true. rewrite orb_true_r. cbn [orb fst snd]. destruct (manual (fst a)); [reflexivity|].
    unfold direct_off. cbn [valve_state]. rewrite H1, H2. cbn [negb andb]. change (V_UPPER =? V_LOWER) with false.
    cbv zeta. cbv iota. rewrite H1, H2, H3. reflexivity.
  - unfold step1. cbn [fst snd]. rewrite Z.eqb_refl. destruct (m =? 0); [reflexivity|]. destruct (m =? 1); reflexivity.
Qed.
Lemma left_o2s w d l a : only_off_man d l -> b_left a -> o2 (fst (fold_left (step1 w Bottom d) l a)) = o2 (fst a).
Proof.
  intros H. revert a. induction H as [|x l Hx H IH]; intros a F; cbn [fold_left]; [reflexivity|].
  rewrite IH by (apply b_left_step; assumption). apply left_o2; assumption.
Qed.

(** The bottom valve: closed at once, then its lower seat opened; the small valve and the
    lower seat stay open together whatever orders to close follow. *)
Theorem C84_lower_left_open :
  forall w K B t0 d h E0 h2 x E l E1 l1,
    wired K B -> K d = Bottom ->
    Forall (fun x => target (fst x) <> Some d \/ exists n, fst x = Man d n) h ->
    held d h false = false -> quiet d h2 -> x = Instant d \/ x = Cmd d 0 ->
    only_off_man d l -> only_off_man d l1 ->
    outputs (vs (run w K B (start t0) (h ++ [(On d, E0)] ++ h2 ++ (x, E) :: l ++ (Seat d false, E1) :: l1)) d) = (false, true, true).
Proof.
  intros w K B t0 d h E0 h2 x E l E1 l1 HB HK F M Q X OO O1. rewrite (run_vs w K B) by assumption. rewrite HK.
  replace (h ++ [(On d, E0)] ++ h2 ++ (x, E) :: l ++ (Seat d false, E1) :: l1)
    with (h ++ [(On d, E0)] ++ h2 ++ [(x, E)] ++ l ++ [(Seat d false, E1)] ++ l1) by reflexivity.
  rewrite !fold_left_app. cbn [fold_left].
  set (b := fold_left (step1 w Bottom d) h2 _).
  assert (A : b_open b).
  { apply b_open_quiets; [exact Q|].
    apply fresh_on; [rewrite held_manual; exact M|]. apply fresh_quiets; [discriminate|exact F|]. apply fresh_start. }
  assert (G : manual (fst b) = false).
  { unfold b. rewrite held_manual, on_step_manual, held_manual. cbn. rewrite M.
    clear - Q. induction Q as [|(o, e) l H Q IH]; [reflexivity|]. cbn [held]. destruct o; try exact IH.
    cbn in H. destruct (d0 =? d) eqn:Ed; [|exact IH]. apply Z.eqb_eq in Ed. congruence. }
  assert (L : b_left (step1 w Bottom d b (x, E))).
  { apply b_open_direct; [|exact A]. destruct X as [-> | ->]; [left; split; [reflexivity|exact G]|right; reflexivity]. }
  apply (b_left_steps w d l) in L; [|exact OO].
  set (c := fold_left (step1 w Bottom d) l _) in *. clearbody c. destruct L as (r1 & r2 & r3 & r4).
  assert (L : b_left (step1 w Bottom d c (Seat d false, E1)) /\ o2 (fst (step1 w Bottom d c (Seat d false, E1))) = true).
  { unfold step1. cbn [fst snd]. rewrite Z.eqb_refl.
    destruct c as ([p q r rg ts mn au sw tf mi tm st op cl], n). cbn [fst snd o0 o1 o2 mini] in r1, r2, r3, r4. subst.
    unfold b_left. destruct r; cbn; repeat split. }
  destruct L as (L1 & L2). pose proof (b_left_steps w d l1 _ O1 L1) as (s1 & s2 & _).
  unfold outputs. rewrite s1, s2, (left_o2s w d l1 _ O1 L1), L2. reflexivity.
Qed.
Print Assumptions C84_lower_left_open.

Theorem C84_refuted :
  ~ (forall w K B t0 l d, wired K B ->
      let s := vs (run w K B (start t0) l) d in ~ (o1 s = true /\ o2 s = true)).
Proof.
  intros H. refine (H 64 (fun _ => Bottom) [] 0 [(On 4, exE 10); (Instant 4, exE 20); (Seat 4 false, exE 30)] 4 _ _).
  - intros x. split; [intros []|discriminate].
  - vm_compute. split; reflexivity.
Qed.
Print Assumptions C84_refuted.

(** Mixproof valve 1: opened, upper seat, lower seat, opened. *)
Example C84_example :
  let l := [(On 1, exE 10); (Seat 1 true, exE 20); (Seat 1 false, exE 30); (On 1, exE 40)] in
  map (fun n => outputs (vs (exrun (firstn n l)) 1)) [1%nat; 2%nat; 3%nat; 4%nat] =
  [(true, false, false); (false, true, false); (false, false, true); (true, false, false)] /\
  outputs (vs (exrun [(On 4, exE 10); (Instant 4, exE 20); (Seat 4 false, exE 30); (Off 4, exE 40); (Eval, exE 5000); (Off 4, exE 6000)]) 4) = (false, true, true).
Proof. vm_compute. split; reflexivity. Qed.

(** * C85: the reported state *)

Lemma outputs_dec s s' : outputs s = outputs s' \/ outputs s <> outputs s'.
Proof.
  destruct (outputs s) as ((p1, p2), p3), (outputs s') as ((q1, q2), q3).
  destruct p1, p2, p3, q1, q2, q3; solve [left; reflexivity | right; discriminate].
Qed.
Lemma seated_out k s s' : outputs s = outputs s' -> seated k s -> seated k s'.
Proof. unfold outputs, seated. intros H. injection H as -> -> ->. exact (fun x => x). Qed.

(** No event of [l], in a history starting with [h], restarts the time allowed. *)
Definition no_restart (w : Z) (K : Z -> kind) (B : list Z) (t0 d : Z) (h l : list (order * env)) : Prop :=
  forall l1 y l2, l = l1 ++ y :: l2 ->
    ~ restarts (K d) d (vs (run w K B (start t0) (h ++ l1)) d) (vs (run w K B (start t0) (h ++ l1 ++ [y])) d) y.

Lemma no_restart_keeps w K B t0 d h t l :
  wired K B -> steady (K d) = true ->
  no_restart w K B t0 d h l ->
  (let s := vs (run w K B (start t0) h) d in t_sw s = t \/ seated (K d) s) ->
  let s := vs (run w K B (start t0) (h ++ l)) d in t_sw s = t \/ seated (K d) s.
Proof.
  intros HB F N. cbv zeta. induction l as [|y l IH] using rev_ind; intros H; [rewrite app_nil_r; exact H|].
  assert (N' : no_restart w K B t0 d h l).
  { intros l1 z l2 El. apply (N l1 z (l2 ++ [y])). rewrite El, <- app_assoc. reflexivity. }
  specialize (IH N' H). specialize (N l y [] eq_refl).
  rewrite !(run_vs w K B) in * by assumption.
  replace (h ++ l ++ [y]) with ((h ++ l) ++ [y]) in * by (symmetry; apply app_assoc).
  rewrite (fold_left_app _ (h ++ l) [y]) in *. cbn [fold_left] in *.
  set (a := fold_left _ (h ++ l) _) in *.
  assert (X : excl (K d) (fst a)) by (apply run_excl, start_excl).
  destruct (step_timed w (K d) d a y F X) as (_ & T). specialize (T N).
  destruct T as [T|T]; [|right; exact T]. destruct IH as [IH|IH]; [left; congruence|].
  right. apply (seated_out _ (fst a)); [|exact IH].
  destruct (outputs_dec (fst a) (fst (step1 w (K d) d a y))) as [E|E]; [exact E|]. exfalso. apply N. left. exact E.
Qed.

Lemma report_seated k w n i s v :
  steady k = true -> seated k s -> (v = NoFeedback <-> p_fb i = false) ->
  fst (get_state w k n i s) = code (position_of k (o0 s) (o1 s) (o2 s)) (manual s) v.
Proof.
  intros F T V. unfold seated in T.
  destruct s as [a b c rg ts mn au sw tf mi tm st op cl]. cbn [o0 o1 o2 t_sw manual] in *.
  assert (V' : p_fb i = true -> v <> NoFeedback) by (intros P E; apply V in E; congruence).
  unfold get_state. cbv zeta.
  destruct k; try discriminate F; destruct a, b, c; cbn in T; try (exfalso; exact T);
    cbn; destruct (p_fb i) eqn:P; try (rewrite (proj2 V eq_refl)); destruct mn; cbn; try reflexivity;
    specialize (V' eq_refl); destruct v; try reflexivity; exfalso; apply V'; reflexivity.
Qed.

Lemma report_since w K B t0 d h t i n :
  wired K B -> steady (K d) = true -> K d <> DO2DI2 ->
  let s := vs (run w K B (start t0) h) d in
  t_sw s = t \/ seated (K d) s -> t <= n ->
  fst (get_state w (K d) n i s) =
    code (position_of (K d) (o0 s) (o1 s) (o2 s)) (held d h false)
      (judge (agrees (K d) (o0 s) (o1 s) (o2 s) (di0 i) (di1 i)) (p_fb i) (n - t) (p_time i)).
Proof.
  intros HB F N. cbv zeta. intros H L.
  assert (M : manual (vs (run w K B (start t0) h) d) = held d h false)
    by (rewrite (run_vs w K B) by assumption; rewrite held_manual; reflexivity).
  rewrite <- M. destruct H as [H|H].
  - rewrite report by (try exact F; lia). cbv zeta. rewrite H. destruct (K d); try reflexivity. exfalso. apply N. reflexivity.
  - apply report_seated; [exact F|exact H|]. unfold judge. destruct (p_fb i); [|split; reflexivity].
    split; [|discriminate]. destruct (_ || _); [discriminate|]. destruct (_ =? _); discriminate.
Qed.

(** [x]: the last event that restarted the time allowed. *)
Theorem C85_reported :
  forall w K B t0 d h x l E,
    wired K B -> steady (K d) = true -> K d <> DO2DI2 ->
    timely w t0 (h ++ x :: l ++ [(Poll d, E)]) ->
    restarts (K d) d (vs (run w K B (start t0) h) d) (vs (run w K B (start t0) (h ++ [x])) d) x ->
    no_restart w K B t0 d (h ++ [x]) l ->
    let s := vs (run w K B (start t0) (h ++ x :: l)) d in let i := ins E d in
    fst (get_state w (K d) (now E) i s) =
      code (position_of (K d) (o0 s) (o1 s) (o2 s)) (held d (h ++ x :: l) false)
        (judge (agrees (K d) (o0 s) (o1 s) (o2 s) (di0 i) (di1 i)) (p_fb i) (now E - now (snd x)) (p_time i)).
Proof.
  intros w K B t0 d h x l E HB F N T R NR. cbv zeta.
  apply report_since; try assumption.
  - replace (h ++ x :: l) with ((h ++ [x]) ++ l) by (rewrite <- app_assoc; reflexivity).
    apply (no_restart_keeps w K B t0 d (h ++ [x]) (now (snd x)) l HB F NR). cbv zeta. left.
    rewrite !(run_vs w K B) in * by assumption. rewrite fold_left_app in *. cbn [fold_left] in *.
    apply step_timed; try assumption. apply run_excl, start_excl.
  - apply timely_tail in T. assert (X : In (Poll d, E) (l ++ [(Poll d, E)])) by (apply in_or_app; right; left; reflexivity).
    exact (proj1 (timely_le _ _ _ _ T X)).
Qed.
Print Assumptions C85_reported.

(** Nothing has restarted it yet: the time runs from the start of the program. *)
Theorem C85_from_start :
  forall w K B t0 d l E,
    wired K B -> steady (K d) = true -> K d <> DO2DI2 ->
    timely w t0 (l ++ [(Poll d, E)]) ->
    no_restart w K B t0 d [] l ->
    let s := vs (run w K B (start t0) l) d in let i := ins E d in
    fst (get_state w (K d) (now E) i s) =
      code (position_of (K d) (o0 s) (o1 s) (o2 s)) (held d l false)
        (judge (agrees (K d) (o0 s) (o1 s) (o2 s) (di0 i) (di1 i)) (p_fb i) (now E - t0) (p_time i)).
Proof.
  intros w K B t0 d l E HB F N T NR. cbv zeta.
  apply report_since; try assumption.
  - apply (no_restart_keeps w K B t0 d [] t0 l HB F NR). cbv zeta. left. reflexivity.
  - assert (X : In (Poll d, E) (l ++ [(Poll d, E)])) by (apply in_or_app; right; left; reflexivity).
    exact (proj1 (timely_le _ _ _ _ T X)).
Qed.
Print Assumptions C85_from_start.

(** The valve with two outputs and two sensors is reported the wrong way round. *)
Definition closed_code (c : Z) : Prop := c = 0 \/ c = 41 \/ c = -3 \/ c = 10 \/ c = 20 \/ c = 43 \/ c = -13 \/ c = 30.
Definition open_code (c : Z) : Prop := c = 1 \/ c = 40 \/ c = -2 \/ c = 11 \/ c = 21 \/ c = 42 \/ c = -12 \/ c = 31.
Lemma report_closed w n i s : o1 s = false -> closed_code (fst (get_state w DO2DI2 n i s)).
Proof.
  intros H. unfold get_state. cbv zeta. cbn [valve_state has_fb]. rewrite H. unfold fb_state. cbv zeta. cbn [b2z].
  change (0 =? V_LOWER) with false; change (0 =? V_UPPER) with false; change (0 =? V_ON) with false; change (0 =? V_OFF) with true.
  unfold closed_code. repeat match goal with |- context [if ?b then _ else _] => destruct b; cbn [fst snd] end; lia.
Qed.
Lemma report_open w n i s : o1 s = true -> open_code (fst (get_state w DO2DI2 n i s)).
Proof.
  intros H. unfold get_state. cbv zeta. cbn [valve_state has_fb]. rewrite H. unfold fb_state. cbv zeta. cbn [b2z].
  change (1 =? V_LOWER) with false; change (1 =? V_UPPER) with false; change (1 =? V_ON) with true.
  unfold open_code. repeat match goal with |- context [if ?b then _ else _] => destruct b; cbn [fst snd] end; lia.
Qed.
Theorem C85_reversed :
  forall w K B t0 d h E0 h2 E l E' t i,
    wired K B -> K d = DO2DI2 ->
    timely w t0 (h ++ (On d, E0) :: h2 ++ (Off d, E) :: l ++ [(Eval, E')]) ->
    held d h false = false -> quiet d h2 -> only_off d l -> within (now E) l ->
    delay E' < now E' - now E ->
    closed_code (fst (get_state w (K d) t i (vs (run w K B (start t0) (h ++ (On d, E0) :: h2 ++ (Off d, E) :: l)) d))) /\
    open_code (fst (get_state w (K d) t i (vs (run w K B (start t0) (h ++ (On d, E0) :: h2 ++ (Off d, E) :: l ++ [(Eval, E')])) d))).
Proof.
  intros w K B t0 d h E0 h2 E l E' t i HB HK T M Q OO W L.
  assert (P : plain (K d) = true) by (rewrite HK; reflexivity).
  assert (T' : timely w t0 (h ++ (On d, E0) :: h2 ++ (Off d, E) :: l)).
  { replace (h ++ (On d, E0) :: h2 ++ (Off d, E) :: l ++ [(Eval, E')]) with ((h ++ (On d, E0) :: h2 ++ (Off d, E) :: l) ++ [(Eval, E')]) in T
      by (rewrite <- app_assoc; cbn; rewrite <- app_assoc; reflexivity).
    apply timely_app in T. apply T. }
  pose proof (C81_stays_open w K B t0 d h E0 h2 E l HB P T' M Q OO W) as H1.
  pose proof (C81_closes w K B t0 d h E0 h2 E l E' HB P T M Q OO W L) as H2.
  unfold is_open, is_shut in *. rewrite HK in *. destruct H1 as (_ & H1), H2 as (_ & H2).
  split; [apply report_closed, H1|apply report_open, H2].
Qed.
Print Assumptions C85_reversed.

(** What a valve answers to the questions "opened?" and "closed?": the sensor of that
    position, and "no" if there is none.  ([DO2DI2]: the sensors are exchanged as its
    reported states are.) *)
Theorem C85_questions :
  forall k i,
    (on_fb k i = true <-> match open_sensor k with Some 0 => di0 i = true | Some _ => di1 i = true | None => False end) /\
    (off_fb k i = true <-> match closed_sensor k with Some 0 => di0 i = true | Some _ => di1 i = true | None => False end).
Proof. intros k i. destruct k; cbn; intuition discriminate. Qed.
Print Assumptions C85_questions.

Theorem C85_refuted :
  ~ (forall w k t i s, steady k = true -> is_open k s -> t_sw s = t -> closed_code (fst (get_state w k t i s)) -> False).
Proof.
  intros H. apply (H 64 DO2DI2 0 {| di0 := true; di1 := false; p_time := 0; p_fb := true |} (w0 true (new_vst 0)));
    vm_compute; intuition.
Qed.
Print Assumptions C85_refuted.

(** Valve 2, allowed 3000 ms, ordered to open at 10 with the sensor of the closed position
    kept: well, still well at 3009, moving at 3010 only, then an error; without the check of
    the feedback 11; the same when put into manual mode. *)
Example C85_example :
  let s := vs (exrun [(On 2, exE 10)]) 2 in
  let m := vs (exrun [(On 2, exE 10); (Man 2 1, exE 20)]) 2 in
  map (fun t => fst (get_state 64 DI2 t (ins (exD t false true) 2) s)) [10; 3009; 3010; 3011] = [1; 1; 40; -2] /\
  map (fun t => fst (get_state 64 DI2 t (ins (exD t false true) 2) m)) [10; 3009; 3010; 3011] = [21; 21; 42; -12] /\
  fst (get_state 64 DI2 9000 (ins (exD 9000 true false) 2) s) = 1 /\
  fst (get_state 64 DI2 9000 {| di0 := false; di1 := true; p_time := 3000; p_fb := false |} s) = 11 /\
  fst (get_state 64 DO2DI2 9000 (ins (exD 9000 true false) 2) (vs (run 64 (fun _ => DO2DI2) [] (start 0) [(On 2, exE 10)]) 2)) = 0.
Proof. vm_compute. repeat split. Qed.

(** * C86: the bistable valve *)

Section Pulse.
Variables (w : Z) (K : Z -> kind) (B : list Z) (t0 d : Z).
Hypothesis HB : wired K B.
Hypothesis HK : K d = Bist.
Lemma run_snoc l x : vs (run w K B (start t0) (l ++ [x])) d = fst (step1 w Bist d (fold_left (step1 w Bist d) l (view (start t0) d)) x).
Proof. rewrite (run_vs w K B) by assumption. rewrite HK, fold_left_app. reflexivity. Qed.
Lemma run_bist l : vs (run w K B (start t0) l) d = fst (fold_left (step1 w Bist d) l (view (start t0) d)).
Proof. rewrite (run_vs w K B) by assumption. rewrite HK. reflexivity. Qed.

Lemma pulse_since (o : vst -> bool) (ok : list (order * env) -> Prop) :
  (forall l l2, ok (l ++ l2) -> ok l) ->
  o (new_vst t0) = false ->
  (forall l x, ok (l ++ [x]) -> let a := fold_left (step1 w Bist d) l (view (start t0) d) in
    o (fst (step1 w Bist d a x)) = true ->
    (o (fst a) = true -> t_sw (fst (step1 w Bist d a x)) = t_sw (fst a)) /\
    (o (fst a) = false -> t_sw (fst (step1 w Bist d a x)) = now (snd x))) ->
  forall h, ok h -> o (vs (run w K B (start t0) h) d) = true ->
  exists h1 x h2, h = h1 ++ x :: h2 /\ o (vs (run w K B (start t0) h1) d) = false /\
    (forall g g', h2 = g ++ g' -> o (vs (run w K B (start t0) (h1 ++ x :: g)) d) = true) /\
    t_sw (vs (run w K B (start t0) h) d) = now (snd x).
Proof.
  intros Ok O0 St h. induction h as [|y h IH] using rev_ind; intros Kh H.
  - cbn in H. rewrite O0 in H. discriminate.
  - specialize (St h y Kh). cbv zeta in St. rewrite <- run_snoc, <- run_bist in St. specialize (St H).
    destruct (o (vs (run w K B (start t0) h) d)) eqn:E.
    + destruct (IH (Ok _ _ Kh) eq_refl) as (h1 & x & h2 & -> & E1 & E2 & E3).
      exists h1, x, (h2 ++ [y]). repeat split.
      * rewrite <- app_assoc. reflexivity.
      * exact E1.
      * intros g g' Eg. destruct g' as [|z g'] using rev_ind.
        -- rewrite app_nil_r in Eg. subst g. replace (h1 ++ x :: h2 ++ [y]) with ((h1 ++ x :: h2) ++ [y]) by (rewrite <- app_assoc; reflexivity). exact H.
        -- rewrite app_assoc in Eg. apply app_inj_tail in Eg. destruct Eg as (Eg & _). exact (E2 g g' Eg).
      * destruct St as (St & _). rewrite (St eq_refl). exact E3.
    + exists h, y, []. repeat split; [exact E| |apply St; reflexivity].
      intros g g' Eg. symmetry in Eg. apply app_eq_nil in Eg. destruct Eg as (-> & _). exact H.
Qed.
End Pulse.

Lemma in_mid {A} (x : A) l1 l2 : In x (l1 ++ x :: l2).
Proof. apply in_or_app. right. left. reflexivity. Qed.
Lemma timely_mid w t l1 x l2 y : timely w t (l1 ++ x :: l2 ++ [y]) -> now (snd x) <= now (snd y).
Proof. intros T. apply timely_tail in T. exact (proj1 (timely_le _ _ _ _ T (in_mid y l2 []))). Qed.

(** The output that opens is on after a service cycle only if it has been on, without
    a break, for at most the time allowed, and the sensor of the open position is off. *)
Theorem C86_open_pulse :
  forall w K B t0 d h E,
    wired K B -> K d = Bist -> timely w t0 (h ++ [(Eval, E)]) ->
    o0 (vs (run w K B (start t0) (h ++ [(Eval, E)])) d) = true ->
    exists h1 x h2, h = h1 ++ x :: h2 /\ o0 (vs (run w K B (start t0) h1) d) = false /\
      (forall g g', h2 = g ++ g' -> o0 (vs (run w K B (start t0) (h1 ++ x :: g)) d) = true) /\
      now E - now (snd x) <= p_time (ins E d) /\ di0 (ins E d) = false.
Proof.
  intros w K B t0 d h E HB HK T H.
  assert (St : o0 (vs (run w K B (start t0) h) d) = true).
  { destruct (o0 (vs (run w K B (start t0) h) d)) eqn:A; [reflexivity|]. exfalso.
    rewrite run_snoc in H by assumption. rewrite run_bist in A by assumption.
    set (a := fold_left _ h _) in *. clearbody a. unfold step1 in H. cbn [fst snd] in H. unfold eval1 in H. cbv zeta in H. cbn [fst] in H.
    rewrite fins_plain in H by discriminate. cbn [snd] in H.
    assert (G : o0 (bist_eval w (now E) (ins E d) (fst a)) = false).
    { unfold bist_eval. cbv zeta. rewrite A. cbn [andb]. destruct (_ && _); exact A. }
    revert H G. generalize (bist_eval w (now E) (ins E d) (fst a)). clear. induction (snd a) as [|c IH]; intros s H G; cbn [dues] in H; [congruence|].
    apply IH in H; [exact H|]. unfold due. destruct (swoff s && _); [|exact G]. destruct (manual s); [exact G|].
    cbn [wq o0]. unfold direct_off. destruct (_ && _); [reflexivity|exact G]. }
  destruct (pulse_since w K B t0 d HB HK o0 (fun _ => True)) with (h := h) as (h1 & x & h2 & E1 & E2 & E3 & E4);
    [intros; exact I|reflexivity| |exact I|exact St|].
  { intros l x _. cbv zeta. apply (bist_step_open w d _ x). }
  exists h1, x, h2. split; [exact E1|]. split; [exact E2|]. split; [exact E3|].
  rewrite run_snoc in H by assumption. rewrite run_bist in E4 by assumption.
  assert (L : now (snd x) <= now E).
  { subst h. rewrite <- app_assoc in T. exact (timely_mid _ _ _ _ _ _ T). }
  apply bist_eval_open in H; [|rewrite E4; exact L]. rewrite E4 in H. destruct H as (H1 & H2). split; assumption.
Qed.
Print Assumptions C86_open_pulse.

(** The output that closes, for a valve never given an order to close with a delay. *)
Theorem C86_close_pulse :
  forall w K B t0 d h E,
    wired K B -> K d = Bist -> timely w t0 (h ++ [(Eval, E)]) -> Forall (fun x => fst x <> Off d) h ->
    o1 (vs (run w K B (start t0) (h ++ [(Eval, E)])) d) = true ->
    exists h1 x h2, h = h1 ++ x :: h2 /\ o1 (vs (run w K B (start t0) h1) d) = false /\
      (forall g g', h2 = g ++ g' -> o1 (vs (run w K B (start t0) (h1 ++ x :: g)) d) = true) /\
      now E - now (snd x) <= p_time (ins E d) /\ di1 (ins E d) = false.
Proof.
  intros w K B t0 d h E HB HK T N H.
  assert (SW : forall l, Forall (fun x => fst x <> Off d) l -> swoff (fst (fold_left (step1 w Bist d) l (view (start t0) d))) = false).
  { intros l Nl. apply no_off_run; [exact Nl|reflexivity]. }
  assert (St : o1 (vs (run w K B (start t0) h) d) = true).
  { destruct (o1 (vs (run w K B (start t0) h) d)) eqn:A; [reflexivity|]. exfalso.
    rewrite run_snoc in H by assumption. rewrite run_bist in A by assumption. specialize (SW h N).
    set (a := fold_left _ h _) in *. clearbody a. unfold step1 in H. cbn [fst snd] in H. rewrite eval1_bist_idle in H by exact SW.
    unfold bist_eval in H. cbv zeta in H.
    destruct (o0 (fst a) && _); cbn [w0 o1] in H; rewrite A in H; cbn [andb w0 o1] in H; congruence. }
  destruct (pulse_since w K B t0 d HB HK o1 (Forall (fun x => fst x <> Off d))) with (h := h) as (h1 & x & h2 & E1 & E2 & E3 & E4);
    [intros l l2 F; apply Forall_app in F; apply F|reflexivity| |exact N|exact St|].
  { intros l x Nx. cbv zeta. apply Forall_app in Nx. apply (bist_step_close w d _ x). apply SW, Nx. }
  exists h1, x, h2. split; [exact E1|]. split; [exact E2|]. split; [exact E3|].
  rewrite run_snoc in H by assumption. rewrite run_bist in E4 by assumption.
  assert (L : now (snd x) <= now E).
  { subst h. rewrite <- app_assoc in T. exact (timely_mid _ _ _ _ _ _ T). }
  apply bist_eval_close in H; [|apply SW, N|rewrite E4; exact L]. rewrite E4 in H. destruct H as (H1 & H2). split; assumption.
Qed.
Print Assumptions C86_close_pulse.

(** Ordered to open and still closed when the time allowed has passed: an error. *)
Theorem C86_jam :
  forall w K B t0 d h E0 l E,
    wired K B -> K d = Bist -> timely w t0 (h ++ (On d, E0) :: l ++ [(Poll d, E)]) ->
    Forall (fun x => forall n, fst x <> Cmd d n /\ fst x <> Set_ d n) h ->
    held d h false = false -> o0 (vs (run w K B (start t0) h) d) = false -> di0 (ins E0 d) = false ->
    quiet d l ->
    p_time (ins E d) < now E - now E0 < 2 ^ 32 -> p_fb (ins E d) = true ->
    di0 (ins E d) = false -> di1 (ins E d) = true ->
    fst (get_state w (K d) (now E) (ins E d) (vs (run w K B (start t0) (h ++ (On d, E0) :: l)) d)) = -3.
Proof.
  intros w K B t0 d h E0 l E HB HK T C M O0 D0 Q L P1 D1 D2.
  rewrite run_bist in * by assumption. rewrite HK.
  assert (LE : now E0 <= now E) by exact (timely_mid _ _ _ _ _ _ T).
  rewrite fold_left_app. cbn [fold_left].
  assert (Mn : manual (fst (fold_left (step1 w Bist d) h (view (start t0) d))) = false) by (rewrite held_manual; exact M).
  assert (Sp : stopped (fst (fold_left (step1 w Bist d) h (view (start t0) d))) = false) by (apply never_stopped_run; [exact C|reflexivity]).
  set (a := fold_left _ h _) in *. clearbody a.
  set (b := step1 w Bist d a (On d, E0)).
  assert (Fb : flags (fst b) = (false, true, false, false, now E0) /\ manual (fst b) = false).
  { unfold b, step1. cbn [fst snd]. rewrite Z.eqb_refl. cbn [fst]. unfold on. cbv zeta. cbn [wq manual]. rewrite Mn.
    cbn [direct_on wq o0]. rewrite D0, O0. cbn. unfold flags. cbn. rewrite Sp, Mn. split; reflexivity. }
  destruct Fb as (F1 & F2).
  pose proof (quiets_flags w d l b Q) as F. rewrite F1 in F. specialize (F ltac:(unfold flags in F1; injection F1; intros; assumption)).
  unfold flags in F. injection F as f1 f2 f3 f4 f5.
  rewrite jam_report; [|exact f1|exact f2|rewrite f5; exact LE|rewrite f5; exact L|exact P1|exact D1|exact D2].
  rewrite held_manual, F2.
  clear - Q. replace (held d l false) with false; [reflexivity|].
  induction Q as [|(o, e) l H Q IH]; [reflexivity|]. cbn [held]. destruct o; try exact IH.
  cbn in H. destruct (d0 =? d) eqn:Ed; [|exact IH]. apply Z.eqb_eq in Ed. congruence.
Qed.
Print Assumptions C86_jam.

(** Stopped once between its positions, the valve never reports an error of its feedback
    again, whatever orders follow, until a state command other than "stop". *)
Theorem C86_stop_hides_errors :
  forall w K B t0 d h x E0 l t i,
    wired K B -> K d = Bist ->
    x = Cmd d 5 \/ (x = Set_ d 5 /\ held d h false = false) ->
    di0 (ins E0 d) = false -> di1 (ins E0 d) = false ->
    Forall (fun y => forall n, fst y = Cmd d n \/ fst y = Set_ d n -> n = 5) l ->
    ~ error_code (fst (get_state w (K d) t i (vs (run w K B (start t0) (h ++ (x, E0) :: l)) d))).
Proof.
  intros w K B t0 d h x E0 l t i HB HK X D0 D1 C.
  rewrite run_bist by assumption. rewrite HK, fold_left_app. cbn [fold_left].
  apply stopped_report, stopped_run; [exact C|].
  pose proof (held_manual w Bist d h (view (start t0) d)) as M. set (a := fold_left _ h _) in *.
  assert (G : fst (step1 w Bist d a (x, E0)) = direct_set_state Bist (now E0) (ins E0 d) 5 (fst a)).
  { destruct X as [-> |(-> & G)]; unfold step1; cbn [fst snd]; rewrite Z.eqb_refl; cbn [fst]; [reflexivity|].
    unfold set_state. rewrite M. cbn. rewrite G. reflexivity. }
  rewrite G. cbn [direct_set_state]. change (5 =? V_STOP) with true. cbv iota zeta. rewrite D0, D1. reflexivity.
Qed.
Print Assumptions C86_stop_hides_errors.

(** A bistable valve without orders since the start stays as it was made. *)
Lemma fresh_stays w d l t0 :
  quiet d l -> fold_left (step1 w Bist d) l (view (start t0) d) = view (start t0) d.
Proof.
  intros Q. induction Q as [|x l Hx Q IH]; cbn [fold_left]; [reflexivity|].
  replace (step1 w Bist d (view (start t0) d) x) with (view (start t0) d); [exact IH|].
  destruct x as (o, E). cbn [fst] in Hx. unfold step1. cbn [fst snd].
  destruct o as [y|y|y|y m|y u|y m|y m|y|];
    try (destruct (y =? d) eqn:Ey; [apply Z.eqb_eq in Ey; subst y; exfalso; apply Hx; reflexivity|reflexivity]).
  - destruct (y =? d); [|reflexivity]. unfold view, start, new_vst. cbn [fst snd vs queue cnt].
    f_equal. unfold get_state, fb_state. cbv zeta. cbn [valve_state o0 o1 o2 stopped opening closing manual t_sw has_fb].
    repeat match goal with |- context [if ?b then _ else _] => destruct b; cbn [fst snd] end; reflexivity.
  - reflexivity.
Qed.
(** A valve that got no order yet reports no error while one sensor is on. *)
Theorem C86_fresh :
  forall w K B t0 d l t i,
    wired K B -> K d = Bist -> quiet d l -> di0 i = negb (di1 i) ->
    ~ error_code (fst (get_state w (K d) t i (vs (run w K B (start t0) l) d))).
Proof.
  intros w K B t0 d l t i HB HK Q D. rewrite run_bist by assumption. rewrite HK, fresh_stays by exact Q.
  unfold get_state, fb_state, error_code. cbv zeta.
  unfold view, start, new_vst. cbn [fst snd vs stopped opening closing o0 o1 manual t_sw has_fb valve_state].
  rewrite D. destruct (di1 i), (p_fb i); cbn; lia.
Qed.
Print Assumptions C86_fresh.

Theorem C86_refuted :
  ~ (forall w K B t0 d h E0 l E,
    wired K B -> K d = Bist -> timely w t0 (h ++ (On d, E0) :: l ++ [(Poll d, E)]) ->
    held d h false = false -> o0 (vs (run w K B (start t0) h) d) = false -> di0 (ins E0 d) = false ->
    quiet d l -> p_time (ins E d) < now E - now E0 < 2 ^ 32 -> p_fb (ins E d) = true ->
    di0 (ins E d) = false -> di1 (ins E d) = true ->
    error_code (fst (get_state w (K d) (now E) (ins E d) (vs (run w K B (start t0) (h ++ (On d, E0) :: l)) d)))).
Proof.
  intros H.
  assert (X : error_code 0).
  { refine (H 64 exK [3] 0 3 [(Cmd 3 5, exE 10)] (exD 20 false true) [(Eval, exD 30 false true)] (exD 9000 false true) _ _ _ _ _ _ _ _ _ _ _);
      try reflexivity; try (cbn; lia); try (vm_compute; split; reflexivity).
    - intros d. unfold exK. cbn. split.
      + intros [<-|[]]. reflexivity.
      + destruct (d =? 1); [discriminate|]. destruct (d =? 2); [discriminate|]. destruct (d =? 3) eqn:F; [|discriminate].
        intros _. left. lia.
    - repeat constructor; discriminate. }
  unfold error_code in X. lia.
Qed.
Print Assumptions C86_refuted.

(** Opened at 10 with the time allowed 3000 ms: the output falls at the first cycle after
    3010, or when the sensor comes; a jam is an error, after "stop" it is not. *)
Example C86_example :
  o0 (vs (exrun [(On 3, exE 10); (Eval, exE 3010)]) 3) = true /\
  o0 (vs (exrun [(On 3, exE 10); (Eval, exE 3011)]) 3) = false /\
  o0 (vs (exrun [(On 3, exE 10); (Eval, exD 500 true false)]) 3) = false /\
  fst (get_state 64 Bist 4000 (ins (exD 4000 false true) 3) (vs (exrun [(On 3, exE 10); (Eval, exE 3011)]) 3)) = -3 /\
  fst (get_state 64 Bist 4000 (ins (exD 4000 false true) 3) (vs (exrun [(Cmd 3 5, exE 1); (On 3, exE 10); (Eval, exE 3011)]) 3)) = 0.
Proof. vm_compute. repeat split. Qed.
