(** Properties of valves on discrete channels. *)
From Coq Require Import ZArith List Bool Lia.
From Verif Require Import Base TimeModel ValveModel ValveSpec ValveProofs ValveProofs2 ValveProofs3 ValveProofs4 ValveProofs5.
Import ListNotations.
Open Scope Z_scope.

Lemma start_excl k t0 d : excl k (fst (view (start t0) d)).
Proof. unfold excl. destruct k; cbn; intuition discriminate. Qed.
Lemma timely_app w t l1 l2 : timely w t (l1 ++ l2) -> timely w t l1 /\ (forall x, In x l1 -> True) /\ exists t', t <= t' /\ timely w t' l2.
Proof.
  revert t. induction l1 as [|x l1 IH]; intros t H; cbn in *.
  - repeat split. exists t. split; [lia|exact H].
  - destruct H as (H1 & H2). destruct (IH _ H2) as (A & _ & t' & B & C). repeat split; try tauto.
    exists t'. split; [lia|exact C].
Qed.
Lemma timely_tail w t l1 x l2 : timely w t (l1 ++ x :: l2) -> timely w (now (snd x)) l2.
Proof. intros H. apply timely_app in H. destruct H as (_ & _ & t' & _ & (_ & H)). exact H. Qed.
Lemma run_app w K B p l1 l2 : run w K B p (l1 ++ l2) = run w K B (run w K B p l1) l2.
Proof. apply fold_left_app. Qed.

Lemma off_step_manual w k d a E : manual (fst (step1 w k d a (Off d, E))) = manual (fst a).
Proof. exact (held_manual w k d [(Off d, E)] a). Qed.
Lemma on_step_manual w k d a E : manual (fst (step1 w k d a (On d, E))) = manual (fst a).
Proof. exact (held_manual w k d [(On d, E)] a). Qed.

Section Setup.
Variables (w : Z) (K : Z -> kind) (B : list Z) (t0 d : Z).
Hypothesis HB : wired K B.
Hypothesis P : plain (K d) = true.
Variables (h : list (order * env)) (E0 : env) (h2 : list (order * env)) (E : env) (l : list (order * env)).
Hypothesis HT : timely w t0 (h ++ (On d, E0) :: h2 ++ (Off d, E) :: l).
Hypothesis HM : held d h false = false.
Hypothesis HQ : quiet d h2.

Lemma ordered_on : Q1 (K d) (fold_left (step1 w (K d) d) (h ++ (On d, E0) :: h2) (view (start t0) d)).
Proof.
  rewrite fold_left_app. cbn [fold_left]. apply quiets_Q1; [exact P|exact HQ|].
  apply on_Q1; [exact P| |].
  - apply run_excl, start_excl.
  - rewrite held_manual. exact HM.
Qed.
Lemma ordered_off : Q2 (K d) (now E) (fold_left (step1 w (K d) d) (h ++ (On d, E0) :: h2 ++ [(Off d, E)]) (view (start t0) d)).
Proof.
  replace (h ++ (On d, E0) :: h2 ++ [(Off d, E)]) with ((h ++ (On d, E0) :: h2) ++ [(Off d, E)]) by (rewrite <- app_assoc; reflexivity).
  rewrite fold_left_app. cbn [fold_left]. apply off_Q2; [exact P|exact ordered_on].
Qed.
Lemma waiting : only_off d l -> within (now E) l ->
  Q2 (K d) (now E) (fold_left (step1 w (K d) d) (h ++ (On d, E0) :: h2 ++ (Off d, E) :: l) (view (start t0) d)).
Proof.
  intros O W.
  replace (h ++ (On d, E0) :: h2 ++ (Off d, E) :: l) with ((h ++ (On d, E0) :: h2 ++ [(Off d, E)]) ++ l)
    by (rewrite <- app_assoc; cbn; rewrite <- app_assoc; reflexivity).
  rewrite fold_left_app. apply waits_Q2; try assumption; [|exact ordered_off].
  apply (timely_tail w t0 (h ++ (On d, E0) :: h2) (Off d, E)). rewrite <- app_assoc. exact HT.
Qed.
End Setup.

(** * C81: closing with a delay *)

Theorem C81_stays_open :
  forall w K B t0 d h E0 h2 E l,
    wired K B -> plain (K d) = true ->
    timely w t0 (h ++ (On d, E0) :: h2 ++ (Off d, E) :: l) ->
    held d h false = false -> quiet d h2 -> only_off d l -> within (now E) l ->
    is_open (K d) (vs (run w K B (start t0) (h ++ (On d, E0) :: h2 ++ (Off d, E) :: l)) d).
Proof.
  intros. rewrite (run_vs w K B) by assumption. apply (waiting w K t0 d) with (E := E); assumption.
Qed.
Print Assumptions C81_stays_open.

Theorem C81_closes :
  forall w K B t0 d h E0 h2 E l E',
    wired K B -> plain (K d) = true ->
    timely w t0 (h ++ (On d, E0) :: h2 ++ (Off d, E) :: l ++ [(Eval, E')]) ->
    held d h false = false -> quiet d h2 -> only_off d l -> within (now E) l ->
    delay E' < now E' - now E ->
    is_shut (K d) (vs (run w K B (start t0) (h ++ (On d, E0) :: h2 ++ (Off d, E) :: l ++ [(Eval, E')])) d).
Proof.
  intros w K B t0 d h E0 h2 E l E' HB P T M Q O W L. rewrite (run_vs w K B) by assumption.
  assert (T' : timely w t0 (h ++ (On d, E0) :: h2 ++ (Off d, E) :: l)).
  { replace (h ++ (On d, E0) :: h2 ++ (Off d, E) :: l ++ [(Eval, E')]) with ((h ++ (On d, E0) :: h2 ++ (Off d, E) :: l) ++ [(Eval, E')]) in T
      by (rewrite <- app_assoc; cbn; rewrite <- app_assoc; reflexivity).
    apply timely_app in T. apply T. }
  replace (h ++ (On d, E0) :: h2 ++ (Off d, E) :: l ++ [(Eval, E')]) with ((h ++ (On d, E0) :: h2 ++ (Off d, E) :: l) ++ [(Eval, E')])
    by (rewrite <- app_assoc; cbn; rewrite <- app_assoc; reflexivity).
  rewrite fold_left_app. cbn [fold_left].
  apply (eval_shuts w (K d) d (now E)); try assumption.
  - assert (X : In (Eval, E') ((Off d, E) :: l ++ [(Eval, E')])) by (right; apply in_or_app; right; left; reflexivity).
    replace (h ++ (On d, E0) :: h2 ++ (Off d, E) :: l ++ [(Eval, E')]) with ((h ++ (On d, E0) :: h2) ++ (Off d, E) :: l ++ [(Eval, E')]) in T
      by (rewrite <- app_assoc; reflexivity).
    apply timely_tail in T. destruct X as [X|X]; [discriminate|].
    pose proof (timely_le _ _ _ _ T X). cbn in H. lia.
  - apply (waiting w K t0 d) with (E := E); assumption.
Qed.
Print Assumptions C81_closes.

(** An order to open before the delay has passed: the valve stays open. *)
Theorem C81_cancelled :
  forall w K B t0 d h E0 h2 E l E1 l',
    wired K B -> plain (K d) = true ->
    timely w t0 (h ++ (On d, E0) :: h2 ++ (Off d, E) :: l) ->
    held d h false = false -> quiet d h2 -> only_off d l -> within (now E) l -> quiet d l' ->
    is_open (K d) (vs (run w K B (start t0) (h ++ (On d, E0) :: h2 ++ (Off d, E) :: l ++ (On d, E1) :: l')) d).
Proof.
  intros w K B t0 d h E0 h2 E l E1 l' HB P T M Q O W Q'. rewrite (run_vs w K B) by assumption.
  replace (h ++ (On d, E0) :: h2 ++ (Off d, E) :: l ++ (On d, E1) :: l') with ((h ++ (On d, E0) :: h2 ++ (Off d, E) :: l) ++ (On d, E1) :: l')
    by (rewrite <- app_assoc; cbn; rewrite <- app_assoc; reflexivity).
  rewrite fold_left_app. cbn [fold_left].
  apply quiets_Q1; [exact P|exact Q'|]. apply on_Q1; [exact P|apply run_excl, start_excl|].
  apply (waiting w K t0 d P h E0 h2 E l T M Q O W).
Qed.
Print Assumptions C81_cancelled.

(** Manual mode taken before the delay has passed: the valve stays open, and the order
    to close is lost when its time comes, also for the time after the manual mode. *)
Theorem C81_manual_keeps :
  forall w K B t0 d h E0 h2 E l E1 l1 E2 l2 E3 l3,
    wired K B -> plain (K d) = true ->
    timely w t0 (h ++ (On d, E0) :: h2 ++ (Off d, E) :: l) ->
    timely w (now E) ((Man d 1, E1) :: l1 ++ (Eval, E2) :: l2) ->
    held d h false = false -> quiet d h2 -> only_off d l -> within (now E) l ->
    quiet d l1 -> delay E2 < now E2 - now E -> quiet d l2 -> quiet d l3 ->
    is_open (K d) (vs (run w K B (start t0) (h ++ (On d, E0) :: h2 ++ (Off d, E) :: l
      ++ (Man d 1, E1) :: l1 ++ (Eval, E2) :: l2 ++ (Man d 0, E3) :: l3)) d).
Proof.
  intros w K B t0 d h E0 h2 E l E1 l1 E2 l2 E3 l3 HB P T TT M Q OO W Q1' L Q2' Q3'. rewrite (run_vs w K B) by assumption.
  replace (h ++ (On d, E0) :: h2 ++ (Off d, E) :: l ++ (Man d 1, E1) :: l1 ++ (Eval, E2) :: l2 ++ (Man d 0, E3) :: l3)
    with ((h ++ (On d, E0) :: h2 ++ (Off d, E) :: l) ++ (Man d 1, E1) :: l1 ++ (Eval, E2) :: l2 ++ (Man d 0, E3) :: l3)
    by (rewrite <- app_assoc; cbn; rewrite <- app_assoc; reflexivity).
  rewrite fold_left_app. cbn [fold_left].
  pose proof (waiting w K t0 d P h E0 h2 E l T M Q OO W) as (H1 & H2 & H3 & H4 & H5 & H6).
  set (a := fold_left _ _ (view (start t0) d)) in *. clearbody a.
  set (q1 := step1 w (K d) d a (Man d 1, E1)).
  assert (A1 : is_open (K d) (fst q1) /\ manual (fst q1) = true /\ swoff (fst q1) = true /\ t_off (fst q1) = now E /\ snd q1 <> O).
  { unfold q1, step1. cbn [fst snd]. rewrite Z.eqb_refl. cbn. repeat split; assumption. }
  clearbody q1. rewrite fold_left_app. cbn [fold_left].
  assert (Keep : forall z x, target (fst x) <> Some d ->
     is_open (K d) (fst z) -> manual (fst z) = true -> is_open (K d) (fst (step1 w (K d) d z x)) /\ manual (fst (step1 w (K d) d z x)) = true /\
     (swoff (fst z) = true -> t_off (fst z) = now E -> snd z <> O ->
       (swoff (fst (step1 w (K d) d z x)) = false \/
        (swoff (fst (step1 w (K d) d z x)) = true /\ t_off (fst (step1 w (K d) d z x)) = now E /\ snd (step1 w (K d) d z x) <> O))) /\
     (swoff (fst z) = false -> swoff (fst (step1 w (K d) d z x)) = false)).
  { intros z (o, Ex) Tx Oz Mz. cbn [fst] in Tx. destruct (eval_dec o) as [->|N].
    - unfold step1. cbn [fst snd]. destruct (snd z) as [|c] eqn:Ec.
      + rewrite eval1_out by (apply (plain_cases _ P)). cbn [fst snd]. repeat split; try assumption; intros; congruence.
      + rewrite eval1_plain by (try exact P; discriminate). cbn [fst snd]. unfold due. rewrite Mz.
        destruct (swoff (fst z)) eqn:Sz; cbn [andb].
        * destruct (delay Ex <? get_delta_millisec w (now Ex) (t_off (fst z))).
          -- cbn [wq swoff manual t_off]. repeat split; try assumption; try (intros; left; reflexivity); intros; reflexivity.
          -- rewrite Sz. repeat split; try assumption; intros; try congruence.
             right. repeat split; try assumption; discriminate.
        * rewrite Sz. repeat split; try assumption; intros; congruence.
    - destruct (foreign w (K d) d z o Ex Tx N) as (A & C). pose proof (is_open_core _ _ _ (eq_sym C) Oz) as Oc.
      apply core_fields in C. destruct C as (c1 & c2 & c3 & c4 & c5 & c6 & c7 & c8 & c9).
      rewrite c5, c6, c7, A. repeat split; try assumption; try (exact (fun x => x)). intros. right. repeat split; assumption. }
  assert (Keeps : forall ll z, quiet d ll -> is_open (K d) (fst z) -> manual (fst z) = true ->
     is_open (K d) (fst (fold_left (step1 w (K d) d) ll z)) /\ manual (fst (fold_left (step1 w (K d) d) ll z)) = true /\
     ((swoff (fst z) = false \/ (swoff (fst z) = true /\ t_off (fst z) = now E /\ snd z <> O)) ->
       swoff (fst (fold_left (step1 w (K d) d) ll z)) = false \/
       (swoff (fst (fold_left (step1 w (K d) d) ll z)) = true /\ t_off (fst (fold_left (step1 w (K d) d) ll z)) = now E /\ snd (fold_left (step1 w (K d) d) ll z) <> O)) /\
     (swoff (fst z) = false -> swoff (fst (fold_left (step1 w (K d) d) ll z)) = false)).
  { induction ll as [|x ll IH]; intros z Qz Oz Mz; cbn [fold_left]; [repeat split; try assumption; tauto|].
    inversion Qz; subst. destruct (Keep z x H7 Oz Mz) as (k1 & k2 & k3 & k4).
    destruct (IH (step1 w (K d) d z x) H8 k1 k2) as (i1 & i2 & i3 & i4). repeat split; try assumption.
    - intros [S|(S1 & S2 & S3)]; apply i3; [left; apply k4, S|]. apply k3; assumption.
    - intros S. apply i4, k4, S. }
  destruct A1 as (a1 & a2 & a3 & a4 & a5).
  destruct (Keeps l1 q1 Q1' a1 a2) as (b1 & b2 & b3 & _). specialize (b3 (or_intror (conj a3 (conj a4 a5)))).
  set (z1 := fold_left (step1 w (K d) d) l1 q1) in *. clearbody z1.
  destruct (Keep z1 (Eval, E2)) as (e1 & e2 & _ & e4); [discriminate|assumption..|].
  assert (e5 : swoff (fst (step1 w (K d) d z1 (Eval, E2))) = false).
  { destruct b3 as [S|(S1 & S2 & S3)]; [apply e4, S|].
    unfold step1. cbn [fst snd]. rewrite eval1_plain by assumption. cbn [fst]. unfold due. rewrite S1, S2.
    assert (LE : now E <= now E2).
    { assert (X : In (Eval, E2) ((Man d 1, E1) :: l1 ++ (Eval, E2) :: l2)) by (right; apply in_or_app; right; left; reflexivity).
      exact (proj1 (timely_le _ _ _ _ TT X)). }
    rewrite delta_le by exact LE. rewrite (proj2 (Z.ltb_lt _ _) L). reflexivity. }
  set (z2 := step1 w (K d) d z1 (Eval, E2)) in *. clearbody z2.
  rewrite fold_left_app. cbn [fold_left].
  destruct (Keeps l2 z2 Q2' e1 e2) as (f1 & f2 & _ & f4). specialize (f4 e5).
  set (z3 := fold_left (step1 w (K d) d) l2 z2) in *. clearbody z3.
  set (z4 := step1 w (K d) d z3 (Man d 0, E3)).
  assert (G : is_open (K d) (fst z4) /\ swoff (fst z4) = false).
  { unfold z4, step1. cbn [fst snd]. rewrite Z.eqb_refl. cbn. split; assumption. }
  clearbody z4. destruct G as (g1 & g2). clear - P Q3' g1 g2. revert z4 g1 g2.
  induction Q3' as [|x ll Hx Q IH]; intros z g1 g2; cbn [fold_left]; [exact g1|].
  destruct x as (o, Ex). cbn [fst] in Hx. destruct (eval_dec o) as [->|N].
  - unfold step1 at 2. cbn [fst snd]. rewrite eval1_idle by assumption. apply IH; assumption.
  - destruct (foreign w (K d) d z o Ex Hx N) as (A & C). apply IH; [exact (is_open_core _ _ _ (eq_sym C) g1)|].
    apply core_fields in C. destruct C as (c1 & c2 & c3 & c4 & c5 & c6 & c7 & c8 & c9). congruence.
Qed.
Print Assumptions C81_manual_keeps.

(** A mixproof valve 1 and an ordinary one 2, delay 1000 ms, service cycles every 600 ms. *)
Definition exK (d : Z) : kind := if d =? 1 then Mix else if d =? 2 then DI2 else if d =? 3 then Bist else Bottom.
Definition exE (t : Z) : env :=
  {| now := t; ins := fun _ => {| di0 := false; di1 := false; p_time := 3000; p_fb := true |}; delay := 1000; mdelay := 1200 |}.
Definition exD (t : Z) (a b : bool) : env :=
  {| now := t; ins := fun _ => {| di0 := a; di1 := b; p_time := 3000; p_fb := true |}; delay := 1000; mdelay := 1200 |}.
Definition exrun l := run 64 exK [3] (start 0) l.
Example C81_example :
  let h := [(On 1, exE 10); (On 2, exE 10); (Eval, exE 100); (Off 1, exE 200); (Eval, exE 700); (Off 1, exE 900); (Off 2, exE 1000); (Eval, exE 1200)] in
  outputs (vs (exrun h) 1) = (true, false, false) /\
  outputs (vs (exrun (h ++ [(Eval, exE 1201)])) 1) = (false, false, false) /\
  outputs (vs (exrun (h ++ [(Eval, exE 1201)])) 2) = (true, false, false) /\
  outputs (vs (exrun (h ++ [(On 1, exE 1200); (Eval, exE 1201); (Eval, exE 9000)])) 1) = (true, false, false) /\
  outputs (vs (exrun (h ++ [(Man 1 1, exE 1200); (Eval, exE 1201); (Man 1 0, exE 2000); (Eval, exE 9000)])) 1) = (true, false, false).
Proof. vm_compute. repeat split. Qed.

(** * C82: the state command *)

Theorem C82_no_effect :
  forall w K B p d n E,
    bare (K d) = true ->
    (forall x, x = Cmd d n \/ x = Set_ d n ->
      (forall e, outputs (vs (step w K B p (x, E)) e) = outputs (vs p e)) /\
      (forall e w' t i, fst (get_state w' (K e) t i (vs (step w K B p (x, E)) e)) = fst (get_state w' (K e) t i (vs p e)))).
Proof.
  intros w K B p d n E H x Hx.
  assert (C : forall e, vs (step w K B p (x, E)) e = vs p e \/ (e = d /\ vs (step w K B p (x, E)) e = wreg n (vs p d))).
  { intros e. destruct Hx as [-> | ->]; unfold step; cbn [fst snd upd vs].
    - destruct (e =? d) eqn:F; [right|left; reflexivity]. apply Z.eqb_eq in F. split; [exact F|]. apply bare_set, H.
    - unfold set_state. destruct (manual (vs p d)); (destruct (e =? d) eqn:F; [|left; reflexivity]); apply Z.eqb_eq in F.
      + left. subst. reflexivity.
      + right. split; [exact F|]. apply bare_set, H. }
  split; intros e.
  - destruct (C e) as [-> |(-> & ->)]; reflexivity.
  - intros w' t i. destruct (C e) as [-> |(-> & ->)]; [reflexivity|]. apply bare_report, H.
Qed.
Print Assumptions C82_no_effect.

(** The same for the bistable valve and every state but "stop". *)
Theorem C82_bistable :
  forall w K B p d n E,
    K d = Bist -> n <> 5 -> outputs (vs (step w K B p (Cmd d n, E)) d) = outputs (vs p d).
Proof.
  intros w K B p d n E H N. unfold step. cbn [fst snd upd vs]. rewrite Z.eqb_refl, H.
  cbn [direct_set_state]. replace (n =? V_STOP) with false by (unfold V_STOP; lia). reflexivity.
Qed.
Print Assumptions C82_bistable.

(** Mixproof and mini flushing valves obey; in manual mode the operator only. *)
Theorem C82_seats :
  forall w K B t0 d n h E x,
    wired K B -> K d = Mix \/ K d = Mini ->
    x = Cmd d n \/ (x = Set_ d n /\ held d h false = false) ->
    let s := vs (run w K B (start t0) (h ++ [(x, E)])) d in
    (o0 s, o1 s) = fst (commanded (K d) n) /\ (K d = Mix -> outputs s = commanded (K d) n).
Proof.
  intros w K B t0 d n h E x HB HK Hx. cbv zeta. rewrite (run_vs w K B) by assumption.
  rewrite fold_left_app. cbn [fold_left].
  pose proof (run_excl w (K d) d h _ (start_excl (K d) t0 d)) as X.
  pose proof (held_manual w (K d) d h (view (start t0) d)) as M.
  set (a := fold_left _ h _) in *.
  assert (S : fst (step1 w (K d) d a (x, E)) = direct_set_state (K d) (now E) (ins E d) n (fst a)).
  { destruct Hx as [-> |(-> & G)]; unfold step1; cbn [fst snd]; rewrite Z.eqb_refl; cbn [fst]; [reflexivity|].
    unfold set_state. rewrite M. cbn. rewrite G. reflexivity. }
  rewrite S. apply set_outputs; assumption.
Qed.
Print Assumptions C82_seats.

Theorem C82_refuted :
  ~ (forall k s t i, o0 s = true -> o1 s = false -> o0 (direct_set_state k t i 0 s) = false).
Proof.
  intros H. specialize (H DO1 (w0 true (new_vst 0)) 0 {| di0 := false; di1 := false; p_time := 0; p_fb := false |} eq_refl eq_refl).
  discriminate H.
Qed.
Print Assumptions C82_refuted.

Example C82_example :
  let h := [(On 2, exE 10)] in
  outputs (vs (exrun (h ++ [(Man 2 1, exE 20); (Cmd 2 0, exE 30)])) 2) = (true, false, false) /\
  fst (get_state 64 DI2 5000 (ins (exD 5000 true false) 2) (vs (exrun (h ++ [(Man 2 1, exE 20); (Cmd 2 0, exE 30)])) 2)) = 21 /\
  outputs (vs (exrun [(Cmd 1 3, exE 10)]) 1) = (false, false, true).
Proof. vm_compute. repeat split. Qed.

(** * C83: the bottom valve *)

Theorem C83_never_closes :
  forall w K B t0 d h E0 h2 E l1 E1 l,
    wired K B -> K d = Bottom ->
    timely w t0 (h ++ (On d, E0) :: h2 ++ (Off d, E) :: l1 ++ [(Eval, E1)]) ->
    Forall (fun x => target (fst x) <> Some d \/ exists n, fst x = Man d n) h ->
    held d h false = false -> quiet d h2 ->
    only_off_man d l1 -> no_cycle l1 -> now E1 - now E <= delay E1 ->
    only_off_man d l ->
    o0 (vs (run w K B (start t0) (h ++ (On d, E0) :: h2 ++ (Off d, E) :: l1 ++ (Eval, E1) :: l)) d) = true.
Proof.
  intros w K B t0 d h E0 h2 E l1 E1 l HB HK T F M Q O1 N1 L O2. rewrite (run_vs w K B) by assumption. rewrite HK.
  replace (h ++ (On d, E0) :: h2 ++ (Off d, E) :: l1 ++ (Eval, E1) :: l)
    with (h ++ [(On d, E0)] ++ h2 ++ [(Off d, E)] ++ l1 ++ [(Eval, E1)] ++ l) by reflexivity.
  rewrite !fold_left_app. cbn [fold_left].
  apply b_stuck_steps; [exact O2|]. apply (b_wait_early w d (now E)); [|exact L|].
  - replace (h ++ (On d, E0) :: h2 ++ (Off d, E) :: l1 ++ [(Eval, E1)]) with ((h ++ (On d, E0) :: h2) ++ (Off d, E) :: l1 ++ [(Eval, E1)]) in T
      by (rewrite <- app_assoc; reflexivity).
    apply timely_tail in T. assert (X : In (Eval, E1) (l1 ++ [(Eval, E1)])) by (apply in_or_app; right; left; reflexivity).
    pose proof (timely_le _ _ _ _ T X). cbn in H. lia.
  - apply b_wait_steps; [exact O1|exact N1|]. apply b_open_off, b_open_quiets; [exact Q|].
    apply fresh_on; [rewrite held_manual; exact M|]. apply fresh_quiets; [discriminate|exact F|]. apply fresh_start.
Qed.
Print Assumptions C83_never_closes.

Lemma bottom_waiting w d t0 h E0 h2 E l1 :
  Forall (fun x => target (fst x) <> Some d \/ exists n, fst x = Man d n) h ->
  held d h false = false -> quiet d h2 -> only_off d l1 -> no_cycle l1 ->
  let a := fold_left (step1 w Bottom d) (h ++ [(On d, E0)] ++ h2 ++ [(Off d, E)] ++ l1) (view (start t0) d) in
  b_wait (now E) a /\ manual (fst a) = false.
Proof.
  intros F M Q O1 N1. cbv zeta. rewrite !fold_left_app. cbn [fold_left].
  set (b := step1 w Bottom d (fold_left (step1 w Bottom d) h2 _) (Off d, E)).
  assert (A : b_wait (now E) b).
  { apply b_open_off, b_open_quiets; [exact Q|].
    apply fresh_on; [rewrite held_manual; exact M|]. apply fresh_quiets; [discriminate|exact F|]. apply fresh_start. }
  assert (G : manual (fst b) = false).
  { unfold b. rewrite off_step_manual, held_manual, on_step_manual, held_manual. cbn. rewrite M.
    clear - Q. induction Q as [|(o, e) l H Q IH]; [reflexivity|]. cbn [held]. destruct o; try exact IH.
    cbn in H. destruct (d0 =? d) eqn:Ed; [|exact IH]. apply Z.eqb_eq in Ed. congruence. }
  split.
  - apply b_wait_steps; [|exact N1|exact A]. eapply Forall_impl; [|exact O1]. cbn. tauto.
  - rewrite held_manual, G. clear - O1. induction O1 as [|(o, e) l H Q IH]; [reflexivity|]. cbn [held]. destruct o; try exact IH.
    cbn in H. destruct (d0 =? d) eqn:Ed; [|exact IH]. apply Z.eqb_eq in Ed. destruct H as [H|H]; congruence.
Qed.

(** Only if the first service cycle after the order comes later than the delay does the
    valve close, and its small valve when its own delay has passed. *)
Theorem C83_closes_if_late :
  forall w K B t0 d h E0 h2 E l1 E1 l E2,
    wired K B -> K d = Bottom ->
    timely w t0 (h ++ [(On d, E0)] ++ h2 ++ [(Off d, E)] ++ l1 ++ (Eval, E1) :: l ++ [(Eval, E2)]) ->
    Forall (fun x => target (fst x) <> Some d \/ exists n, fst x = Man d n) h ->
    held d h false = false -> quiet d h2 ->
    only_off d l1 -> no_cycle l1 -> delay E1 < now E1 - now E -> 0 <= mdelay E1 ->
    only_off d l -> Forall (fun x => fst x = Eval -> now (snd x) - now E1 <= mdelay (snd x)) l ->
    outputs (vs (run w K B (start t0) (h ++ [(On d, E0)] ++ h2 ++ [(Off d, E)] ++ l1 ++ (Eval, E1) :: l)) d) = (false, true, false) /\
    (mdelay E2 < now E2 - now E1 ->
     outputs (vs (run w K B (start t0) (h ++ [(On d, E0)] ++ h2 ++ [(Off d, E)] ++ l1 ++ (Eval, E1) :: l ++ [(Eval, E2)])) d) = (false, false, false)).
Proof.
  intros w K B t0 d h E0 h2 E l1 E1 l E2 HB HK T F M Q O1 N1 L L0 O2 W. rewrite !(run_vs w K B) by assumption. rewrite HK.
  pose proof (bottom_waiting w d t0 h E0 h2 E l1 F M Q O1 N1) as (A & G).
  replace (h ++ [(On d, E0)] ++ h2 ++ [(Off d, E)] ++ l1 ++ (Eval, E1) :: l)
    with ((h ++ [(On d, E0)] ++ h2 ++ [(Off d, E)] ++ l1) ++ (Eval, E1) :: l) by (rewrite <- !app_assoc; reflexivity).
  replace (h ++ [(On d, E0)] ++ h2 ++ [(Off d, E)] ++ l1 ++ (Eval, E1) :: l ++ [(Eval, E2)])
    with ((h ++ [(On d, E0)] ++ h2 ++ [(Off d, E)] ++ l1) ++ ((Eval, E1) :: l) ++ [(Eval, E2)]) by (rewrite <- !app_assoc; reflexivity).
  rewrite !fold_left_app. rewrite !fold_left_app in A, G. set (a := fold_left _ l1 _) in *. cbn [fold_left].
  assert (T1 : timely w (now E) (l1 ++ (Eval, E1) :: l ++ [(Eval, E2)])).
  { replace (h ++ [(On d, E0)] ++ h2 ++ [(Off d, E)] ++ l1 ++ (Eval, E1) :: l ++ [(Eval, E2)])
      with ((h ++ [(On d, E0)] ++ h2) ++ (Off d, E) :: l1 ++ (Eval, E1) :: l ++ [(Eval, E2)]) in T by (rewrite <- !app_assoc; reflexivity).
    apply timely_tail in T. exact T. }
  assert (LE : now E <= now E1).
  { assert (X : In (Eval, E1) (l1 ++ (Eval, E1) :: l ++ [(Eval, E2)])) by (apply in_or_app; right; left; reflexivity).
    pose proof (timely_le _ _ _ _ T1 X). cbn in H. lia. }
  apply timely_tail in T1. cbn [snd] in T1.
  assert (Bm : b_mini (now E1) (fold_left (step1 w Bottom d) l (step1 w Bottom d a (Eval, E1)))).
  { apply b_mini_steps; [apply timely_app in T1; apply T1|exact O2|exact W|].
    apply (b_wait_late w d (now E)); assumption. }
  split.
  - destruct Bm as (b1 & b2 & b3 & _). unfold outputs. rewrite b1, b2, b3. reflexivity.
  - intros L2. apply (b_mini_end w d (now E1)); [|exact L2|exact Bm].
    assert (X : In (Eval, E2) (l ++ [(Eval, E2)])) by (apply in_or_app; right; left; reflexivity).
    pose proof (timely_le _ _ _ _ T1 X). cbn in H. lia.
Qed.
Print Assumptions C83_closes_if_late.

(** Opened again while its small valve is still to be closed, the valve closes by itself,
    and the small valve stays open whatever orders to close follow. *)
Theorem C83_reopened_closes :
  forall w K B t0 d h E0 h2 E l1 E1 l E2 l2 E3 l3,
    wired K B -> K d = Bottom ->
    timely w t0 (h ++ [(On d, E0)] ++ h2 ++ [(Off d, E)] ++ l1 ++ (Eval, E1) :: l ++ (On d, E2) :: l2 ++ [(Eval, E3)]) ->
    Forall (fun x => target (fst x) <> Some d \/ exists n, fst x = Man d n) h ->
    held d h false = false -> quiet d h2 ->
    only_off d l1 -> no_cycle l1 -> delay E1 < now E1 - now E -> 0 <= mdelay E1 ->
    only_off d l -> Forall (fun x => fst x = Eval -> now (snd x) - now E1 <= mdelay (snd x)) l ->
    quiet d l2 -> Forall (fun x => fst x = Eval -> now (snd x) - now E1 <= mdelay (snd x)) l2 ->
    mdelay E3 < now E3 - now E1 -> only_off_man d l3 ->
    let hist := h ++ [(On d, E0)] ++ h2 ++ [(Off d, E)] ++ l1 ++ (Eval, E1) :: l ++ (On d, E2) :: l2 in
    o0 (vs (run w K B (start t0) hist) d) = true /\
    o0 (vs (run w K B (start t0) (hist ++ (Eval, E3) :: l3)) d) = false /\
    o1 (vs (run w K B (start t0) (hist ++ (Eval, E3) :: l3)) d) = true.
Proof.
  intros w K B t0 d h E0 h2 E l1 E1 l E2 l2 E3 l3 HB HK T F M Q O1 N1 L L0 O2 W Q2' W2 L3 O3. cbv zeta.
  rewrite !(run_vs w K B) by assumption. rewrite HK.
  pose proof (bottom_waiting w d t0 h E0 h2 E l1 F M Q O1 N1) as (A & G).
  replace (h ++ [(On d, E0)] ++ h2 ++ [(Off d, E)] ++ l1 ++ (Eval, E1) :: l ++ (On d, E2) :: l2)
    with ((h ++ [(On d, E0)] ++ h2 ++ [(Off d, E)] ++ l1) ++ [(Eval, E1)] ++ l ++ [(On d, E2)] ++ l2) by (rewrite <- !app_assoc; reflexivity).
  rewrite (fold_left_app _ _ ((Eval, E3) :: l3)), !fold_left_app. rewrite !fold_left_app in A, G. set (a := fold_left _ l1 _) in *. cbn [fold_left].
  assert (T1 : timely w (now E) (l1 ++ (Eval, E1) :: l ++ (On d, E2) :: l2 ++ [(Eval, E3)])).
  { replace (h ++ [(On d, E0)] ++ h2 ++ [(Off d, E)] ++ l1 ++ (Eval, E1) :: l ++ (On d, E2) :: l2 ++ [(Eval, E3)])
      with ((h ++ [(On d, E0)] ++ h2) ++ (Off d, E) :: l1 ++ (Eval, E1) :: l ++ (On d, E2) :: l2 ++ [(Eval, E3)]) in T by (rewrite <- !app_assoc; reflexivity).
    apply timely_tail in T. exact T. }
  assert (LE : now E <= now E1).
  { assert (X : In (Eval, E1) (l1 ++ (Eval, E1) :: l ++ (On d, E2) :: l2 ++ [(Eval, E3)])) by (apply in_or_app; right; left; reflexivity).
    pose proof (timely_le _ _ _ _ T1 X). cbn in H. lia. }
  apply timely_tail in T1. cbn [snd] in T1.
  assert (Bm : b_mini (now E1) (fold_left (step1 w Bottom d) l (step1 w Bottom d a (Eval, E1)))).
  { apply b_mini_steps; [apply timely_app in T1; apply T1|exact O2|exact W|].
    apply (b_wait_late w d (now E)); assumption. }
  assert (Mn : manual (fst (fold_left (step1 w Bottom d) l (step1 w Bottom d a (Eval, E1)))) = false).
  { rewrite held_manual. unfold step1. cbn [fst snd]. rewrite eval1_manual, G.
    clear - O2. induction O2 as [|(o, e) l H Q IH]; [reflexivity|]. cbn [held]. destruct o; try exact IH.
    cbn in H. destruct (d0 =? d) eqn:Ed; [|exact IH]. apply Z.eqb_eq in Ed. destruct H as [H|H]; congruence. }
  set (b := fold_left _ l _) in *.
  assert (TE : now E1 <= now E2 /\ timely w (now E2) (l2 ++ [(Eval, E3)])).
  { split; [|apply timely_tail in T1; exact T1].
    assert (X : In (On d, E2) (l ++ (On d, E2) :: l2 ++ [(Eval, E3)])) by (apply in_or_app; right; left; reflexivity).
    pose proof (timely_le _ _ _ _ T1 X). cbn in H. lia. }
  destruct TE as (TE1 & TE2).
  assert (TL : forall t t' ll, t <= t' -> timely w t' ll -> timely w t ll).
  { intros t t' ll Htt Ht. destruct ll as [|x ll]; [exact I|]. destruct Ht as (Ht1 & Ht2). split; [lia|exact Ht2]. }
  assert (Ba : b_again (now E1) (fold_left (step1 w Bottom d) l2 (step1 w Bottom d b (On d, E2)))).
  { apply b_again_steps; [|exact Q2'|exact W2|].
    - apply timely_app in TE2. apply (TL _ (now E2)); [exact TE1|apply TE2].
    - apply b_mini_on; assumption. }
  set (c := fold_left _ l2 _) in *.
  split; [apply Ba|].
  assert (LE3 : now E1 <= now E3).
  { assert (X : In (Eval, E3) (l2 ++ [(Eval, E3)])) by (apply in_or_app; right; left; reflexivity).
    pose proof (timely_le _ _ _ _ TE2 X). cbn in H. lia. }
  pose proof (b_left_steps w d l3 _ O3 (b_again_end w d (now E1) c E3 LE3 L3 Ba)) as (r1 & r2 & _).
  split; assumption.
Qed.
Print Assumptions C83_reopened_closes.

(** Closed at once (an order to close without delay, or the operator), the valve leaves its
    small valve open whatever orders to close follow. *)
Theorem C83_small_left_open :
  forall w K B t0 d h E0 h2 x E l,
    wired K B -> K d = Bottom ->
    Forall (fun x => target (fst x) <> Some d \/ exists n, fst x = Man d n) h ->
    held d h false = false -> quiet d h2 -> x = Instant d \/ x = Cmd d 0 ->
    only_off_man d l ->
    let s := vs (run w K B (start t0) (h ++ [(On d, E0)] ++ h2 ++ (x, E) :: l)) d in
    o0 s = false /\ o1 s = true /\
    (manual s = false -> forall t i, fst (get_state w Bottom t i s) = if p_fb i then 2 else 32).
Proof.
  intros w K B t0 d h E0 h2 x E l HB HK F M Q X O. cbv zeta. rewrite (run_vs w K B) by assumption. rewrite HK.
  rewrite !fold_left_app. cbn [fold_left].
  set (b := fold_left (step1 w Bottom d) h2 _).
  assert (A : b_open b).
  { apply b_open_quiets; [exact Q|].
    apply fresh_on; [rewrite held_manual; exact M|]. apply fresh_quiets; [discriminate|exact F|]. apply fresh_start. }
  assert (G : manual (fst b) = false).
  { unfold b. rewrite held_manual, on_step_manual, held_manual. cbn. rewrite M.
    clear - Q. induction Q as [|(o, e) l H Q IH]; [reflexivity|]. cbn [held]. destruct o; try exact IH.
    cbn in H. destruct (d0 =? d) eqn:Ed; [|exact IH]. apply Z.eqb_eq in Ed. congruence. }
  assert (L : b_left (step1 w Bottom d b (x, E))).
  { apply b_open_direct; [|exact A]. destruct X as [-> | ->]; [left; split; [reflexivity|exact G]|right; reflexivity]. }
  pose proof (b_left_steps w d l _ O L) as (r1 & r2 & _).
  split; [exact r1|]. split; [exact r2|]. intros Mm t i.
  unfold get_state. cbv zeta. cbn [valve_state has_fb]. rewrite r1, r2, Mm. cbn. destruct (p_fb i); reflexivity.
Qed.
Print Assumptions C83_small_left_open.

Theorem C83_refuted :
  ~ (forall w K B t0 d h E E',
      wired K B -> K d = Bottom -> timely w t0 (h ++ [(Off d, E); (Eval, E')]) -> held d h false = false ->
      delay E' < now E' - now E -> o0 (vs (run w K B (start t0) (h ++ [(Off d, E); (Eval, E')])) d) = false).
Proof.
  intros H.
  specialize (H 64 (fun _ => Bottom) [] 0 4 [(On 4, exE 10); (Off 4, exE 20); (Eval, exE 30)] (exE 40) (exE 5000)).
  match type of H with ?A -> ?B -> ?C -> ?D -> ?F -> ?G => assert (X : G) by (apply H; [|reflexivity|cbn; lia|reflexivity|cbn; lia]; intros x; split; [intros []|discriminate]) end.
  vm_compute in X. discriminate X.
Qed.
Print Assumptions C83_refuted.

(** A cycle of 100 ms: never closed; a first cycle after 1.1 s: closed, and closed again
    after an order to open. *)
Example C83_example :
  o0 (vs (exrun [(On 4, exE 10); (Eval, exE 100); (Off 4, exE 200); (Eval, exE 300); (Eval, exE 400); (Eval, exE 1300); (Off 4, exE 9000); (Eval, exE 90000)]) 4) = true /\
  outputs (vs (exrun [(On 4, exE 10); (Eval, exE 100); (Off 4, exE 200); (Eval, exE 1300)]) 4) = (false, true, false) /\
  outputs (vs (exrun [(On 4, exE 10); (Eval, exE 100); (Off 4, exE 200); (Eval, exE 1300); (Eval, exE 2501)]) 4) = (false, false, false) /\
  outputs (vs (exrun [(On 4, exE 10); (Eval, exE 100); (Off 4, exE 200); (Eval, exE 1300); (On 4, exE 2000); (Eval, exE 2501)]) 4) = (false, true, false).
Proof. vm_compute. repeat split. Qed.
