(** The model of motors does what the specification says. *)
From Coq Require Import ZArith List Bool Lia.
From Verif Require Import Base TimeModel MotModel MotSpec.
Import ListNotations.
Open Scope Z_scope.

Lemma delta_ge w n t : 0 <= t <= n -> get_delta_millisec w n t = n - t.
Proof.
  intros H. unfold get_delta_millisec. replace (n <? t) with false by lia. replace (t <=? n) with true by lia. reflexivity.
Qed.

Record inv (k : kind) (s : mst) (p : past) : Prop := {
  i_out : (fwd s, rev s) = wires k (asked p);
  i_v : freq s = speed p;
  i_t : t_sw s = since p;
  i_man : man s = held p;
  i_one : reverses k = false -> asked p <> Astern }.

Definition setting (k : kind) (now : Z) (q : want) (s : mst) : mst :=
  {| fwd := fst (wires k q); rev := snd (wires k q);
     freq := if has_freq k && want_eqb q Stop then 0 else freq s;
     t_sw := if Bool.eqb (fwd s) (fst (wires k q)) && Bool.eqb (rev s) (snd (wires k q)) then t_sw s else now; man := man s |}.
Lemma set_as k t n s : (one_way k = true -> rev s = false) ->
  direct_set_state k t n s = setting k t (meaning k n) s.
Proof.
  intros R. unfold direct_set_state, meaning, setting, direct_on, direct_off, direct_set_value, put_fwd, put_rev.
  destruct s as [f r v ts m]. destruct k; cbn in *; try (rewrite (R eq_refl)); destruct (n =? 2) eqn:E2, (n =? 0) eqn:E0; try lia; destruct f; try destruct r; reflexivity.
Qed.
Lemma on_as k t s : (one_way k = true -> rev s = false) -> direct_on k t s = setting k t Ahead s.
Proof.
  intros R. unfold setting, direct_on, put_fwd, put_rev. destruct s as [f r v ts m].
  destruct k; cbn in *; try (rewrite (R eq_refl)); destruct f; try destruct r; reflexivity.
Qed.
Lemma off_as k t s : (one_way k = true -> rev s = false) -> direct_off k t s = setting k t Stop s.
Proof.
  intros R. unfold setting, direct_off, direct_set_value, put_fwd, put_rev. destruct s as [f r v ts m].
  destruct k; cbn in *; try (rewrite (R eq_refl)); destruct f; try destruct r; reflexivity.
Qed.
Lemma inv_one k s p : inv k s p -> one_way k = true -> rev s = false.
Proof.
  intros I O. assert (reverses k = false) by (destruct k; try discriminate O; reflexivity).
  pose proof (i_one _ _ _ I H) as N. pose proof (i_out _ _ _ I) as W. destruct (asked p); cbn in W; congruence.
Qed.
Lemma wires_eq k q q' : Bool.eqb (fst (wires k q)) (fst (wires k q')) && Bool.eqb (snd (wires k q)) (snd (wires k q')) = want_eqb q q'.
Proof. destruct q, q', k; reflexivity. Qed.
Lemma has_speed k : has_freq k = speed_set k. Proof. destruct k; reflexivity. Qed.
Lemma setting_inv k s p q x : inv k s p -> asks k (held p) (fst x) = Some q -> speed_asked (held p) (fst x) = None ->
  (speed_set k = false -> speed p = 0) ->
  match fst x with Man _ | Poll => False | _ => True end -> (reverses k = false -> q <> Astern) ->
  inv k (setting k (now (snd x)) q s) (note k p x).
Proof.
  intros I A S Z0 N O. constructor.
  - unfold note. rewrite A. cbn. destruct (wires k q); reflexivity.
  - unfold note. rewrite A, S. cbn [setting freq speed]. rewrite has_speed, (i_v _ _ _ I). destruct (speed_set k); [destruct q; reflexivity|apply Z0; reflexivity].
  - unfold note. rewrite A. cbn [setting t_sw since]. pose proof (i_out _ _ _ I) as W.
    replace (fwd s) with (fst (wires k (asked p))) by (rewrite <- W; reflexivity).
    replace (rev s) with (snd (wires k (asked p))) by (rewrite <- W; reflexivity).
    rewrite wires_eq, (i_t _ _ _ I). replace (want_eqb (asked p) q) with (want_eqb q (asked p)) by (destruct q, (asked p); reflexivity).
    destruct (fst x); try contradiction; rewrite orb_false_r; destruct (want_eqb q (asked p)); reflexivity.
  - unfold note. rewrite A. cbn [setting man held]. destruct (fst x); try contradiction; apply I.
  - unfold note. rewrite A. exact O.
Qed.
Lemma meaning_one k n : reverses k = false -> meaning k n <> Astern.
Proof. intros R. unfold meaning. rewrite R. cbn [andb]. destruct (n =? 0); discriminate. Qed.
Lemma idle_inv k s p x : inv k s p -> asks k (held p) (fst x) = None -> speed_asked (held p) (fst x) = None ->
  (speed_set k = false -> speed p = 0) ->
  match fst x with Man _ | Poll => False | _ => True end -> inv k s (note k p x).
Proof.
  intros I A S Z0 N. assert (W : forall q, want_eqb q q = true) by (intros []; reflexivity).
  constructor; unfold note; rewrite A, ?S, ?W; cbn [negb orb asked speed since held].
  - apply I.
  - rewrite (i_v _ _ _ I). destruct (speed_set k); [reflexivity|apply Z0; reflexivity].
  - destruct (fst x); try contradiction; apply I.
  - destruct (fst x); try contradiction; apply I.
  - apply I.
Qed.
(** A reading. *)
Lemma reported w k E s p : inv k s p -> 0 <= since p <= now E -> now E < 2 ^ w -> 
  get_state w k E s = (report k E p, if fine k (di E) (asked p) then wt (now E) s else s).
Proof.
  intros I T H. unfold get_state, report. rewrite (i_t _ _ _ I), delta_ge by lia.
  pose proof (i_out _ _ _ I) as W. pose proof (i_one _ _ _ I) as O. destruct (asked p) eqn:A; cbn in W; injection W as -> ->;
  destruct k; cbn in *; try (exfalso; apply O; reflexivity); destruct (di E); cbn; try reflexivity; destruct (p_time E <? now E - since p); reflexivity.
Qed.
Lemma step_inv w k s p x : inv k s p -> (speed_set k = false -> speed p = 0) -> 0 <= since p <= now (snd x) -> now (snd x) < 2 ^ w ->
  inv k (step w k s x) (note k p x).
Proof.
  intros I Z0 T H. destruct x as (o, E). cbn [snd] in *. unfold step. cbn [fst snd].
  pose proof (i_man _ _ _ I) as MN. pose proof (inv_one _ _ _ I) as R1.
  assert (VAL : forall v, asks k (held p) o = None -> speed_asked (held p) o = Some v -> match o with Man _ | Poll => False | _ => True end -> inv k (direct_set_value k v s) (note k p (o, E))).
  { intros v A S N. assert (W : forall q, want_eqb q q = true) by (intros []; reflexivity).
    unfold direct_set_value. rewrite has_speed. constructor; unfold note; cbn [fst snd]; rewrite A, ?S, ?W; cbn [negb orb asked speed since held];
      destruct (speed_set k) eqn:F; cbn [fwd rev freq t_sw man]; try apply I; try reflexivity; try (rewrite (i_v _ _ _ I); apply Z0; reflexivity);
      destruct o; try contradiction; apply I. }
  destruct o.
  - rewrite MN. destruct (held p) eqn:HP; [apply idle_inv; cbn; rewrite ?HP; auto|]. rewrite on_as by exact R1.
    apply (setting_inv k s p Ahead (On, E)); cbn; rewrite ?HP; auto; discriminate.
  - rewrite MN. destruct (held p) eqn:HP; [apply idle_inv; cbn; rewrite ?HP; auto|]. rewrite off_as by exact R1.
    apply (setting_inv k s p Stop (Off, E)); cbn; rewrite ?HP; auto; discriminate.
  - rewrite MN. destruct (held p) eqn:HP; [apply idle_inv; cbn; rewrite ?HP; auto|]. rewrite set_as by exact R1.
    apply (setting_inv k s p (meaning k n) (Set_ n, E)); cbn [asks speed_asked fst]; rewrite ?HP; auto. apply meaning_one.
  - rewrite MN. destruct (held p) eqn:HP; [apply idle_inv; cbn; rewrite ?HP; auto|]. rewrite set_as by exact R1.
    apply (setting_inv k s p (meaning k 2) (Back, E)); cbn [asks speed_asked fst]; rewrite ?HP; auto. apply meaning_one.
  - rewrite MN. destruct (held p) eqn:HP; [apply idle_inv; cbn; rewrite ?HP; auto|]. apply VAL; cbn; rewrite ?HP; auto.
  - rewrite set_as by exact R1. apply (setting_inv k s p (meaning k n) (Cmd n, E)); cbn [asks speed_asked fst]; auto. apply meaning_one.
  - apply VAL; cbn; auto.
  - assert (W : forall q, want_eqb q q = true) by (intros []; reflexivity).
    constructor; unfold note; cbn [fst snd asks speed_asked]; rewrite ?W; cbn [negb orb asked speed since held];
      destruct (n =? 0); try destruct (n =? 1); cbn [wman fwd rev freq t_sw man]; try apply I; try reflexivity;
      rewrite (i_v _ _ _ I); destruct (speed_set k); try reflexivity; apply Z0; reflexivity.
  - rewrite (reported w k E s p I T H). cbn [snd]. assert (W : forall q, want_eqb q q = true) by (intros []; reflexivity).
    constructor; unfold note; cbn [fst snd asks speed_asked]; rewrite ?W; cbn [negb orb asked speed since held];
      destruct (fine k (di E) (asked p)); cbn [wt fwd rev freq t_sw man]; try apply I; try reflexivity;
      rewrite (i_v _ _ _ I); destruct (speed_set k); try reflexivity; apply Z0; reflexivity.
Qed.
Lemma note_speed k p x : (speed_set k = false -> speed p = 0) -> speed_set k = false -> speed (note k p x) = 0.
Proof. intros H S. unfold note. cbn [speed]. rewrite S. reflexivity. Qed.
Lemma note_since k p x t : since p <= t -> t <= now (snd x) -> since p <= since (note k p x) <= now (snd x).
Proof. intros H L. unfold note. cbn [since]. match goal with |- context [if ?b then _ else _] => destruct b end; lia. Qed.
Lemma run_inv w k l : forall s p t, inv k s p -> (speed_set k = false -> speed p = 0) -> 0 <= since p <= t -> timely w t l ->
  inv k (run w k s l) (fold_left (note k) l p).
Proof.
  induction l as [|x l IH]; intros s p t I Z0 T L; [exact I|]. destruct L as (L1 & L2). cbn [run fold_left]. unfold run in *. cbn [fold_left].
  apply (IH _ _ (now (snd x))).
  - apply step_inv; [assumption|assumption|lia|lia].
  - apply note_speed. exact Z0.
  - pose proof (note_since k p x t ltac:(lia) ltac:(lia)). lia.
  - exact L2.
Qed.
Lemma since_before k l w : forall p t n, 0 <= since p <= t -> timely w t l -> t <= n -> (forall x, In x l -> now (snd x) <= n) -> 0 <= since (fold_left (note k) l p) <= n.
Proof.
  induction l as [|x l IH]; intros p t n T L N A; cbn [fold_left]; [lia|]. destruct L as (L1 & L2).
  apply (IH _ (now (snd x))); [|exact L2|apply A; left; reflexivity|intros y Y; apply A; right; exact Y].
  pose proof (note_since k p x t ltac:(lia) ltac:(lia)). lia.
Qed.
Lemma history w k t0 l : 0 <= t0 -> timely w t0 l -> inv k (run w k (new_motor t0) l) (past_of k t0 l).
Proof.
  intros H T. apply (run_inv w k l _ _ t0); [|reflexivity|cbn; lia|exact T].
  constructor; try reflexivity. discriminate.
Qed.
