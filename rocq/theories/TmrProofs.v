(** The model of timers and threshold regulators against the specification. *)
From Coq Require Import ZArith List Bool Lia.
From Verif Require Import Base TimeModel TmrModel TmrSpec.
Import ListNotations.
Open Scope Z_scope.

Lemma delta_ge w n t : 0 <= t <= n -> get_delta_millisec w n t = n - t.
Proof.
  intros H. unfold get_delta_millisec. replace (n <? t) with false by lia. replace (t <=? n) with true by lia. reflexivity.
Qed.

Lemma count_ext f g n : forall a, (forall u, a <= u < a + Z.of_nat n -> f u = g u) -> count f a n = count g a n.
Proof.
  induction n as [|n IH]; intros a H; [reflexivity|]. cbn [count]. rewrite (H a) by lia. rewrite (IH (a + 1)); [reflexivity|]. intros u U. apply H. lia.
Qed.
Lemma count_add f n : forall a m, count f a (n + m) = count f a n + count f (a + Z.of_nat n) m.
Proof.
  induction n as [|n IH]; intros a m; [cbn; rewrite Z.add_0_r; reflexivity|]. cbn [count plus]. rewrite IH. replace (a + 1 + Z.of_nat n) with (a + Z.of_nat (S n)) by lia. lia.
Qed.
Lemma count_all f n : forall a, (forall u, a <= u < a + Z.of_nat n -> f u = true) -> count f a n = Z.of_nat n.
Proof. induction n as [|n IH]; intros a H; [reflexivity|]. cbn [count]. rewrite (H a) by lia. rewrite IH; [cbn [Z.b2z]; lia|]. intros u U. apply H. lia. Qed.
Lemma count_none f n : forall a, (forall u, a <= u < a + Z.of_nat n -> f u = false) -> count f a n = 0.
Proof. induction n as [|n IH]; intros a H; [reflexivity|]. cbn [count]. rewrite (H a) by lia. rewrite IH; [reflexivity|]. intros u U. apply H. lia. Qed.
Lemma count_range f n : forall a, 0 <= count f a n <= Z.of_nat n.
Proof. induction n as [|n IH]; intros a; [cbn; lia|]. cbn [count]. specialize (IH (a + 1)). destruct (f a); cbn [Z.b2z]; lia. Qed.

Lemma running_snoc l e u : running (l ++ [e]) u =
  if time_of e <=? u then match e with Start _ => true | Reset _ | Hold _ => false | Count _ _ => running l u end else running l u.
Proof. unfold running. rewrite fold_left_app. reflexivity. Qed.
Lemma reset_snoc l e : reset_at (l ++ [e]) = match e with Reset u => u | _ => reset_at l end.
Proof. unfold reset_at. rewrite fold_left_app. reflexivity. Qed.
Lemma limit_snoc l e : limit (l ++ [e]) = match e with Count _ m => m | _ => limit l end.
Proof. unfold limit. rewrite fold_left_app. reflexivity. Qed.
Lemma latest_snoc l e : forall t, latest t (l ++ [e]) = time_of e.
Proof. induction l as [|x l IH]; intros t; [reflexivity|apply IH]. Qed.
Lemma timely_snoc w l e : forall t, timely w t (l ++ [e]) -> timely w t l /\ latest t l <= time_of e < 2 ^ w.
Proof.
  induction l as [|x l IH]; intros t; cbn [app timely latest]; [tauto|]. intros (A & B). destruct (IH _ B). tauto.
Qed.

(** The time of the timer, not wrapped. *)
Definition value (s : tmr) (now : Z) : Z := match st s with Work => work s + (now - last s) | _ => work s end.
Record tinv (w : Z) (s : tmr) (l : list tev) (T : Z) : Prop := {
  v_val : forall now, T <= now -> value s now = elapsed l now;
  v_run : forall u, T <= u -> running l u = match st s with Work => true | _ => false end;
  v_last : st s = Work -> 0 <= last s <= T;
  v_reset : 0 <= reset_at l <= T;
  v_stop : st s = Stop -> work s = 0;
  v_cd : cd s = limit l mod 2 ^ w }.
Lemma elapsed_range l now : reset_at l <= now -> 0 <= elapsed l now <= now - reset_at l.
Proof. intros H. unfold elapsed. pose proof (count_range (running l) (Z.to_nat (now - reset_at l)) (reset_at l)). lia. Qed.
Lemma elapsed_split l e t now : (match e with Reset _ => False | _ => True end) -> time_of e = t -> reset_at l <= t <= now ->
  elapsed (l ++ [e]) now = elapsed l t + count (running (l ++ [e])) t (Z.to_nat (now - t)).
Proof.
  intros NE TE H. unfold elapsed. assert (R : reset_at (l ++ [e]) = reset_at l) by (rewrite reset_snoc; destruct e; tauto). rewrite R.
  replace (Z.to_nat (now - reset_at l)) with (Z.to_nat (t - reset_at l) + Z.to_nat (now - t))%nat by lia. rewrite count_add. f_equal.
  - apply count_ext. intros u U. rewrite running_snoc, TE. replace (t <=? u) with false by lia. reflexivity.
  - f_equal. lia.
Qed.

Lemma timer_inv w l : 0 < w -> timely w 0 l -> tinv w (t_run w new_tmr l) l (latest 0 l).
Proof.
  intros W0. induction l as [|e l IH] using rev_ind; intros T.
  - constructor; try reflexivity; cbn [t_run fold_left new_tmr st work cd last latest reset_at limit]; try lia; try discriminate.
    intros now H. unfold elapsed. rewrite count_none; [reflexivity|]. intros; reflexivity.
  - destruct (timely_snoc w l e 0 T) as (T1 & T2). destruct (IH T1) as [V1 V2 V3 V4 V5 V6]. clear IH.
    unfold t_run in *. rewrite fold_left_app. cbn [fold_left]. set (s := fold_left (t_step w) l new_tmr) in *. set (T0 := latest 0 l) in *.
    rewrite latest_snoc.
    assert (RB : forall now, T0 <= now -> 0 <= elapsed l now < 2 ^ w \/ 2 ^ w <= now) by (intros now N; pose proof (elapsed_range l now); lia).
    destruct e as [t|t|t|t n]; cbn [time_of] in *.
    + assert (EL : forall now, t <= now -> elapsed (l ++ [Start t]) now = elapsed l t + (now - t)).
      { intros now N. rewrite (elapsed_split l (Start t) t now) by (cbn; tauto || lia). rewrite count_all; [lia|].
        intros u U. rewrite running_snoc. cbn [time_of]. replace (t <=? u) with true by lia. reflexivity. }
      pose proof (V1 t ltac:(lia)) as VT. unfold value in VT.
      constructor; rewrite ?reset_snoc, ?limit_snoc; [|intros u U; rewrite running_snoc; cbn [time_of]; replace (t <=? u) with true by lia|..]; try lia.
      * intros now N. rewrite EL by exact N. unfold value. cbn [t_step]. destruct (st s) eqn:E; cbn [st work last]; [rewrite (V5 eq_refl) in VT| |]; lia.
      * cbn [t_step]. destruct (st s); reflexivity.
      * cbn [t_step]. destruct (st s); cbn [st last]; intros _; try lia. specialize (V3 eq_refl). lia.
      * cbn [t_step]. destruct (st s); discriminate.
      * cbn [t_step]. destruct (st s); exact V6.
    + constructor; rewrite ?reset_snoc, ?limit_snoc; cbn [t_step st last work cd]; try discriminate; try lia; try exact V6.
      * intros now N. unfold value, elapsed. cbn [t_step st work]. rewrite reset_snoc. rewrite count_none; [reflexivity|].
        intros u U. rewrite running_snoc. cbn [time_of]. replace (t <=? u) with true by lia. reflexivity.
      * intros u U. rewrite running_snoc. cbn [time_of]. replace (t <=? u) with true by lia. reflexivity.
    + assert (EL : forall now, t <= now -> elapsed (l ++ [Hold t]) now = elapsed l t).
      { intros now N. rewrite (elapsed_split l (Hold t) t now) by (cbn; tauto || lia). rewrite count_none; [lia|].
        intros u U. rewrite running_snoc. cbn [time_of]. replace (t <=? u) with true by lia. reflexivity. }
      pose proof (V1 t ltac:(lia)) as VT. unfold value in VT. destruct (RB t ltac:(lia)) as [RT|RT]; [|lia].
      constructor; rewrite ?reset_snoc, ?limit_snoc; cbn [t_step st last work cd]; try discriminate; try lia; try exact V6.
      * intros now N. rewrite EL by exact N. unfold value. cbn [t_step st work]. destruct (st s) eqn:E; [exact VT| |exact VT].
        specialize (V3 eq_refl). rewrite delta_ge by lia. rewrite VT. apply Z.mod_small. exact RT.
      * intros u U. rewrite running_snoc. cbn [time_of]. replace (t <=? u) with true by lia. reflexivity.
    + assert (EL : forall now, t <= now -> elapsed (l ++ [Count t n]) now = elapsed l now).
      { intros now N. rewrite (elapsed_split l (Count t n) t now) by (cbn; tauto || lia). unfold elapsed.
        replace (Z.to_nat (now - reset_at l)) with (Z.to_nat (t - reset_at l) + Z.to_nat (now - t))%nat by lia. rewrite count_add. f_equal.
        replace (reset_at l + Z.of_nat (Z.to_nat (t - reset_at l))) with t by lia. apply count_ext. intros u U. rewrite running_snoc. cbn [time_of].
        destruct (t <=? u); reflexivity. }
      constructor; rewrite ?reset_snoc, ?limit_snoc; cbn [t_step st last work cd]; try lia; try assumption; try reflexivity.
      * intros now N. rewrite EL by exact N. rewrite <- V1 by lia. reflexivity.
      * intros u U. rewrite running_snoc. cbn [time_of]. rewrite V2 by lia. destruct (t <=? u); reflexivity.
      * intros H. specialize (V3 H). lia.
Qed.

Lemma work_spec w l now : 0 < w -> timely w 0 l -> latest 0 l <= now < 2 ^ w -> work_time w now (t_run w new_tmr l) = elapsed l now.
Proof.
  intros W0 T N. destruct (timer_inv w l W0 T) as [V1 V2 V3 V4 V5 V6]. set (s := t_run w new_tmr l) in *.
  specialize (V1 now ltac:(lia)). unfold work_time, value in *. pose proof (elapsed_range l now ltac:(lia)) as R.
  destruct (st s) eqn:E; [exact V1| |exact V1]. specialize (V3 eq_refl). rewrite delta_ge by lia. rewrite V1. apply Z.mod_small. lia.
Qed.
Lemma up_spec w l now : 0 < w -> timely w 0 l -> latest 0 l <= now < 2 ^ w ->
  time_up w now (t_run w new_tmr l) = running l now && (limit l mod 2 ^ w <? elapsed l now mod 2 ^ 32).
Proof.
  intros W0 T N. destruct (timer_inv w l W0 T) as [V1 V2 V3 V4 V5 V6]. set (s := t_run w new_tmr l) in *.
  specialize (V1 now ltac:(lia)). rewrite (V2 now) by lia. unfold time_up, value in *. pose proof (elapsed_range l now ltac:(lia)) as R.
  destruct (st s) eqn:E; [reflexivity| |reflexivity]. specialize (V3 eq_refl). rewrite delta_ge by lia. rewrite V1, V6.
  rewrite (Z.mod_small (elapsed l now) (2 ^ w)) by lia. cbn [andb]. rewrite Z.leb_antisym, negb_involutive. reflexivity.
Qed.

(** Many timers. *)
Lemma same_refl p : same p p = true.
Proof. destruct p; cbn; [apply Z.eqb_refl|reflexivity]. Qed.
Lemma many w cnt l : forall m p, fold_left (m_step w cnt) l m p = t_run w (m p) (map snd (filter (fun c => same p (pick cnt (fst c))) l)).
Proof.
  induction l as [|c l IH]; intros m p; [reflexivity|]. cbn [fold_left filter]. rewrite IH. unfold m_step.
  destruct (same p (pick cnt (fst c))); reflexivity.
Qed.

