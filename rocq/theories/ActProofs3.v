(** Proofs about the actions of a step: washing of seats and the whole step. *)
From Coq Require Import ZArith List Bool Lia QArith.
From Verif Require Import Base FTextModel FloatModel FloatProofs FloatProofs2 AioProofs TimeModel OpModel OpSpec ActModel ActSpec ActProofs ActProofs2.
Import ListNotations.
Open Scope Z_scope.

(** No clock wrap since [t]. *)
Definition since (i : inputs) (t : Z) : Prop := 0 <= t <= i_now i.
Lemma delta_since w i t : since i t -> get_delta_millisec w (i_now i) t = i_now i - t.
Proof. intros R. unfold get_delta_millisec, since in *. replace (i_now i <? t) with false by lia. replace (t <=? i_now i) with true by lia. reflexivity. Qed.

Section Seats.
  Context (w : Z) (kind : Z -> Z) (a : acts) (i : inputs) (d : Z).

  Lemma checked_gen (c : option Z) (W : cmd -> option Z) D l :
    (forall x, W (Off x) = if d =? x then c else None) ->
    latest W (off_checked kind D l) = if has d l && negb (washed kind (d_seat (D d)) d) then c else None.
  Proof.
    intros H. unfold off_checked. rewrite latest_flat.
    rewrite (latest_ext _ (fun x => if d =? x then (if negb (washed kind (d_seat (D d)) d) then c else None) else None)).
    { rewrite latest_const. destruct (has d l), (negb _); reflexivity. }
    intros x _. unfold washed, VALVE, DT_V. destruct (Z.eqb_spec d x) as [->|N].
    - destruct (kind x =? 0), (d_seat (D x)); cbn; rewrite ?H, ?Z.eqb_refl; destruct c; reflexivity.
    - apply Z.eqb_neq in N. destruct (kind x =? 0), (d_seat (D x)); cbn; rewrite ?H, ?N; reflexivity.
  Qed.
  Lemma has_concat l : existsb (has d) l = has d (concat l).
  Proof. induction l as [|x r IH]; cbn; [reflexivity|]. rewrite IH. unfold has. rewrite existsb_app. reflexivity. Qed.
  Lemma checked_all (c : option Z) (W : cmd -> option Z) D l :
    (forall x, W (Off x) = if d =? x then c else None) ->
    latest W (flat_map (off_checked kind D) l) = if existsb (has d) l && negb (washed kind (d_seat (D d)) d) then c else None.
  Proof.
    intros H. rewrite latest_flat. induction l as [|x r IH]; cbn; [reflexivity|]. rewrite IH, (checked_gen c W D x H).
    destruct (has d x), (existsb (has d) r), (negb _), c; reflexivity.
  Qed.
  Lemma off_seats_s l : latest (ws d) (off_seats kind l) = s_close d l.
  Proof.
    unfold off_seats, s_close. rewrite latest_flat. rewrite (latest_ext _ (fun x => if d =? x then Some 0 else None)); [apply latest_const|].
    intros x _. destruct (kind x =? DT_V); cbn; destruct (d =? x); reflexivity.
  Qed.
  Lemma off_seats_v l : latest (wv d) (off_seats kind l) = s_close d l.
  Proof.
    unfold off_seats, s_close. rewrite latest_flat. rewrite (latest_ext _ (fun x => if d =? x then Some 0 else None)); [apply latest_const|].
    intros x _. destruct (kind x =? DT_V); cbn; destruct (d =? x); reflexivity.
  Qed.
  Lemma off_seats_f l : latest (wf d) (off_seats kind l) = if (kind d =? 0) && has d l then Some 0 else None.
  Proof.
    unfold off_seats. rewrite latest_flat. rewrite (latest_ext _ (fun x => if d =? x then (if kind d =? 0 then Some 0 else None) else None)).
    - rewrite latest_const. destruct (has d l), (kind d =? 0); reflexivity.
    - intros x _. unfold DT_V. destruct (Z.eqb_spec d x) as [->|N].
      + destruct (kind x =? 0); cbn; rewrite ?Z.eqb_refl; reflexivity.
      + apply Z.eqb_neq in N. destruct (kind x =? 0); cbn; rewrite ?N; reflexivity.
  Qed.
  Lemma on_seats_s st l : latest (ws d) (on_seats kind st l) = s_open kind d st l.
  Proof.
    unfold on_seats, s_open, VALVE. rewrite latest_flat.
    rewrite (latest_ext _ (fun x => if d =? x then (Some (if kind d =? 0 then st else 1)) else None)); [apply latest_const|].
    intros x _. unfold DT_V. destruct (Z.eqb_spec d x) as [->|N].
    - destruct (kind x =? 0); cbn; rewrite ?Z.eqb_refl; reflexivity.
    - apply Z.eqb_neq in N. destruct (kind x =? 0); cbn; rewrite ?N; reflexivity.
  Qed.
  Lemma on_seats_v st l : latest (wv d) (on_seats kind st l) = None.
  Proof. unfold on_seats. rewrite latest_flat. apply latest_none. intros x _. destruct (kind x =? DT_V); reflexivity. Qed.
  Lemma on_seats_f st l : latest (wf d) (on_seats kind st l) = if (kind d =? 0) && has d l then Some 1 else None.
  Proof.
    unfold on_seats. rewrite latest_flat. rewrite (latest_ext _ (fun x => if d =? x then (if kind d =? 0 then Some 1 else None) else None)).
    - rewrite latest_const. destruct (has d l), (kind d =? 0); reflexivity.
    - intros x _. unfold DT_V. destruct (Z.eqb_spec d x) as [->|N].
      + destruct (kind x =? 0); cbn; rewrite ?Z.eqb_refl; reflexivity.
      + apply Z.eqb_neq in N. destruct (kind x =? 0); cbn; rewrite ?N; reflexivity.
  Qed.

  (** The state of the seats is one of three phases. *)
  Definition phase_ok (y : adyn) : Prop := y_phase y = 0 \/ y_phase y = 1 \/ y_phase y = 2.

  Lemma no_seats_groups : no_seats a = true -> a_upper a = [] /\ a_lower a = [].
  Proof. unfold no_seats. destruct (a_upper a), (a_lower a); try discriminate. auto. Qed.
  Lemma nil_group y : no_seats a = true -> seat_group a y = [].
  Proof.
    intros H. unfold seat_group, col. apply no_seats_groups in H as [-> ->]. destruct (y_phase y =? 1); destruct (Z.to_nat _); reflexivity.
  Qed.
  Lemma fin_seat y : phase_ok y -> seat_finalize kind a y = if y_phase y =? 0 then [] else off_seats kind (seat_group a y).
  Proof.
    intros P. unfold seat_finalize. destruct (no_seats a) eqn:N.
    - rewrite (nil_group y N). destruct (y_phase y =? 0); reflexivity.
    - unfold seat_group, nth_group, P_OPEN_UPPER, P_OPEN_LOWER. destruct P as [P|[P|P]]; rewrite P; reflexivity.
  Qed.
  (** The commands of the washing of seats. *)
  Lemma seat_cmds D y : phase_ok y -> since i (y_cycle y) ->
    fst (seat_eval w kind a i D y) =
      if y_phase y =? 0 then flat_map (off_checked kind D) (a_lower a) ++ flat_map (off_checked kind D) (a_upper a)
      else if seat_open_now i y then on_seats kind (if y_phase y =? 1 then 2 else 3) (seat_group a y)
      else off_seats kind (seat_group a y).
  Proof.
    intros P S. unfold seat_eval. destruct (no_seats a) eqn:N.
    - cbn. rewrite (nil_group y N). apply no_seats_groups in N as [-> ->].
      destruct (y_phase y =? 0), (seat_open_now i y); reflexivity.
    - unfold P_WAITING, P_OPEN_UPPER, P_OPEN_LOWER, seat_open_now, seat_phase. rewrite (delta_since w i _ S), (fin_seat y P).
      unfold seat_group, nth_group.
      destruct P as [P|[P|P]]; rewrite P; cbn [Z.eqb Pos.eqb negb andb fst]; [reflexivity| |].
      + destruct (a_upper a) as [|x r] eqn:U.
        * unfold col. destruct (_ <? _), (Z.to_nat _); reflexivity.
        * destruct (_ <? _); reflexivity.
      + destruct (a_lower a) as [|x r] eqn:U.
        * unfold col. destruct (_ <? _), (Z.to_nat _); reflexivity.
        * destruct (_ <? _); reflexivity.
  Qed.
  Lemma seat_s D y : phase_ok y -> since i (y_cycle y) ->
    latest (ws d) (fst (seat_eval w kind a i D y)) = s_seat kind a i y (d_seat (D d)) d.
  Proof.
    intros P S. rewrite (seat_cmds D y P S). unfold s_seat, s_wait. destruct (y_phase y =? 0).
    - rewrite latest_app, !(checked_all (Some 0)) by reflexivity. rewrite existsb_app.
      destruct (existsb (has d) (a_upper a)), (existsb (has d) (a_lower a)), (negb _); reflexivity.
    - destruct (seat_open_now i y); [apply on_seats_s|apply off_seats_s].
  Qed.
  Lemma seat_v D y : phase_ok y -> since i (y_cycle y) ->
    latest (wv d) (fst (seat_eval w kind a i D y)) = zeroed (s_seat kind a i y (d_seat (D d)) d).
  Proof.
    intros P S. rewrite (seat_cmds D y P S). unfold s_seat, s_wait. destruct (y_phase y =? 0).
    - rewrite latest_app, !(checked_all (Some 0)) by reflexivity. rewrite existsb_app.
      destruct (existsb (has d) (a_upper a)), (existsb (has d) (a_lower a)), (negb _); reflexivity.
    - destruct (seat_open_now i y); [rewrite on_seats_v|rewrite off_seats_v]; unfold s_open, s_close;
        destruct (has d _), (kind d =? VALVE), (y_phase y =? 1); reflexivity.
  Qed.
  Lemma seat_f D y b : phase_ok y -> since i (y_cycle y) ->
    flag_of b (latest (wf d) (fst (seat_eval w kind a i D y))) = flag_after kind a i y b d.
  Proof.
    intros P S. rewrite (seat_cmds D y P S). unfold flag_after. unfold VALVE. destruct (y_phase y =? 0) eqn:Z0.
    - rewrite latest_app, !(checked_all None) by (intros x; cbn; destruct (d =? x); reflexivity).
      rewrite andb_false_r. destruct (existsb _ _ && _), (existsb _ _ && _); reflexivity.
    - rewrite andb_true_r. destruct (seat_open_now i y); [rewrite on_seats_f|rewrite off_seats_f]; destruct (_ && _); reflexivity.
  Qed.

  (** * One evaluation of the step *)

  Lemma seat_same l D : latest (wf d) l = None -> d_seat (exec (i_held i) l D d) = d_seat (D d).
  Proof. intros H. rewrite exec_seat, H. reflexivity. Qed.

  Lemma evaluate_seat D y : phase_ok y -> since i (y_cycle y) ->
    d_seat (fst (step_evaluate w kind a i D y) d) = flag_after kind a i y (d_seat (D d)) d.
  Proof.
    intros P S. unfold step_evaluate. cbv zeta. cbn [fst].
    rewrite seat_same by apply doff_f. rewrite seat_same by apply don_f. rewrite seat_same by apply wash_all_f.
    rewrite seat_same by apply aiao_f. rewrite seat_same by apply inv_f. rewrite seat_same by apply dido_f.
    rewrite exec_seat. rewrite seat_f by assumption.
    rewrite seat_same by apply off_f. rewrite seat_same by apply rev_f. rewrite seat_same by apply on_f. reflexivity.
  Qed.
  Lemma evaluate_state D y : phase_ok y -> since i (y_cycle y) -> since i (y_don y) -> since i (y_doff y) ->
    i_now i - y_don y < 2 ^ 24 -> i_now i - y_doff y < 2 ^ 24 -> i_held i d = false ->
    d_state (fst (step_evaluate w kind a i D y) d) = heard (d_state (D d)) (state_order kind a i y (d_seat (D d)) d).
  Proof.
    intros P S1 S2 S3 B2 B3 H. unfold step_evaluate. cbv zeta. cbn [fst].
    rewrite !(exec_state (i_held i) d) by exact H.
    rewrite doff_s, don_s, wash_all_s, aiao_s, inv_s, dido_s, seat_s, off_s, rev_s, on_s by assumption.
    repeat (rewrite seat_same by (first [apply off_f | apply rev_f | apply on_f])).
    unfold state_order. cbn [fold_left]. rewrite !heard_over. reflexivity.
  Qed.
  Lemma evaluate_value D y : phase_ok y -> since i (y_cycle y) -> float_inputs i -> i_held i d = false ->
    d_value (fst (step_evaluate w kind a i D y) d) = heard (d_value (D d)) (value_order kind a i y (d_seat (D d)) d).
  Proof.
    intros P S1 F H. unfold step_evaluate. cbv zeta. cbn [fst].
    rewrite !(exec_value (i_held i) d) by exact H.
    rewrite doff_v, don_v, wash_all_v, aiao_v, inv_v, dido_v, seat_v, off_v, rev_v, on_v by assumption.
    repeat (rewrite seat_same by (first [apply off_f | apply rev_f | apply on_f])).
    unfold value_order. cbn [fold_left]. rewrite !heard_over. reflexivity.
  Qed.
  Lemma evaluate_held D y : i_held i d = true ->
    d_state (fst (step_evaluate w kind a i D y) d) = d_state (D d) /\ d_value (fst (step_evaluate w kind a i D y) d) = d_value (D d).
  Proof.
    intros H. unfold step_evaluate. cbv zeta. cbn [fst].
    assert (G : forall l D, d_state (exec (i_held i) l D d) = d_state (D d)) by (intros; apply exec_held; exact H).
    assert (G' : forall l D, d_value (exec (i_held i) l D d) = d_value (D d)) by (intros; apply exec_held; exact H).
    rewrite !G, !G'. auto.
  Qed.
End Seats.
