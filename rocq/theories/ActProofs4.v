(** Proofs about the actions of a step: what is left on. *)
From Coq Require Import ZArith List Bool Lia QArith.
From Verif Require Import Base FTextModel FloatModel FloatProofs FloatProofs2 AioProofs TimeModel OpModel OpSpec ActModel ActSpec ActProofs ActProofs2 ActProofs3.
Import ListNotations.
Open Scope Z_scope.

(** * Results that are not zero *)

Lemma latest_some {A} (f : A -> option Z) l v : latest f l = Some v -> exists x, In x l /\ f x = Some v.
Proof.
  induction l as [|x r IH]; cbn; [discriminate|]. destruct (latest f r) as [u|] eqn:E; cbn.
  - intros H. inversion H; subst. destruct (IH eq_refl) as (z & I & F). eauto.
  - intros H. exists x. auto.
Qed.
Lemma latest_at_some {A} (f : nat -> A -> option Z) l n v : latest_at f n l = Some v -> exists k x, In x l /\ f k x = Some v.
Proof.
  revert n. induction l as [|x r IH]; intros n; cbn; [discriminate|]. destruct (latest_at f (S n) r) as [u|] eqn:E; cbn.
  - intros H. inversion H; subst. destruct (IH _ E) as (k & z & I & F). eauto.
  - intros H. exists n, x. auto.
Qed.

Section One.
  Context (w : Z) (kind : Z -> Z) (a : acts) (i : inputs) (d : Z).

  (** A word that switches the device on, or off. *)
  Definition quiet (l : list cmd) : Prop := forall v, latest (ws d) l = Some v -> v = 0.
  Definition quiet_v (l : list cmd) : Prop := forall v, latest (wv d) l = Some v -> v = 0.

  Lemma has_true l v (c : Z) : (if has d l then Some c else None) = Some v -> In d l.
  Proof. destruct (has d l) eqn:E; [|discriminate]. intros _. apply has_In. exact E. Qed.

  Lemma on_named v : latest (ws d) (on_cmds a) = Some v -> named a d.
  Proof. rewrite on_s. unfold s_on, named. intros H. apply has_true in H. auto. Qed.
  Lemma rev_named v : latest (ws d) (rev_cmds a) = Some v -> named a d.
  Proof. rewrite rev_s. unfold s_reverse, named. intros H. apply has_true in H. auto. Qed.
  Lemma told_in sig l v : told d sig l = Some v -> In d (tl l).
  Proof. destruct l as [|x r]; cbn; [discriminate|]. apply has_true. Qed.
  Lemma dido_named v : latest (ws d) (dido_cmds a i) = Some v -> named a d.
  Proof.
    rewrite dido_s. unfold s_dido, named. intros H. apply latest_some in H as (l & I & T). apply told_in in T.
    right. right. left. eauto.
  Qed.
  Lemma inv_named v : latest (ws d) (inv_cmds a i) = Some v -> named a d.
  Proof.
    rewrite inv_s. unfold s_inverted, named. intros H. apply latest_some in H as (l & I & T). apply told_in in T.
    right. right. left. eauto.
  Qed.
  Lemma aiao_named v : latest (wv d) (aiao_cmds a i) = Some v -> named a d.
  Proof.
    rewrite aiao_v. unfold v_aiao, named. intros H. apply latest_some in H as (l & I & T). apply told_in in T.
    right. right. left. eauto.
  Qed.
  Lemma wash_named v : latest (ws d) (wash_cmds kind a i) = Some v -> named a d.
  Proof.
    rewrite wash_all_s. intros H. apply latest_some in H as (g & I & T). unfold named. do 3 right. left. exists g. split; [exact I|].
    unfold s_wash in T. destruct (has d (col 1 g)) eqn:H1; [apply has_In in H1; auto|]. rewrite andb_false_r in T.
    destruct (has d (col 3 g)) eqn:H3; [apply has_In in H3; auto|].
    destruct (has d (col 2 g)) eqn:H2; [apply has_In in H2; auto|]. discriminate.
  Qed.
  Lemma wash_cmd_dev n g c : In c (wash_group kind a i n g) ->
    exists x, (In x (col 1 g) \/ In x (col 2 g) \/ In x (col 3 g)) /\
      match c with On z | Off z | SetState z _ | SetValue z _ => z = x | Seat _ _ => False end.
  Proof.
    unfold wash_group. cbv zeta. rewrite !in_app_iff. unfold G_DO, G_DEV, G_REV_DEV. rewrite !sub_col. intros [H|[H|[H|H]]].
    - apply in_map_iff in H as (x & <- & I). eauto.
    - apply in_flat_map in H as (x & I & [<-|H]); [eauto|]. destruct (_ && _); [|destruct H]. destruct H as [<-|[]]. eauto.
    - apply in_flat_map in H as (x & I & [<-|H]); [eauto|]. destruct (_ && _); [|destruct H]. destruct H as [<-|[]]. eauto.
    - destruct (_ || _); [|destruct H]. apply in_map_iff in H as (x & <- & I). eauto.
  Qed.
  Lemma number_in {A} (l : list A) n x : In x (number n l) -> In (snd x) l.
  Proof. revert n. induction l as [|z r IH]; intros n; cbn; [auto|]. intros [<-|H]; [left; reflexivity|right; eauto]. Qed.
  Lemma wash_named_v v : latest (wv d) (wash_cmds kind a i) = Some v -> named a d.
  Proof.
    intros H. apply latest_some in H as (c & I & W). unfold wash_cmds in I. destruct (is_empty _); [destruct I|].
    apply in_flat_map in I as ([n g] & J & K). apply number_in in J. cbn [fst snd] in *.
    apply wash_cmd_dev in K as (x & X & E). unfold named. do 3 right. left. exists g. split; [exact J|].
    assert (x = d) as ->; [|exact X].
    destruct c; cbn in W; try discriminate; try contradiction; subst; destruct (Z.eqb_spec d x); congruence.
  Qed.
  Lemma don_named s v : latest (ws d) (don_cmds w a i s) = Some v -> named a d.
  Proof.
    intros H. apply latest_some in H as (c & I & W). unfold don_cmds in I. rewrite main_row in I. destruct (is_empty _); [destruct I|].
    apply in_flat_map in I as ([n l] & J & K). apply number_in in J. cbn [fst snd] in *.
    destruct (late _ _ _ _ _); [|destruct K]. apply in_map_iff in K as (x & <- & I). cbn in W. destruct (Z.eqb_spec d x); [|discriminate].
    subst. unfold named. do 4 right. eauto.
  Qed.
  Lemma doff_named s v : latest (ws d) (doff_cmds w a i s) = Some v -> named a d.
  Proof.
    intros H. apply latest_some in H as (c & I & W). unfold doff_cmds in I. rewrite main_row in I. destruct (is_empty _); [destruct I|].
    apply in_flat_map in I as ([n l] & J & K). apply number_in in J. cbn [fst snd] in *.
    apply in_map_iff in K as (x & <- & I). cbn in W. destruct (Z.eqb_spec d x); [|discriminate].
    subst. unfold named. do 4 right. eauto.
  Qed.
  Lemma off_quiet D v : latest (ws d) (off_cmds kind a D) = Some v -> v = 0.
  Proof. rewrite off_s. unfold s_off. destruct (_ && _); congruence. Qed.
  Lemma off_quiet_v D v : latest (wv d) (off_cmds kind a D) = Some v -> v = 0.
  Proof. rewrite off_v. unfold s_off. destruct (_ && _); cbn; congruence. Qed.
  Lemma dido_quiet_v v : latest (wv d) (dido_cmds a i) = Some v -> v = 0.
  Proof.
    rewrite dido_v. unfold v_dido. intros H. apply latest_some in H as (l & _ & T).
    destruct (told _ _ _) as [[| |]|]; cbn in T; congruence.
  Qed.

  (** A group of seats is open. *)
  Definition open (y : adyn) : Prop := y_phase y <> 0 /\ In d (seat_group a y).

  Definition dyn_ok (y : adyn) : Prop := phase_ok y /\ (y_next y = 1 \/ y_next y = 2).

  (** The seats at one evaluation, whatever the clock shows. *)
  Lemma seat_cases D y : dyn_ok y ->
    let r := seat_eval w kind a i D y in
    dyn_ok (snd r) /\
    (y_phase y = 0 /\ fst r = flat_map (off_checked kind D) (a_lower a) ++ flat_map (off_checked kind D) (a_upper a)
     \/ (y_phase y <> 0 /\ exists st, fst r = on_seats kind st (seat_group a y) /\ (snd r = y \/ seat_group a y = []))
     \/ y_phase y <> 0 /\ fst r = off_seats kind (seat_group a y)).
  Proof.
    intros [P Q] r. unfold r, seat_eval. clear r. destruct (no_seats a) eqn:N.
    - split; [split; [exact P|exact Q]|]. cbn [fst snd]. pose proof (nil_group a y N) as G. apply no_seats_groups in N as [-> ->]. cbn.
      destruct (Z.eq_dec (y_phase y) 0); [auto|]. right. left. split; [assumption|]. exists 2. rewrite G. auto.
    - unfold seat_phase, P_WAITING, P_OPEN_UPPER, P_OPEN_LOWER. rewrite (fin_seat kind a y P).
      unfold seat_group, nth_group. rewrite ?sub_col.
      destruct P as [P|[P|P]]; rewrite P; cbn [Z.eqb Pos.eqb]; [split| |].
      + cbn [snd]. destruct (_ <? _); [|split; [left; exact P|exact Q]].
        split; unfold phase_ok; cbn [seat_dyn y_phase y_next]; lia.
      + auto.
      + destruct (a_upper a) as [|x r] eqn:U.
        * cbn [fst snd]. split; [split; unfold phase_ok; cbn [seat_dyn y_phase y_next]; lia|].
          right. left. split; [lia|]. exists 2. unfold col. destruct (Z.to_nat _); auto.
        * destruct (_ <? _).
          -- cbn [fst snd]. split; [split; [right; left; exact P|exact Q]|]. right. left. split; [lia|]. exists V_UPPER_SEAT. auto.
          -- cbv zeta. cbn [fst snd]. split; [|right; right; split; [lia|reflexivity]].
             split; unfold phase_ok; cbn [seat_dyn y_phase y_next]; [lia|]. destruct (_ <=? _); lia.
      + destruct (a_lower a) as [|x r] eqn:U.
        * cbn [fst snd]. split; [split; unfold phase_ok; cbn [seat_dyn y_phase y_next]; lia|].
          right. left. split; [lia|]. exists 2. unfold col. destruct (Z.to_nat _); auto.
        * destruct (_ <? _).
          -- cbn [fst snd]. split; [split; [right; right; exact P|exact Q]|]. right. left. split; [lia|]. exists V_LOWER_SEAT. auto.
          -- cbv zeta. cbn [fst snd]. split; [|right; right; split; [lia|reflexivity]].
             split; unfold phase_ok; cbn [seat_dyn y_phase y_next]; [lia|]. destruct (_ <=? _); lia.
  Qed.

  (** What the seats do to the device. *)
  Lemma seat_effect D y : dyn_ok y ->
    let r := seat_eval w kind a i D y in
    (forall v, latest (ws d) (fst r) = Some v -> v = 0 \/ open (snd r)) /\
    (forall v, latest (wv d) (fst r) = Some v -> v = 0) /\
    (flag_of (d_seat (D d)) (latest (wf d) (fst r)) = true -> open (snd r) \/ d_seat (D d) = true /\ (open y -> kind d <> 0)) /\
    (open y -> open (snd r) \/ latest (ws d) (fst r) = Some 0 /\ latest (wv d) (fst r) = Some 0).
  Proof.
    intros K r. destruct (seat_cases D y K) as [_ C]. fold r in C. unfold open.
    destruct C as [[P E]|[(P & st & E & S)|[P E]]]; rewrite E.
    - split; [|split; [|split]].
      + intros v. rewrite latest_app, !(checked_all kind d (Some 0)) by reflexivity.
        destruct (existsb _ _ && _), (existsb _ _ && _); cbn; intros H; inversion H; auto.
      + intros v. rewrite latest_app, !(checked_all kind d (Some 0)) by reflexivity.
        destruct (existsb _ _ && _), (existsb _ _ && _); cbn; intros H; inversion H; auto.
      + rewrite latest_app, !(checked_all kind d None) by (intros x; cbn; destruct (d =? x); reflexivity).
        destruct (existsb _ _ && _), (existsb _ _ && _); cbn; intros H; right; split; auto; tauto.
      + tauto.
    - rewrite on_seats_s, on_seats_v, on_seats_f. unfold s_open.
      destruct (has d (seat_group a y)) eqn:H.
      + apply has_In in H. destruct S as [->|S]; [|rewrite S in H; destruct H].
        split; [auto|split; [discriminate|split; auto]].
      + apply has_not in H. rewrite andb_false_r. cbn. split; [discriminate|split; [discriminate|split]].
        * intros F. right. split; [exact F|]. tauto.
        * tauto.
    - rewrite off_seats_s, off_seats_v, off_seats_f. unfold s_close.
      destruct (has d (seat_group a y)) eqn:H.
      + split; [intros v Hv; inversion Hv; auto|split; [intros v Hv; inversion Hv; auto|split; [|auto]]].
        rewrite andb_true_r. destruct (Z.eqb_spec (kind d) 0); cbn; [discriminate|auto].
      + apply has_not in H. rewrite andb_false_r. cbn. split; [discriminate|split; [discriminate|split]].
        * intros F. right. split; [exact F|]. tauto.
        * tauto.
  Qed.

  (** One evaluation: what is on afterwards is named by the step, is in the open
      group of seats or was left as it was. *)
  Lemma heard_same o x : (forall v, x = Some v -> v = o) -> heard o x = o.
  Proof. destruct x; cbn; auto. Qed.
  Lemma chain_state l D (P : Prop) : i_held i d = false -> (forall v, latest (ws d) l = Some v -> P) ->
    P \/ d_state (exec (i_held i) l D d) = d_state (D d).
  Proof. intros H C. rewrite exec_state by exact H. destruct (latest (ws d) l) as [v|] eqn:E; cbn; [left; eauto|auto]. Qed.
  Lemma chain_value l D (P : Prop) : i_held i d = false -> (forall v, latest (wv d) l = Some v -> P) ->
    P \/ d_value (exec (i_held i) l D d) = d_value (D d).
  Proof. intros H C. rewrite exec_value by exact H. destruct (latest (wv d) l) as [v|] eqn:E; cbn; [left; eauto|auto]. Qed.

  Lemma eval_y D y : snd (step_evaluate w kind a i D y) = snd (seat_eval w kind a i D y).
  Proof. unfold step_evaluate. cbv zeta. cbn [snd]. unfold seat_eval. destruct (no_seats a); [reflexivity|]. destruct (y_phase y =? P_WAITING); reflexivity. Qed.
  Lemma seat_y D D' y : snd (seat_eval w kind a i D y) = snd (seat_eval w kind a i D' y).
  Proof. unfold seat_eval. destruct (no_seats a); [reflexivity|]. destruct (y_phase y =? P_WAITING); reflexivity. Qed.

  Lemma eval_state_cases D y : dyn_ok y -> i_held i d = false ->
    let r := step_evaluate w kind a i D y in
    d_state (fst r d) <> 0 -> named a d \/ open (snd r) \/ d_state (D d) = d_state (fst r d) /\ ~ open y.
  Proof.
    intros K H r. assert (Y : snd r = snd (seat_eval w kind a i D y)) by apply eval_y. rewrite Y. clear Y.
    unfold r, step_evaluate. cbv zeta. cbn [fst]. clear r.
    set (D1 := exec _ (on_cmds a) D). set (D2 := exec _ (rev_cmds a) D1). set (D3 := exec _ (off_cmds kind a D2) D2).
    set (D4 := exec _ (fst (seat_eval w kind a i D3 y)) D3). set (D5 := exec _ (dido_cmds a i) D4).
    set (D6 := exec _ (inv_cmds a i) D5). set (D7 := exec _ (aiao_cmds a i) D6). set (D8 := exec _ (wash_cmds kind a i) D7).
    set (D9 := exec _ (don_cmds w a i (y_don y)) D8). set (D10 := exec _ (doff_cmds w a i (y_doff y)) D9).
    rewrite (seat_y D D3 y).
    destruct (chain_state (doff_cmds w a i (y_doff y)) D9 (named a d) H (doff_named (y_doff y))) as [|E10]; [auto|]. fold D10 in E10.
    destruct (chain_state (don_cmds w a i (y_don y)) D8 (named a d) H (don_named (y_don y))) as [|E9]; [auto|]. fold D9 in E9.
    destruct (chain_state (wash_cmds kind a i) D7 (named a d) H wash_named) as [|E8]; [auto|]. fold D8 in E8.
    assert (E7 : d_state (D7 d) = d_state (D6 d)) by (unfold D7; rewrite exec_state, aiao_s by exact H; reflexivity).
    destruct (chain_state (inv_cmds a i) D5 (named a d) H inv_named) as [|E6]; [auto|]. fold D6 in E6.
    destruct (chain_state (dido_cmds a i) D4 (named a d) H dido_named) as [|E5]; [auto|]. fold D5 in E5.
    rewrite E10, E9, E8, E7, E6, E5. intros NZ.
    destruct (seat_effect D3 y K) as (S1 & _ & _ & S4).
    unfold D4 in NZ |- *. rewrite exec_state in NZ |- * by exact H.
    destruct (latest (ws d) (fst (seat_eval w kind a i D3 y))) as [v|] eqn:L; cbn [heard] in NZ |- *.
    { destruct (S1 v eq_refl) as [->|]; [congruence|auto]. }
    unfold D3 in NZ |- *. rewrite exec_state in NZ |- * by exact H.
    destruct (latest (ws d) (off_cmds kind a D2)) as [v|] eqn:L3; cbn [heard] in NZ |- *.
    { apply off_quiet in L3. congruence. }
    destruct (chain_state (rev_cmds a) D1 (named a d) H rev_named) as [|E2]; [auto|]. fold D2 in E2.
    destruct (chain_state (on_cmds a) D (named a d) H on_named) as [|E1]; [auto|]. fold D1 in E1.
    fold D3. rewrite E2, E1. right.
    destruct (Z.eq_dec (y_phase y) 0) as [PH|PH].
    - right. split; [reflexivity|]. unfold open. tauto.
    - destruct (in_dec Z.eq_dec d (seat_group a y)) as [I|I].
      + destruct (S4 (conj PH I)) as [|[X _]]; [auto|discriminate].
      + right. split; [reflexivity|]. unfold open. tauto.
  Qed.
  Lemma eval_value_cases D y : dyn_ok y -> i_held i d = false ->
    let r := step_evaluate w kind a i D y in
    d_value (fst r d) <> 0 -> named a d \/ d_value (D d) = d_value (fst r d) /\ (open y -> open (snd r)).
  Proof.
    intros K H r. assert (Y : snd r = snd (seat_eval w kind a i D y)) by apply eval_y. rewrite Y. clear Y.
    unfold r, step_evaluate. cbv zeta. cbn [fst]. clear r.
    set (D1 := exec _ (on_cmds a) D). set (D2 := exec _ (rev_cmds a) D1). set (D3 := exec _ (off_cmds kind a D2) D2).
    set (D4 := exec _ (fst (seat_eval w kind a i D3 y)) D3). set (D5 := exec _ (dido_cmds a i) D4).
    set (D6 := exec _ (inv_cmds a i) D5). set (D7 := exec _ (aiao_cmds a i) D6). set (D8 := exec _ (wash_cmds kind a i) D7).
    set (D9 := exec _ (don_cmds w a i (y_don y)) D8). set (D10 := exec _ (doff_cmds w a i (y_doff y)) D9).
    rewrite (seat_y D D3 y).
    assert (E10 : d_value (D10 d) = d_value (D9 d)) by (unfold D10; rewrite exec_value, doff_v by exact H; reflexivity).
    assert (E9 : d_value (D9 d) = d_value (D8 d)) by (unfold D9; rewrite exec_value, don_v by exact H; reflexivity).
    destruct (chain_value (wash_cmds kind a i) D7 (named a d) H wash_named_v) as [|E8]; [auto|]. fold D8 in E8.
    destruct (chain_value (aiao_cmds a i) D6 (named a d) H aiao_named) as [|E7]; [auto|]. fold D7 in E7.
    assert (E6 : d_value (D6 d) = d_value (D5 d)) by (unfold D6; rewrite exec_value, inv_v by exact H; reflexivity).
    rewrite E10, E9, E8, E7, E6. intros NZ.
    unfold D5 in NZ |- *. rewrite exec_value in NZ |- * by exact H.
    destruct (latest (wv d) (dido_cmds a i)) as [v|] eqn:L5; cbn [heard] in NZ |- *.
    { apply dido_quiet_v in L5. congruence. }
    destruct (seat_effect D3 y K) as (_ & S2 & _ & S4).
    unfold D4 in NZ |- *. rewrite exec_value in NZ |- * by exact H.
    destruct (latest (wv d) (fst (seat_eval w kind a i D3 y))) as [v|] eqn:L; cbn [heard] in NZ |- *.
    { pose proof (S2 v eq_refl). congruence. }
    unfold D3 in NZ |- *. rewrite exec_value in NZ |- * by exact H.
    destruct (latest (wv d) (off_cmds kind a D2)) as [v|] eqn:L3; cbn [heard] in NZ |- *.
    { apply off_quiet_v in L3. congruence. }
    fold D3. assert (E2 : d_value (D2 d) = d_value (D1 d)) by (unfold D2; rewrite exec_value, rev_v by exact H; reflexivity).
    assert (E1 : d_value (D1 d) = d_value (D d)) by (unfold D1; rewrite exec_value, on_v by exact H; reflexivity).
    rewrite E2, E1. right. split; [reflexivity|]. intros O. destruct (S4 O) as [|[_ X]]; [assumption|discriminate].
  Qed.
  Lemma eval_flag_cases D y : dyn_ok y ->
    let r := step_evaluate w kind a i D y in
    d_seat (fst r d) = true -> open (snd r) \/ d_seat (D d) = true /\ (open y -> kind d <> 0).
  Proof.
    intros K r. assert (Y : snd r = snd (seat_eval w kind a i D y)) by apply eval_y. rewrite Y. clear Y.
    unfold r, step_evaluate. cbv zeta. cbn [fst]. clear r.
    rewrite seat_same by apply doff_f. rewrite seat_same by apply don_f. rewrite seat_same by apply wash_all_f.
    rewrite seat_same by apply aiao_f. rewrite seat_same by apply inv_f. rewrite seat_same by apply dido_f.
    set (D2 := exec (i_held i) (rev_cmds a) (exec (i_held i) (on_cmds a) D)).
    set (D3 := exec (i_held i) (off_cmds kind a D2) D2). rewrite (seat_y D D3 y).
    assert (E : d_seat (D3 d) = d_seat (D d)).
    { unfold D3, D2. repeat (rewrite seat_same by (first [apply off_f | apply rev_f | apply on_f])). reflexivity. }
    rewrite exec_seat. destruct (seat_effect D3 y K) as (_ & _ & S3 & _). rewrite <- E. exact S3.
  Qed.

  (** * Finalising *)

  Lemma off_word (W : cmd -> option Z) l : (forall x, W (Off x) = if d =? x then Some 0 else None) ->
    latest W (map Off l) = if has d l then Some 0 else None.
  Proof. intros H. rewrite latest_map. rewrite (latest_ext _ (fun x => if d =? x then Some 0 else None)) by auto. apply latest_const. Qed.
  (** Everything that is switched off at the end. *)
  Definition ended (y : adyn) : list Z :=
    concat (concat (a_on a)) ++ concat (concat (a_rev a)) ++ concat (concat (a_off a))
    ++ (if y_phase y =? 0 then [] else seat_group a y)
    ++ flat_map (fun l => tl l) (row (a_dido a)) ++ flat_map (fun l => tl l) (row (a_inv a)) ++ flat_map (fun l => tl l) (row (a_aiao a))
    ++ flat_map (fun x => col 1 x ++ col 2 x ++ col 3 x) (a_wash a)
    ++ concat (concat (a_enable a)) ++ concat (concat (a_don a)) ++ concat (concat (a_doff a)).
  Lemma has_app l m : has d (l ++ m) = has d l || has d m.
  Proof. unfold has. apply existsb_app. Qed.
  Lemma over_has l m : over (if has d l then Some 0 else None) (if has d m then Some 0 else None) = if has d (l ++ m) then Some 0 else None.
  Proof. rewrite has_app. destruct (has d l), (has d m); reflexivity. Qed.
  Lemma fin_words (W : cmd -> option Z) y : phase_ok y -> (forall x, W (Off x) = if d =? x then Some 0 else None) ->
    (forall x b, W (Seat x b) = None) ->
    latest W (fin_cmds kind a y) = if has d (ended y) then Some 0 else None.
  Proof.
    intros P H1 H2. unfold fin_cmds, ended, off_all, off_tails, off_wash. rewrite (fin_seat kind a y P).
    assert (S : latest W (if y_phase y =? 0 then [] else off_seats kind (seat_group a y)) =
                if has d (if y_phase y =? 0 then [] else seat_group a y) then Some 0 else None).
    { destruct (y_phase y =? 0); [reflexivity|]. unfold off_seats. rewrite latest_flat.
      rewrite (latest_ext _ (fun x => if d =? x then Some 0 else None)); [apply latest_const|].
      intros x _. destruct (kind x =? DT_V); cbn; rewrite ?H1, ?H2; destruct (d =? x); reflexivity. }
    rewrite !latest_app, S, !main_row. rewrite !(off_word W) by exact H1.
    assert (T : latest W (flat_map (fun x => map Off (sub G_DO x ++ sub G_DEV x ++ sub G_REV_DEV x)) (a_wash a)) =
                if has d (flat_map (fun x => col 1 x ++ col 2 x ++ col 3 x) (a_wash a)) then Some 0 else None).
    { rewrite latest_flat. induction (a_wash a) as [|g r IH]; [reflexivity|]. cbn [latest flat_map].
      rewrite IH, (off_word W) by exact H1. apply over_has. }
    rewrite T, !over_has. reflexivity.
  Qed.
  Lemma fin_flag y : phase_ok y ->
    latest (wf d) (fin_cmds kind a y) = if (kind d =? 0) && negb (y_phase y =? 0) && has d (seat_group a y) then Some 0 else None.
  Proof.
    intros P. unfold fin_cmds, off_all, off_tails, off_wash. rewrite (fin_seat kind a y P), !latest_app.
    assert (N : forall l, latest (wf d) (map Off l) = None) by (intros l; rewrite latest_map; apply latest_none; reflexivity).
    rewrite !N. rewrite latest_flat. rewrite (latest_none _ (a_wash a)) by (intros; apply N).
    rewrite !none_over, !over_none. destruct (y_phase y =? 0); [rewrite andb_false_r; reflexivity|].
    rewrite off_seats_f, andb_true_r. reflexivity.
  Qed.
  Lemma in_concat2 (g : groups) x l : In x g -> In l x -> In d l -> In d (concat (concat g)).
  Proof. intros I J L. apply in_concat. exists l. split; [|exact L]. apply in_concat. eauto. Qed.
  Lemma in_row (g : groups) l : In l (row g) -> exists x, In x g /\ In l x.
  Proof. destruct g as [|x r]; cbn; [intros []|]. intros I. exists x. auto. Qed.
  Lemma in_col (x : list (list Z)) k : In d (col k x) -> exists l, In l x /\ In d l.
  Proof. unfold col. intros I. destruct (nth_in_or_default k x []) as [J|J]; [eauto|]. rewrite J in I. destruct I. Qed.
  Lemma named_ended y : named a d -> In d (ended y).
  Proof.
    unfold named, ended. rewrite !in_app_iff. intros [H|[H|[(l & H & T)|[(g & H & T)|(l & H & T)]]]].
    - left. apply in_col in H as (l & I & J). apply in_row in I as (x & X & Y). eapply in_concat2; eauto.
    - right. left. apply in_col in H as (l & I & J). apply in_row in I as (x & X & Y). eapply in_concat2; eauto.
    - destruct H as [H|[H|H]]; [do 4 right; left|do 5 right; left|do 6 right; left]; apply in_flat_map; eauto.
    - do 7 right. left. apply in_flat_map. exists g. split; [exact H|]. rewrite !in_app_iff. exact T.
    - destruct H as [H|H]; apply in_row in H as (x & X & Y).
      + do 9 right. left. eapply in_concat2; eauto.
      + do 10 right. eapply in_concat2; eauto.
  Qed.
  Lemma open_ended y : open y -> In d (ended y).
  Proof.
    intros [P I]. unfold ended. rewrite !in_app_iff. do 3 right. left. destruct (Z.eqb_spec (y_phase y) 0); [contradiction|exact I].
  Qed.
  Lemma finalize_off D y : phase_ok y -> i_held i d = false -> In d (ended y) ->
    d_state (step_finalize kind a i D y d) = 0 /\ d_value (step_finalize kind a i D y d) = 0.
  Proof.
    intros P H I. unfold step_finalize. rewrite exec_state, exec_value by exact H.
    rewrite !fin_words by (auto; reflexivity). apply has_In in I. rewrite I. auto.
  Qed.
  Lemma finalize_same D y : phase_ok y -> ~ In d (ended y) ->
    d_state (step_finalize kind a i D y d) = d_state (D d) /\ d_value (step_finalize kind a i D y d) = d_value (D d).
  Proof.
    intros P I. unfold step_finalize. destruct (i_held i d) eqn:H; [apply exec_held; exact H|].
    rewrite exec_state, exec_value by exact H.
    rewrite !fin_words by (auto; reflexivity). apply has_not in I. rewrite I. auto.
  Qed.
  Lemma finalize_flag D y : phase_ok y ->
    d_seat (step_finalize kind a i D y d) = d_seat (D d) && negb ((kind d =? 0) && negb (y_phase y =? 0) && has d (seat_group a y)).
  Proof.
    intros P. unfold step_finalize. rewrite exec_seat, (fin_flag y P). destruct (_ && _ && _); cbn.
    - rewrite andb_false_r. reflexivity.
    - rewrite andb_true_r. reflexivity.
  Qed.
End One.
