(** Proofs about the actions of a step: the words of each action. *)
From Coq Require Import ZArith List Bool Lia QArith.
From Verif Require Import Base FTextModel FloatModel FloatProofs FloatProofs2 AioProofs TimeModel OpModel OpSpec ActModel ActSpec ActProofs.
Import ListNotations.
Open Scope Z_scope.

Section Words.
  Context (w : Z) (kind : Z -> Z) (a : acts) (i : inputs) (d : Z).

  Ltac emp E := destruct (is_empty _) eqn:E; cbn [latest].

  Lemma on_s : latest (ws d) (on_cmds a) = s_on a d.
  Proof.
    unfold on_cmds, s_on. rewrite main_row, sub_col. emp E.
    - rewrite (empty_col0 _ 0 E). reflexivity.
    - rewrite latest_map. cbn [ws]. apply latest_const.
  Qed.
  Lemma on_v : latest (wv d) (on_cmds a) = None.
  Proof. unfold on_cmds. emp E; [reflexivity|]. rewrite latest_map. apply latest_none. reflexivity. Qed.
  Lemma on_f : latest (wf d) (on_cmds a) = None.
  Proof. unfold on_cmds. emp E; [reflexivity|]. rewrite latest_map. apply latest_none. reflexivity. Qed.

  Lemma rev_s : latest (ws d) (rev_cmds a) = s_reverse a d.
  Proof.
    unfold rev_cmds, s_reverse. rewrite main_row, sub_col. emp E.
    - rewrite (empty_col0 _ 0 E). reflexivity.
    - rewrite latest_map. cbn [ws]. apply latest_const.
  Qed.
  Lemma rev_v : latest (wv d) (rev_cmds a) = None.
  Proof. unfold rev_cmds. emp E; [reflexivity|]. rewrite latest_map. apply latest_none. reflexivity. Qed.
  Lemma rev_f : latest (wf d) (rev_cmds a) = None.
  Proof. unfold rev_cmds. emp E; [reflexivity|]. rewrite latest_map. apply latest_none. reflexivity. Qed.

  Lemma off_gen (c : option Z) (W : cmd -> option Z) D l :
    (forall x, W (Off x) = if d =? x then c else None) ->
    latest W (flat_map (fun x => if kind x =? DT_V then (if d_seat (D x) then [] else [Off x]) else [Off x]) l)
    = if has d l && negb (washed kind (d_seat (D d)) d) then c else None.
  Proof.
    intros H. rewrite latest_flat.
    rewrite (latest_ext _ (fun x => if d =? x then (if negb (washed kind (d_seat (D d)) d) then c else None) else None)).
    { rewrite latest_const. destruct (has d l), (negb _); reflexivity. }
    intros x _. unfold washed, VALVE, DT_V. destruct (Z.eqb_spec d x) as [->|N].
    - destruct (kind x =? 0), (d_seat (D x)); cbn; rewrite ?H, ?Z.eqb_refl; destruct c; reflexivity.
    - apply Z.eqb_neq in N. destruct (kind x =? 0), (d_seat (D x)); cbn; rewrite ?H, ?N; reflexivity.
  Qed.
  Lemma off_s D : latest (ws d) (off_cmds kind a D) = s_off kind a (d_seat (D d)) d.
  Proof.
    unfold off_cmds, s_off. rewrite main_row, sub_col. emp E.
    - rewrite (empty_col0 _ 0 E). reflexivity.
    - apply off_gen. reflexivity.
  Qed.
  Lemma off_v D : latest (wv d) (off_cmds kind a D) = zeroed (s_off kind a (d_seat (D d)) d).
  Proof.
    unfold off_cmds, s_off. rewrite main_row, sub_col. emp E.
    - rewrite (empty_col0 _ 0 E). reflexivity.
    - rewrite (off_gen (Some 0)) by reflexivity. destruct (_ && _); reflexivity.
  Qed.
  Lemma off_f D : latest (wf d) (off_cmds kind a D) = None.
  Proof.
    unfold off_cmds. emp E; [reflexivity|]. rewrite (off_gen None); [destruct (_ && _); reflexivity|].
    intros x. cbn. destruct (d =? x); reflexivity.
  Qed.

  (** Groups with a signal in front. *)
  Lemma told_gen (W : cmd -> option Z) (g : list Z -> list cmd) (sig : Z -> Z) (G : groups) :
    (forall l, latest W (g l) = told d sig l) ->
    latest W (if is_empty G then [] else flat_map g (main G)) = latest (told d sig) (row G).
  Proof.
    intros H. rewrite main_row. destruct (is_empty G) eqn:E; cbn [latest].
    - symmetry. apply latest_none. intros l I. rewrite (empty_row G l E I). reflexivity.
    - rewrite latest_flat. apply latest_ext. auto.
  Qed.
  Lemma none_gen (W : cmd -> option Z) (g : list Z -> list cmd) (G : groups) :
    (forall l, latest W (g l) = None) -> latest W (if is_empty G then [] else flat_map g (main G)) = None.
  Proof. intros H. destruct (is_empty G); [reflexivity|]. rewrite latest_flat. apply latest_none. auto. Qed.
  Lemma dido_s : latest (ws d) (dido_cmds a i) = s_dido a i d.
  Proof.
    apply told_gen. intros [|x r]; [reflexivity|]. cbn [dido_group told].
    destruct (i_active i x); rewrite latest_map; cbn [ws]; apply latest_const.
  Qed.
  Lemma dido_v : latest (wv d) (dido_cmds a i) = v_dido a i d.
  Proof.
    unfold dido_cmds, v_dido. rewrite main_row. emp E.
    - symmetry. apply latest_none. intros l I. rewrite (empty_row _ l E I). reflexivity.
    - rewrite latest_flat. apply latest_ext. intros [|x r] _; [reflexivity|]. cbn [dido_group told].
      destruct (i_active i x); rewrite latest_map; cbn [wv].
      + rewrite latest_none by reflexivity. destruct (has d r); reflexivity.
      + rewrite latest_const. destruct (has d r); reflexivity.
  Qed.
  Lemma dido_f : latest (wf d) (dido_cmds a i) = None.
  Proof. apply none_gen. intros [|x r]; [reflexivity|]. cbn. destruct (i_active i x); rewrite latest_map; apply latest_none; reflexivity. Qed.
  Lemma inv_s : latest (ws d) (inv_cmds a i) = s_inverted a i d.
  Proof. apply told_gen. intros [|x r]; [reflexivity|]. cbn [inv_group told]. rewrite latest_map. cbn [ws]. apply latest_const. Qed.
  Lemma inv_v : latest (wv d) (inv_cmds a i) = None.
  Proof. apply none_gen. intros [|x r]; [reflexivity|]. cbn. rewrite latest_map. apply latest_none. reflexivity. Qed.
  Lemma inv_f : latest (wf d) (inv_cmds a i) = None.
  Proof. apply none_gen. intros [|x r]; [reflexivity|]. cbn. rewrite latest_map. apply latest_none. reflexivity. Qed.
  Lemma aiao_s : latest (ws d) (aiao_cmds a i) = None.
  Proof. apply none_gen. intros [|x r]; [reflexivity|]. cbn. rewrite latest_map. apply latest_none. reflexivity. Qed.
  Lemma aiao_f : latest (wf d) (aiao_cmds a i) = None.
  Proof. apply none_gen. intros [|x r]; [reflexivity|]. cbn. rewrite latest_map. apply latest_none. reflexivity. Qed.
  Lemma aiao_v : latest (wv d) (aiao_cmds a i) = v_aiao a i d.
  Proof. apply told_gen. intros [|x r]; [reflexivity|]. cbn [aiao_group told]. rewrite latest_map. cbn [wv]. apply latest_const. Qed.

  (** Delays. *)
  Lemma don_s y : 0 <= y_don y <= i_now i -> i_now i - y_don y < 2 ^ 24 ->
    latest (ws d) (don_cmds w a i (y_don y)) = latest_at (s_delay_on a i y d) 0 (row (a_don a)).
  Proof.
    intros R B. unfold don_cmds. rewrite main_row. emp E.
    - symmetry. apply latest_at_none. intros k l I. rewrite (empty_row _ l E I). reflexivity.
    - rewrite latest_flat. rewrite <- latest_number. apply latest_ext. intros [k l] _. cbn [fst snd].
      rewrite late_over by assumption. unfold s_delay_on. destruct (delay_over _ _ _ _); cbn [latest].
      + rewrite latest_map. cbn [ws]. rewrite latest_const, andb_true_r. reflexivity.
      + rewrite andb_false_r. reflexivity.
  Qed.
  Lemma don_v s : latest (wv d) (don_cmds w a i s) = None.
  Proof.
    unfold don_cmds. emp E; [reflexivity|]. rewrite latest_flat. apply latest_none. intros x _.
    destruct (late _ _ _ _ _); [|reflexivity]. rewrite latest_map. apply latest_none. reflexivity.
  Qed.
  Lemma don_f s : latest (wf d) (don_cmds w a i s) = None.
  Proof.
    unfold don_cmds. emp E; [reflexivity|]. rewrite latest_flat. apply latest_none. intros x _.
    destruct (late _ _ _ _ _); [|reflexivity]. rewrite latest_map. apply latest_none. reflexivity.
  Qed.
  Lemma doff_s y : 0 <= y_doff y <= i_now i -> i_now i - y_doff y < 2 ^ 24 ->
    latest (ws d) (doff_cmds w a i (y_doff y)) = latest_at (s_delay_off a i y d) 0 (row (a_doff a)).
  Proof.
    intros R B. unfold doff_cmds. rewrite main_row. emp E.
    - symmetry. apply latest_at_none. intros k l I. rewrite (empty_row _ l E I). reflexivity.
    - rewrite latest_flat. rewrite <- latest_number. apply latest_ext. intros [k l] _. cbn [fst snd].
      rewrite late_over by assumption. unfold s_delay_off. rewrite latest_map. cbn [ws]. apply latest_const.
  Qed.
  Lemma doff_v s : latest (wv d) (doff_cmds w a i s) = None.
  Proof.
    unfold doff_cmds. emp E; [reflexivity|]. rewrite latest_flat. apply latest_none. intros x _.
    rewrite latest_map. apply latest_none. reflexivity.
  Qed.
  Lemma doff_f s : latest (wf d) (doff_cmds w a i s) = None.
  Proof.
    unfold doff_cmds. emp E; [reflexivity|]. rewrite latest_flat. apply latest_none. intros x _.
    rewrite latest_map. apply latest_none. reflexivity.
  Qed.

  (** Washing. *)
  Lemma request_asked g : request i g = asked i g.
  Proof. unfold request, asked, G_DI. rewrite sub_col. destruct (col 0 g); reflexivity. Qed.
  Lemma faulty_or g : existsb (i_failed i) (sub G_DEV g) || existsb (i_failed i) (sub G_REV_DEV g) = faulty i g.
  Proof. unfold faulty. rewrite existsb_app. reflexivity. Qed.
  Lemma wash_s n g : latest (ws d) (wash_group kind a i n g) = s_wash i d g.
  Proof.
    unfold wash_group. cbv zeta. rewrite request_asked, faulty_or. unfold G_DO, G_DEV, G_REV_DEV. rewrite !latest_app, !latest_flat, !sub_col.
    set (P := negb _). rewrite latest_map. cbn [ws]. rewrite latest_const.
    rewrite (latest_ext _ (fun x => if d =? x then Some (if asked i g then 1 else 0) else None) (col 2 g)).
    2: { intros x _. cbn [latest ws over]. destruct (P && _); destruct (d =? x); reflexivity. }
    rewrite (latest_ext _ (fun x => if d =? x then Some (if asked i g then 2 else 0) else None) (col 3 g)).
    2: { intros x _. cbn [latest ws over]. destruct (P && _); destruct (d =? x); reflexivity. }
    rewrite !latest_const. unfold s_wash.
    destruct (faulty i g); cbn [andb]; [rewrite latest_map; cbn [ws]; rewrite latest_const|cbn [latest]];
      destruct (has d (col 1 g)), (has d (col 2 g)), (has d (col 3 g)); reflexivity.
  Qed.
  Lemma minus_one v : 0 <= v < 2 ^ 32 -> f_eq v (f_of_Z (-1)) = (v =? 3212836864).
  Proof.
    intros R. rewrite minus_bits. unfold f_eq. assert (E : f_isnan 3212836864 = false) by reflexivity. rewrite E.
    assert (K : key 3212836864 = -1065353216) by reflexivity. rewrite K. unfold key, f_isnan, f_neg, f_mag.
    change (2 ^ 32) with 4294967296 in R. change (2 ^ 31) with 2147483648. change (255 * 2 ^ 23) with 2139095040.
    assert (M : v mod 2147483648 = v \/ v mod 2147483648 = v - 2147483648 /\ 2147483648 <= v).
    { destruct (Z_lt_le_dec v 2147483648); [left; apply Z.mod_small; lia|right].
      split; [|assumption]. symmetry. apply (Z.mod_unique_pos v 2147483648 1); lia. }
    destruct (Z.eqb_spec v 3212836864) as [->|N]; [reflexivity|].
    destruct (2147483648 <=? v) eqn:L, M as [M|[M M']]; rewrite M; lia.
  Qed.
  (** Parameters and values are float bit patterns. *)
  Definition float_inputs : Prop := (forall x, 0 <= i_value i x < 2 ^ 32) /\ (forall x, 0 <= i_par i x < 2 ^ 32).
  Lemma setting_spec n g : float_inputs ->
    wash_setting a i n g = if f_eq (setting a i n g) (f_of_Z (-1)) then None else Some (setting a i n g).
  Proof.
    intros [F1 F2]. unfold wash_setting, setting, G_PUMP_FREQ. change (sub 4 g) with (col 4 g). cbv zeta. unfold u32.
    destruct (col 4 g) as [|x r].
    - set (p := nth n (a_wash_par a) 0 mod 2 ^ 32). assert (0 <= p < 2 ^ 32) by (apply Z.mod_pos_bound; lia).
      destruct (Z.eqb_spec p 0) as [->|N].
      + rewrite minus_bits. vm_compute. reflexivity.
      + replace (0 <? p) with true by lia. rewrite minus_one by auto. reflexivity.
    - rewrite minus_one by auto. reflexivity.
  Qed.
  Lemma wash_v n g : float_inputs -> latest (wv d) (wash_group kind a i n g) = v_wash kind a i d n g.
  Proof.
    intros F. unfold wash_group. cbv zeta. rewrite request_asked, faulty_or. unfold G_DO, G_DEV, G_REV_DEV. rewrite !latest_app, !latest_flat, !sub_col.
    unfold v_wash. rewrite (setting_spec n g F). set (v := setting a i n g).
    rewrite latest_map. cbn [wv]. rewrite (latest_none _ (col 1 g)) by reflexivity. rewrite none_over.
    unfold DT_M, DT_VC, DT_AO, DT_REGULATOR, MOTOR, CONTROL_VALVE, ANALOG_OUT, REGULATOR.
    set (P := negb (f_eq v (f_of_Z (-1)))).
    set (val := if asked i g then v else f_of_Z 0).
    set (k2 := existsb (Z.eqb (kind d)) [2; 1; 16; 20]).
    rewrite (latest_ext _ (fun x => if d =? x then (if P && k2 then Some val else None) else None) (col 2 g)).
    2: { intros x _. destruct (Z.eqb_spec d x) as [<-|N].
         - replace ((kind d =? 2) || (kind d =? 1) || (kind d =? 16) || (kind d =? 20)) with k2
             by (unfold k2; cbn; rewrite orb_false_r, !orb_assoc; reflexivity).
           destruct (P && k2); cbn; rewrite ?Z.eqb_refl; reflexivity.
         - apply Z.eqb_neq in N. destruct (P && _); cbn; rewrite ?N; reflexivity. }
    rewrite (latest_ext _ (fun x => if d =? x then (if P && (kind d =? 2) then Some val else None) else None) (col 3 g)).
    2: { intros x _. destruct (Z.eqb_spec d x) as [<-|N].
         - destruct (P && _); cbn; rewrite ?Z.eqb_refl; reflexivity.
         - apply Z.eqb_neq in N. destruct (P && _); cbn; rewrite ?N; reflexivity. }
    rewrite !latest_const. unfold P.
    replace (latest (wv d) (if faulty i g then map Off (col 1 g) else [])) with (if faulty i g && has d (col 1 g) then Some 0 else None).
    2: { destruct (faulty i g); [|reflexivity]. rewrite latest_map. cbn [wv]. rewrite latest_const. reflexivity. }
    destruct (faulty i g && has d (col 1 g)); [reflexivity|].
    destruct (f_eq v (f_of_Z (-1))); cbn [negb andb].
    - destruct (has d (col 2 g)), (has d (col 3 g)); reflexivity.
    - unfold val. change (f_of_Z 0) with 0.
      destruct (has d (col 2 g)), (has d (col 3 g)), k2, (kind d =? 2), (asked i g); reflexivity.
  Qed.
  Lemma wash_f n g : latest (wf d) (wash_group kind a i n g) = None.
  Proof.
    unfold wash_group. cbv zeta. rewrite !latest_app, !latest_flat, !latest_map. cbn [wf].
    rewrite (latest_none _ (sub G_DO g)) by reflexivity.
    rewrite (latest_none _ (sub G_DEV g)) by (intros x _; cbn [latest wf over]; destruct (_ && _); reflexivity).
    rewrite (latest_none _ (sub G_REV_DEV g)) by (intros x _; cbn [latest wf over]; destruct (_ && _); reflexivity).
    destruct (_ || _); [|reflexivity]. rewrite latest_map. rewrite latest_none; reflexivity.
  Qed.
  Lemma empty_s_wash G g : is_empty G = true -> In g G -> s_wash i d g = None.
  Proof.
    intros E I. unfold s_wash. rewrite !(empty_col G g _ E I). rewrite andb_false_r. reflexivity.
  Qed.
  Lemma wash_all_s : latest (ws d) (wash_cmds kind a i) = latest (s_wash i d) (a_wash a).
  Proof.
    unfold wash_cmds. emp E.
    - symmetry. apply latest_none. intros g I. apply (empty_s_wash _ g E I).
    - rewrite latest_flat. rewrite (latest_ext _ (fun x => (fun (_ : nat) g => s_wash i d g) (fst x) (snd x))).
      + rewrite (latest_number (fun (_ : nat) g => s_wash i d g)). clear. generalize 0%nat. induction (a_wash a) as [|x r IH]; intros n; cbn [latest latest_at]; [reflexivity|]. rewrite IH. reflexivity.
      + intros [n g] _. apply wash_s.
  Qed.
  Lemma wash_all_v : float_inputs -> latest (wv d) (wash_cmds kind a i) = latest_at (v_wash kind a i d) 0 (a_wash a).
  Proof.
    intros F. unfold wash_cmds. emp E.
    - symmetry. apply latest_at_none. intros n g I. unfold v_wash. rewrite !(empty_col _ g _ E I). rewrite andb_false_r.
      cbn. destruct (wash_setting _ _ _ _); reflexivity.
    - rewrite latest_flat, <- latest_number. apply latest_ext. intros [n g] _. apply wash_v. exact F.
  Qed.
  Lemma wash_all_f : latest (wf d) (wash_cmds kind a i) = None.
  Proof. unfold wash_cmds. emp E; [reflexivity|]. rewrite latest_flat. apply latest_none. intros [n g] _. apply wash_f. Qed.
End Words.
