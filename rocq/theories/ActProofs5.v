(** Proofs about the actions of a step: histories. *)
From Coq Require Import ZArith List Bool Lia QArith.
From Verif Require Import Base FTextModel FloatModel FloatProofs FloatProofs2 AioProofs TimeModel OpModel OpSpec ActModel ActSpec ActProofs ActProofs2 ActProofs3 ActProofs4.
Import ListNotations.
Open Scope Z_scope.

Lemma engaged_same x r s k : owner x = s -> stepno x = k -> engaged (x :: r) s k = negb (ends x).
Proof. intros <- <-. cbn. rewrite !Z.eqb_refl. reflexivity. Qed.
Lemma engaged_other x r s k : ~ (owner x = s /\ stepno x = k) -> engaged (x :: r) s k = engaged r s k.
Proof.
  intros N. cbn. destruct (Z.eqb_spec (owner x) s), (Z.eqb_spec (stepno x) k); try reflexivity. exfalso. auto.
Qed.
Lemma engaged_keep x r s k : ends x = false -> engaged r s k = true -> engaged (x :: r) s k = true.
Proof. intros E H. cbn. destruct (_ && _); [rewrite E; reflexivity|exact H]. Qed.

Lemma open_seated a d y : phase_ok y -> open a d y -> seated a d.
Proof.
  intros P [N I]. unfold seat_group in I. apply in_col in I as (l & J & K). exists l. split; [|exact K].
  apply in_app_iff. destruct (y_phase y =? 1); auto.
Qed.

Section Trace.
  Context (w : Z) (kind : Z -> Z) (A : Z -> Z -> acts) (d : Z).

  (** All is off and no seat is being washed. *)
  Definition at_rest (W : world) : Prop :=
    d_state (devs W d) = 0 /\ d_value (devs W d) = 0 /\ d_seat (devs W d) = false /\ forall s k, dyn_ok (dyns W s k).
  Definition blamed (t : list event) (W : world) (s k : Z) : Prop :=
    engaged t s k = true /\ (named (A s k) d \/ open (A s k) d (dyns W s k)).
  Definition inv (t : list event) (W : world) : Prop :=
    (forall s k, dyn_ok (dyns W s k)) /\
    (d_state (devs W d) <> 0 -> exists s k, blamed t W s k) /\
    (d_value (devs W d) <> 0 -> exists s k, blamed t W s k) /\
    (d_seat (devs W d) = true -> kind d = 0 /\ exists s k, engaged t s k = true /\ open (A s k) d (dyns W s k)).
  Definition restartable (t : list event) : Prop := no_restart t \/ forall s k, ~ seated (A s k) d.

  Lemma inv_rest W : at_rest W -> inv [] W.
  Proof. intros (R1 & R2 & R3 & R4). split; [exact R4|]. repeat split; try congruence. Qed.

  Lemma init_ok i y s k : dyn_ok y -> dyn_ok (step_init w (A s k) i y).
  Proof.
    intros [P Q]. unfold step_init, seat_init. destruct (no_seats _); split; unfold phase_ok in *; cbn; auto.
  Qed.
  Lemma inv_init i s k t W : (engaged t s k = false \/ forall s k, ~ seated (A s k) d) -> inv t W ->
    inv (Init s k :: t) (act_on w kind A (Init s k, i) W).
  Proof.
    intros R (I1 & I2 & I3 & I4). unfold act_on. cbn [fst snd].
    set (U := fun s' k' => _).
    assert (UO : forall s' k', dyn_ok (U s' k')).
    { intros s' k'. unfold U. destruct (_ && _); [apply init_ok|]; apply I1. }
    assert (Same : forall s' k', ~ (s = s' /\ k = k') -> U s' k' = dyns W s' k').
    { intros s' k' N. unfold U. destruct (Z.eqb_spec s' s), (Z.eqb_spec k' k); try reflexivity. subst. exfalso. auto. }
    assert (Op : forall s' k', engaged t s' k' = true -> open (A s' k') d (dyns W s' k') ->
                 engaged (Init s k :: t) s' k' = true /\ open (A s' k') d (U s' k')).
    { intros s' k' E O. destruct R as [R|R].
      - split; [apply engaged_keep; auto|]. rewrite Same; [exact O|]. intros [-> ->]. congruence.
      - exfalso. apply (R s' k'). apply (open_seated _ _ _ (proj1 (I1 s' k')) O). }
    assert (Bl : forall s' k', blamed t W s' k' -> blamed (Init s k :: t) {| devs := devs W; dyns := U |} s' k').
    { intros s' k' [E [N|O]]; [split; [apply engaged_keep; auto|left; exact N]|]. destruct (Op _ _ E O). split; [assumption|right; assumption]. }
    split; [exact UO|]. cbn [devs dyns]. split; [|split].
    - intros H. destruct (I2 H) as (s' & k' & B). eauto.
    - intros H. destruct (I3 H) as (s' & k' & B). eauto.
    - intros H. destruct (I4 H) as (K & s' & k' & E & O). split; [exact K|]. exists s', k'. apply Op; assumption.
  Qed.
  Lemma inv_eval i s k t W : i_held i d = false -> inv t W ->
    inv (Eval s k :: t) (act_on w kind A (Eval s k, i) W).
  Proof.
    intros H (I1 & I2 & I3 & I4). unfold act_on. cbn [fst snd].
    set (r := step_evaluate w kind (A s k) i (devs W) (dyns W s k)). set (U := fun s' k' => _).
    assert (Eng : engaged (Eval s k :: t) s k = true) by (rewrite engaged_same; reflexivity).
    assert (UE : U s k = snd r) by (unfold U; rewrite !Z.eqb_refl; reflexivity).
    assert (Same : forall s' k', ~ (s = s' /\ k = k') -> U s' k' = dyns W s' k').
    { intros s' k' N. unfold U. destruct (Z.eqb_spec s' s), (Z.eqb_spec k' k); try reflexivity. subst. exfalso. auto. }
    assert (Dec : forall s' k', (s' = s /\ k' = k) \/ ~ (s = s' /\ k = k')) by (intros; lia).
    assert (UO : forall s' k', dyn_ok (U s' k')).
    { intros s' k'. destruct (Dec s' k') as [[-> ->]|N]; [|rewrite Same by exact N; apply I1].
      rewrite UE. unfold r. rewrite eval_y. apply seat_cases. apply I1. }
    split; [exact UO|]. cbn [devs dyns]. split; [|split].
    - intros NZ. destruct (eval_state_cases w kind (A s k) i d (devs W) (dyns W s k) (I1 s k) H NZ) as [N|[O|[E O]]].
      + exists s, k. split; [exact Eng|left; exact N].
      + exists s, k. split; [exact Eng|right]. cbn [dyns]. rewrite UE. exact O.
      + fold r in E. rewrite <- E in NZ. destruct (I2 NZ) as (s' & k' & EG & B). exists s', k'. split; [apply engaged_keep; auto|].
        destruct B as [N|B]; [left; exact N|]. destruct (Dec s' k') as [[-> ->]|N]; [contradiction|]. right. cbn [dyns]. rewrite Same by exact N. exact B.
    - intros NZ. destruct (eval_value_cases w kind (A s k) i d (devs W) (dyns W s k) (I1 s k) H NZ) as [N|[E O]].
      + exists s, k. split; [exact Eng|left; exact N].
      + fold r in E, O. rewrite <- E in NZ. destruct (I3 NZ) as (s' & k' & EG & B). exists s', k'. split; [apply engaged_keep; auto|].
        destruct B as [N|B]; [left; exact N|]. right. cbn [dyns].
        destruct (Dec s' k') as [[-> ->]|N]; [rewrite UE; auto|]. rewrite Same by exact N. exact B.
    - intros F. destruct (eval_flag_cases w kind (A s k) i d (devs W) (dyns W s k) (I1 s k) F) as [O|[E O]].
      + fold r in O. destruct (Z.eq_dec (kind d) 0) as [K|K].
        * split; [exact K|]. exists s, k. split; [exact Eng|]. rewrite UE. exact O.
        * exfalso. apply K. (* a flag of another device is never set *)
          assert (G : d_seat (devs W d) = true).
          { revert F. unfold r, step_evaluate. cbv zeta. cbn [fst].
            rewrite seat_same by apply doff_f. rewrite seat_same by apply don_f. rewrite seat_same by apply wash_all_f.
            rewrite seat_same by apply aiao_f. rewrite seat_same by apply inv_f. rewrite seat_same by apply dido_f.
            set (D2 := exec _ (rev_cmds _) _). set (D3 := exec _ (off_cmds _ _ _) _).
            assert (E3 : d_seat (D3 d) = d_seat (devs W d)).
            { unfold D3, D2. repeat (rewrite seat_same by (first [apply off_f | apply rev_f | apply on_f])). reflexivity. }
            rewrite exec_seat, E3.
            destruct (seat_cases w kind (A s k) i D3 (dyns W s k) (I1 s k)) as [_ C].
            apply Z.eqb_neq in K.
            destruct C as [[_ ->]|[(_ & st & -> & _)|[_ ->]]].
            - rewrite latest_app, !(checked_all kind d None) by (intros x; cbn; destruct (d =? x); reflexivity).
              destruct (existsb _ _ && _), (existsb _ _ && _); cbn; auto.
            - rewrite on_seats_f, K. cbn. auto.
            - rewrite off_seats_f, K. cbn. auto. }
          apply I4. exact G.
      + destruct (I4 E) as (K & s' & k' & EG & O'). split; [exact K|]. destruct (Dec s' k') as [[-> ->]|N].
        * destruct (O O'). exact K.
        * exists s', k'. split; [apply engaged_keep; auto|]. rewrite Same by exact N. exact O'.
  Qed.
  Lemma inv_fin i s k t W : i_held i d = false -> inv t W -> inv (Fin s k :: t) (act_on w kind A (Fin s k, i) W).
  Proof.
    intros H (I1 & I2 & I3 & I4). unfold act_on. cbn [fst snd].
    assert (P : phase_ok (dyns W s k)) by apply I1.
    assert (Bl : forall s' k', blamed t W s' k' -> ~ In d (ended (A s k) (dyns W s k)) ->
                 engaged (Fin s k :: t) s' k' = true /\ (named (A s' k') d \/ open (A s' k') d (dyns W s' k'))).
    { intros s' k' [E B] N. split; [|exact B]. rewrite engaged_other; [exact E|]. cbn. intros [-> ->].
      apply N. destruct B; [apply named_ended|apply open_ended]; assumption. }
    split; [exact I1|]. cbn [devs dyns].
    destruct (in_dec Z.eq_dec d (ended (A s k) (dyns W s k))) as [I|I].
    - destruct (finalize_off kind (A s k) i d (devs W) _ P H I) as [E1 E2]. rewrite E1, E2. split; [congruence|split; [congruence|]].
      rewrite finalize_flag by exact P. intros F. apply andb_prop in F as [F G].
      destruct (I4 F) as (K & s' & k' & E & O). split; [exact K|]. exists s', k'. split; [|exact O].
      rewrite engaged_other; [exact E|]. cbn. intros [-> ->]. destruct O as [O1 O2]. apply has_In in O2. rewrite O2 in G.
      apply Z.eqb_eq in K. apply Z.eqb_neq in O1. rewrite K, O1 in G. discriminate.
    - destruct (finalize_same kind (A s k) i d (devs W) _ P I) as [E1 E2]. rewrite E1, E2. split; [|split].
      + intros NZ. destruct (I2 NZ) as (s' & k' & B). destruct (Bl _ _ B I). exists s', k'. split; assumption.
      + intros NZ. destruct (I3 NZ) as (s' & k' & B). destruct (Bl _ _ B I). exists s', k'. split; assumption.
      + rewrite finalize_flag by exact P. intros F. apply andb_prop in F as [F _].
        destruct (I4 F) as (K & s' & k' & E & O). split; [exact K|]. exists s', k'.
        destruct (Bl s' k' (conj E (or_intror O)) I). split; assumption.
  Qed.

  Lemma inv_play t W : at_rest W -> (forall x, In x t -> i_held (snd x) d = false) -> restartable (map fst t) ->
    inv (map fst t) (play w kind A t W).
  Proof.
    intros Q. induction t as [|[x i] r IH]; intros H R; [apply inv_rest; exact Q|]. cbn [map fst play].
    assert (Hi : i_held i d = false) by (apply (H (x, i)); left; reflexivity).
    assert (R' : restartable (map fst r)) by (destruct R as [R|R]; [left; apply R|right; exact R]).
    specialize (IH (fun y I => H y (or_intror I)) R'). destruct x as [s k|s k|s k].
    - apply inv_init; [|exact IH]. destruct R as [R|R]; [left; apply R|right; exact R].
    - apply inv_eval; assumption.
    - apply inv_fin; assumption.
  Qed.
End Trace.
