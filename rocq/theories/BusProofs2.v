(** The model follows the history. *)
From Coq Require Import ZArith List Bool Lia.
From Verif Require Import Base TimeModel BusModel BusSpec BusProofs.
Import ListNotations.
Open Scope Z_scope.

Definition wnum (q : want) : Z := match q with Shut => 0 | Open => 1 | Upper => 2 | Lower => 3 end.

Lemma sol_range c i : 0 <= snd (sol c i) < 8.
Proof.
  unfold sol. destruct (gateway c); cbn [snd].
  - destruct (lowest_cases (num c 0)) as [->| ->]; destruct (i =? 0), (Bool.eqb (i =? 1) (rev c)); lia.
  - apply Z.mod_pos_bound. lia.
Qed.
Lemma sol_owned c i : In i (sols c) -> owns c (sol c i).
Proof.
  intros H. unfold owns. destruct (gateway c) eqn:G.
  - unfold sol. rewrite G. cbn [fst snd]. split; [reflexivity|]. destruct (i =? 0), (Bool.eqb (i =? 1) (rev c)); lia.
  - exists i. split; [assumption|reflexivity].
Qed.
Lemma mine_owned c a k : gateway c = true -> mine c a k = true <-> owns c (a, k).
Proof. intros G. unfold mine, owns. rewrite G. cbn [fst snd]. lia. Qed.
Lemma at_owned c i a k : at_ c i a k = true <-> (a, k) = sol c i.
Proof. unfold at_. destruct (sol c i) as (x, y). cbn [fst snd]. split; [intros H; f_equal; lia|intros H; injection H as -> ->; lia]. Qed.
Lemma at_self c i : at_ c i (fst (sol c i)) (snd (sol c i)) = true.
Proof. unfold at_. lia. Qed.
Lemma at_other c i j : good c -> gateway c = false -> In i (sols c) -> In j (sols c) -> i <> j -> at_ c i (fst (sol c j)) (snd (sol c j)) = false.
Proof.
  intros H G Hi Hj N. destruct (at_ c i _ _) eqn:E; [|reflexivity]. apply at_owned in E. rewrite <- surjective_pairing in E.
  unfold good in H. rewrite G in H. destruct H as (_ & H). exfalso. apply N. apply H; auto.
Qed.
Lemma bit_pair m x : bit m x = bit m (fst x, snd x). Proof. destruct x; reflexivity. Qed.

Record done (c : conf) (t : Z) (old q : want) (m : mem) (s : bst) (m' : mem) (s' : bst) : Prop := {
  d_frame : forall x, 0 <= snd x < 8 -> ~ owns c x -> bit m' x = bit m x;
  d_own : forall i, In i (sols c) -> bit m' (sol c i) = lit q i;
  d_man : man s' = man s;
  d_err : t_err s' = t_err s;
  d_st : gateway c = false -> st s' = wnum q;
  d_t : t_sw s' = if restarts c old q then t else t_sw s }.

(** What a valve is like before an order. *)
Record fits (c : conf) (m : mem) (s : bst) (q : want) : Prop := {
  f_own : forall i, In i (sols c) -> bit m (sol c i) = lit q i;
  f_st : gateway c = false -> st s = wnum q }.

Lemma main_in c : In 0 (sols c). Proof. unfold sols. destruct (seats c); left; reflexivity. Qed.
Lemma sols_cases c i : In i (sols c) -> i = 0 \/ (seats c = true /\ (i = 1 \/ i = 2)).
Proof. unfold sols. destruct (seats c); cbn; intuition lia. Qed.
Lemma lit_main q : lit q 0 = want_eqb q Open. Proof. destruct q; reflexivity. Qed.
Lemma wnum_eq q r : (wnum q =? wnum r) = want_eqb q r. Proof. destruct q, r; reflexivity. Qed.

(** The place of a solenoid in the half-byte. *)
Lemma mine_sol c i : gateway c = true -> mine c (fst (sol c i)) (snd (sol c i)) = true.
Proof.
  intros G. apply mine_owned; [assumption|]. unfold owns. rewrite G. unfold sol. rewrite G. cbn [fst snd].
  split; [reflexivity|]. destruct (i =? 0), (Bool.eqb (i =? 1) (rev c)); lia.
Qed.
Lemma snd_sol c i : gateway c = true ->
  snd (sol c i) = lowest (num c 0) + (if i =? 0 then 1 else if Bool.eqb (i =? 1) (rev c) then 2 else 3).
Proof. intros G. unfold sol. rewrite G. reflexivity. Qed.

Lemma not_mine c x : gateway c = true -> ~ owns c x -> mine c (fst x) (snd x) = false.
Proof. intros G H. destruct (mine c (fst x) (snd x)) eqn:E; [|reflexivity]. apply mine_owned in E; [|assumption]. rewrite <- surjective_pairing in E. contradiction. Qed.
Lemma not_at c x i : gateway c = false -> In i (sols c) -> ~ owns c x -> at_ c i (fst x) (snd x) = false.
Proof.
  intros G Hi H. destruct (at_ c i (fst x) (snd x)) eqn:E; [|reflexivity]. apply at_owned in E. rewrite <- surjective_pairing in E.
  exfalso. apply H. subst x. apply sol_owned. assumption.
Qed.

Lemma reset_all c l m x : gateway c = false -> (forall i, In i l -> ch c i <> None) -> 0 <= snd x < 8 ->
  bit (fold_left (reset_bit c) l m) x = if existsb (fun i => at_ c i (fst x) (snd x)) l then false else bit m x.
Proof.
  intros G. revert m. induction l as [|i l IH]; intros m0 Hl Hx; cbn [fold_left existsb]; [reflexivity|].
  rewrite IH; [|intros j Hj; apply Hl; right; exact Hj|exact Hx].
  rewrite (bit_pair (reset_bit c m0 i)), reset_bits; [|assumption|apply Hl; left; reflexivity|lia].
  rewrite <- bit_pair. destruct (at_ c i (fst x) (snd x)); cbn [orb]; destruct (existsb _ l); reflexivity.
Qed.

Lemma do_off c t m s old : good c -> fits c m s old ->
  exists m' s', direct_off c t m s = Some (m', s') /\ done c t old Shut m s m' s'.
Proof.
  intros H F. unfold direct_off. rewrite is_as_gateway. destruct (gateway c) eqn:G.
  - destruct (as_off_bits c t m s G H) as (m' & E & B). rewrite E. eexists m', _. split; [reflexivity|].
    rewrite (f_own _ _ _ _ F 0 (main_in c)), lit_main. split.
    + intros x Hx Nx. rewrite bit_pair, B by assumption. rewrite not_mine by assumption. symmetry. apply bit_pair.
    + intros i Hi. rewrite bit_pair, B by apply sol_range. rewrite mine_sol by assumption. reflexivity.
    + destruct (want_eqb old Open); reflexivity.
    + destruct (want_eqb old Open); reflexivity.
    + congruence.
    + unfold restarts. rewrite G. destruct (want_eqb old Open); reflexivity.
  - unfold t_off. rewrite (good_check c G H). eexists _, _. split; [reflexivity|].
    pose proof H as H0. unfold good in H0. rewrite G in H0. destruct H0 as (HC & _).
    rewrite (f_st _ _ _ _ F G). change 0 with (wnum Shut). rewrite wnum_eq.
    rewrite (outs_sols c G).
    assert (B : forall x, 0 <= snd x < 8 -> bit (fold_left (reset_bit c) (sols c) m) x = if existsb (fun i => at_ c i (fst x) (snd x)) (sols c) then false else bit m x).
    { intros x Hx. apply reset_all; [assumption| |assumption]. intros i Hi. apply HC. assumption. }
    split.
    + intros x Hx Nx. rewrite B by assumption. replace (existsb _ (sols c)) with false; [reflexivity|].
      symmetry. apply not_true_is_false. intros E. apply existsb_exists in E. destruct E as (i & Hi & E). rewrite not_at in E by assumption. discriminate.
    + intros i Hi. rewrite B by apply sol_range. replace (existsb _ (sols c)) with true; [reflexivity|].
      symmetry. apply existsb_exists. exists i. split; [assumption|apply at_self].
    + destruct (want_eqb old Shut); reflexivity.
    + destruct (want_eqb old Shut); reflexivity.
    + intros _. destruct (want_eqb old Shut); reflexivity.
    + unfold restarts. rewrite G. destruct (want_eqb old Shut); reflexivity.
Qed.

Lemma do_on c t m s old : good c -> fits c m s old ->
  exists m' s', direct_on c t m s = Some (m', s') /\ done c t old Open m s m' s'.
Proof.
  intros H F. unfold direct_on. rewrite is_as_gateway. destruct (gateway c) eqn:G.
  - destruct (as_on_bits c t m s G H) as (m' & E & B). rewrite E. eexists m', _. split; [reflexivity|].
    rewrite (f_own _ _ _ _ F 0 (main_in c)), lit_main. split.
    + intros x Hx Nx. rewrite bit_pair, B by assumption. rewrite not_mine by assumption. symmetry. apply bit_pair.
    + intros i Hi. rewrite bit_pair, B by apply sol_range. rewrite mine_sol, snd_sol by assumption. cbn [lit].
      destruct (i =? 0); [|destruct (Bool.eqb (i =? 1) (rev c))].
      * replace (lowest (num c 0) + 1 =? lowest (num c 0)) with false by lia. apply Z.eqb_refl.
      * replace (lowest (num c 0) + 2 =? lowest (num c 0)) with false by lia. lia.
      * replace (lowest (num c 0) + 3 =? lowest (num c 0)) with false by lia. lia.
    + destruct (want_eqb old Open); reflexivity.
    + destruct (want_eqb old Open); reflexivity.
    + congruence.
    + unfold restarts. destruct (want_eqb old Open); reflexivity.
  - unfold t_on. rewrite (good_check c G H). eexists _, _. split; [reflexivity|].
    pose proof H as H0. unfold good in H0. rewrite G in H0. destruct H0 as (HC & _).
    rewrite (f_st _ _ _ _ F G). change 1 with (wnum Open). rewrite wnum_eq.
    rewrite (outs_sols c G).
    assert (B : forall x, 0 <= snd x < 8 -> bit (fold_left (reset_bit c) (tl (sols c)) (set_bit c m 0)) x =
       if existsb (fun i => at_ c i (fst x) (snd x)) (tl (sols c)) then false else if at_ c 0 (fst x) (snd x) then true else bit m x).
    { intros x Hx. rewrite reset_all; [|assumption| |assumption].
      - rewrite (bit_pair (set_bit c m 0)), set_bits; [rewrite <- bit_pair; reflexivity|assumption|apply HC, main_in|lia].
      - intros i Hi. apply HC. unfold sols in *. destruct (seats c); cbn in *; intuition. }
    split.
    + intros x Hx Nx. rewrite B by assumption. rewrite (not_at c x 0 G (main_in c) Nx).
      replace (existsb _ (tl (sols c))) with false; [reflexivity|].
      symmetry. apply not_true_is_false. intros E. apply existsb_exists in E. destruct E as (i & Hi & E). rewrite not_at in E; try assumption; [discriminate|].
      unfold sols in *. destruct (seats c); cbn in *; intuition.
    + intros i Hi. rewrite B by apply sol_range. destruct (sols_cases c i Hi) as [->|(S & D)].
      * rewrite at_self. replace (existsb _ (tl (sols c))) with false; [reflexivity|].
        symmetry. apply not_true_is_false. intros E. apply existsb_exists in E. destruct E as (j & Hj & E).
        rewrite at_other in E; try assumption; [discriminate| |].
        -- unfold sols in *. destruct (seats c); cbn in *; intuition.
        -- unfold sols in *. destruct (seats c); cbn in *; intuition; subst; discriminate.
      * replace (existsb _ (tl (sols c))) with true; [cbn [lit]; destruct D; subst; reflexivity|].
        symmetry. apply existsb_exists. exists i. split; [|apply at_self]. unfold sols. rewrite S. cbn. destruct D; auto.
    + destruct (want_eqb old Open); reflexivity.
    + destruct (want_eqb old Open); reflexivity.
    + intros _. destruct (want_eqb old Open); reflexivity.
    + unfold restarts. destruct (want_eqb old Open); reflexivity.
Qed.

Definition seat (u : bool) : want := if u then Upper else Lower.
Lemma lit_seat u i : lit (seat u) i = (i =? if u then 1 else 2). Proof. destruct u; reflexivity. Qed.

Lemma do_as_seat c u t m s old : gateway c = true -> good c ->
  exists m' s', as_seat c (seat_mask c u) t m s = Some (m', s') /\ done c t old (seat u) m s m' s'.
Proof.
  intros G H. destruct (as_seat_bits c u t m s G H) as (m' & E & B). rewrite E. eexists m', _. split; [reflexivity|]. split.
  - intros x Hx Nx. rewrite bit_pair, B by assumption. rewrite not_mine by assumption. symmetry. apply bit_pair.
  - intros i Hi. rewrite bit_pair, B by apply sol_range. rewrite mine_sol, snd_sol by assumption. rewrite lit_seat. unfold seat_bit.
    destruct (sols_cases c i Hi) as [->|(_ & [->| ->])]; destruct u, (rev c); cbn; lia.
  - reflexivity.
  - reflexivity.
  - congruence.
  - unfold restarts. destruct u; cbn [seat]; rewrite G; reflexivity.
Qed.
Definition t_seat (c : conf) (u : bool) := if u then t_upper c else t_lower c.
Lemma do_t_seat c u t m s old : gateway c = false -> seats c = true -> good c ->
  exists m' s', Some (t_seat c u m s) = Some (m', s') /\ done c t old (seat u) m s m' s'.
Proof.
  intros G S H. pose proof H as H0. unfold good in H0. rewrite G in H0. destruct H0 as (HC & HD).
  assert (I0 : In 0 (sols c)) by apply main_in.
  assert (I1 : In 1 (sols c)) by (unfold sols; rewrite S; cbn; auto).
  assert (I2 : In 2 (sols c)) by (unfold sols; rewrite S; cbn; auto).
  pose proof (fun m a k K => reset_bits c m 0 a k G (proj1 (HC 0 I0)) K) as R0.
  pose proof (fun m a k K => reset_bits c m 1 a k G (proj1 (HC 1 I1)) K) as R1.
  pose proof (fun m a k K => reset_bits c m 2 a k G (proj1 (HC 2 I2)) K) as R2.
  pose proof (fun m a k K => set_bits c m 1 a k G (proj1 (HC 1 I1)) K) as S1.
  pose proof (fun m a k K => set_bits c m 2 a k G (proj1 (HC 2 I2)) K) as S2.
  destruct u; cbn [t_seat seat]; unfold t_upper, t_lower; rewrite (good_check c G H); eexists _, _; (split; [reflexivity|]).
  - assert (B : forall x, 0 <= snd x < 8 -> bit (reset_bit c (set_bit c (reset_bit c m 0) 1) 2) x =
       if at_ c 2 (fst x) (snd x) then false else if at_ c 1 (fst x) (snd x) then true else if at_ c 0 (fst x) (snd x) then false else bit m x).
    { intros x Hx. rewrite bit_pair, R2, S1, R0, <- bit_pair by lia. reflexivity. }
    split.
    + intros x Hx Nx. rewrite B by assumption. rewrite !not_at by assumption. reflexivity.
    + intros i Hi. rewrite B by apply sol_range. destruct (sols_cases c i Hi) as [->|(_ & [->| ->])];
        rewrite ?at_self, ?at_other by (assumption || lia); reflexivity.
    + reflexivity.
    + reflexivity.
    + reflexivity.
    + unfold restarts. rewrite G. reflexivity.
  - assert (B : forall x, 0 <= snd x < 8 -> bit (set_bit c (reset_bit c (reset_bit c m 0) 1) 2) x =
       if at_ c 2 (fst x) (snd x) then true else if at_ c 1 (fst x) (snd x) then false else if at_ c 0 (fst x) (snd x) then false else bit m x).
    { intros x Hx. rewrite bit_pair, S2, R1, R0, <- bit_pair by lia. reflexivity. }
    split.
    + intros x Hx Nx. rewrite B by assumption. rewrite !not_at by assumption. reflexivity.
    + intros i Hi. rewrite B by apply sol_range. destruct (sols_cases c i Hi) as [->|(_ & [->| ->])];
        rewrite ?at_self, ?at_other by (assumption || lia); reflexivity.
    + reflexivity.
    + reflexivity.
    + reflexivity.
    + unfold restarts. rewrite G. reflexivity.
Qed.

(** A state command. *)
Lemma do_set c t n m s old : good c -> fits c m s old ->
  match meaning c n with
  | None => direct_set_state c t n m s = Some (m, s)
  | Some q => exists m' s', direct_set_state c t n m s = Some (m', s') /\ done c t old q m s m' s'
  end.
Proof.
  intros H F. unfold direct_set_state, meaning.
  pose proof (do_on c t m s old H F) as ON. pose proof (do_off c t m s old H F) as OFF.
  pose proof (fun G u => do_as_seat c u t m s old G H) as AS.
  pose proof (fun G S u => do_t_seat c u t m s old G S H) as TS.
  unfold seats, gateway in *. destruct (kind c); cbn [andb orb negb].
  - specialize (AS eq_refl). destruct (n =? 0) eqn:E0; [exact OFF|].
    destruct (n =? 1) eqn:E1. { replace (n =? 2) with false by lia. replace (n =? 3) with false by lia. exact ON. }
    destruct (n =? 2); [exact (AS true)|]. destruct (n =? 3); [exact (AS false)|]. exact ON.
  - destruct (n =? 0) eqn:E0. { replace (n =? 2) with false by lia. replace (n =? 3) with false by lia. exact OFF. }
    destruct ((n =? 2) || (n =? 3)); [reflexivity|exact ON].
  - destruct (n =? 0); assumption.
  - destruct (n =? 0); assumption.
  - destruct (n =? 0); assumption.
  - destruct (n =? 0); assumption.
  - specialize (TS eq_refl eq_refl). destruct (n =? 0) eqn:E0; [exact OFF|].
    destruct (n =? 1) eqn:E1. { replace (n =? 2) with false by lia. replace (n =? 3) with false by lia. exact ON. }
    destruct (n =? 2); [exact (TS true)|]. destruct (n =? 3); [exact (TS false)|]. exact ON.
  - specialize (TS eq_refl eq_refl). destruct (n =? 0) eqn:E0; [exact OFF|].
    destruct (n =? 1) eqn:E1. { replace (n =? 2) with false by lia. replace (n =? 3) with false by lia. exact ON. }
    destruct (n =? 2); [exact (TS true)|]. destruct (n =? 3); [exact (TS false)|]. exact ON.
Qed.
Lemma do_seat c u t m s old : good c -> fits c m s old ->
  if seats c then exists m' s', open_seat c u t m s = Some (m', s') /\ done c t old (seat u) m s m' s'
  else open_seat c u t m s = Some (m, s).
Proof.
  intros H F. pose proof (do_set c t (if u then 2 else 3) m s old H F) as D. unfold open_seat.
  unfold meaning, seats in *. destruct (kind c); try reflexivity; destruct u; exact D.
Qed.
