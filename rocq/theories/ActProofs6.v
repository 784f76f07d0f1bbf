(** Proofs about the actions of a step: the round of the seats. *)
From Coq Require Import ZArith List Bool Lia QArith.
From Verif Require Import Base FTextModel FloatModel FloatProofs FloatProofs2 AioProofs TimeModel OpModel OpSpec ActModel ActSpec ActProofs ActProofs2 ActProofs3 ActProofs4.
Import ListNotations.
Open Scope Z_scope.

Section Round.
  Context (w : Z) (kind : Z -> Z) (a : acts).
  Local Notation m := (length (a_upper a)).
  Local Notation n := (length (a_lower a)).

  (** The number of finished openings tells the place in the round. *)
  Definition at_place (y : adyn) (c : nat) : Prop :=
    (y_phase y = 0 \/ y_phase y = y_next y) /\ 0 <= y_group y /\
    let g := Z.to_nat (y_group y) in
    (y_next y = 1 /\ ((g < m)%nat /\ (c mod (m + n))%nat = g \/ m = 0%nat /\ g = 0%nat /\ (c mod (m + n))%nat = 0%nat)
     \/ y_next y = 2 /\ ((g < n)%nat /\ (c mod (m + n))%nat = (m + g)%nat \/ n = 0%nat /\ g = 0%nat /\ (c mod (m + n))%nat = 0%nat)).

  Lemma next_mod c t k : (0 < t)%nat -> (c mod t)%nat = k -> (S c mod t)%nat = if (S k =? t)%nat then 0%nat else S k.
  Proof.
    intros T E. assert (D : (c = t * (c / t) + k)%nat) by (rewrite <- E; apply Nat.div_mod; lia).
    assert (k < t)%nat by (rewrite <- E; apply Nat.mod_upper_bound; lia).
    destruct (Nat.eqb_spec (S k) t) as [F|F].
    - replace (S c) with (0 + (S (c / t)) * t)%nat by nia. rewrite Nat.mod_add by lia. apply Nat.mod_small. lia.
    - replace (S c) with (S k + (c / t) * t)%nat by nia. rewrite Nat.mod_add by lia. apply Nat.mod_small. lia.
  Qed.
  Lemma zero_len {A} (l : list A) : length l = 0%nat <-> l = [].
  Proof. destruct l; cbn; split; congruence. Qed.

  Lemma place_step D i y c : no_seats a = false -> since i (y_cycle y) -> at_place y c ->
    at_place (snd (step_evaluate w kind a i D y)) (if closes a i y then S c else c).
  Proof.
    intros N SI (P1 & P2 & P3). rewrite eval_y. unfold seat_eval. rewrite N.
    assert (T : (0 < m + n)%nat).
    { unfold no_seats in *. destruct (a_upper a), (a_lower a); cbn; (discriminate || lia). }
    unfold closes, seat_open_now, seat_phase, P_WAITING, P_OPEN_UPPER, P_OPEN_LOWER. rewrite (delta_since w i _ SI).
    cbv zeta in P3. destruct (Z.eqb_spec (y_phase y) 0) as [E0|E0]; cbn [negb andb snd].
    { destruct (_ <? _).
      - unfold at_place. cbn [seat_dyn y_phase y_next y_group]. auto.
      - unfold at_place. cbv zeta. auto. }
    assert (PN : y_phase y = y_next y) by tauto. clear P1.
    destruct P3 as [[Q P3]|[Q P3]]; rewrite PN, Q; cbn [Z.eqb Pos.eqb].
    - (* upper seats *)
      destruct (a_upper a) as [|x r] eqn:U; rewrite <- U in P3, T.
      + rewrite andb_false_r. cbn [snd]. unfold at_place. cbn [seat_dyn y_phase y_next y_group]. cbv zeta.
        assert (m = 0%nat) by (rewrite U; reflexivity).
        split; [auto|]. split; [exact P2|]. right. split; [reflexivity|].
        destruct P3 as [[G _]|(_ & G0 & C0)]; [lia|]. left. rewrite C0. lia.
      + rewrite andb_true_r. rewrite <- U. destruct (_ <? _) eqn:O; cbn [negb snd].
        * unfold at_place. cbv zeta. rewrite PN. auto.
        * assert (0 < m)%nat by (rewrite U; cbn; lia).
          unfold at_place. cbn [seat_dyn y_phase y_next y_group]. cbv zeta. split; [auto|].
          destruct P3 as [[G C]|[Z0 _]]; [|lia].
          rewrite (next_mod c (m + n) (Z.to_nat (y_group y)) T C).
          destruct (Z.leb_spec (Z.of_nat m) (y_group y + 1)) as [L|L].
          -- split; [lia|]. right. split; [reflexivity|].
             assert (E : S (Z.to_nat (y_group y)) = m) by lia. rewrite E.
             destruct (Nat.eqb_spec m (m + n)) as [F|F]; change (Z.to_nat 0) with 0%nat; lia.
          -- split; [lia|]. left. split; [first [exact Q|reflexivity]|]. left.
             destruct (Nat.eqb_spec (S (Z.to_nat (y_group y))) (m + n)) as [F|F]; lia.
    - (* lower seats *)
      destruct (a_lower a) as [|x r] eqn:U; rewrite <- U in P3, T.
      + rewrite andb_false_r. cbn [snd]. unfold at_place. cbn [seat_dyn y_phase y_next y_group]. cbv zeta.
        assert (n = 0%nat) by (rewrite U; reflexivity).
        split; [auto|]. split; [exact P2|]. left. split; [reflexivity|].
        destruct P3 as [[G _]|(_ & G0 & C0)]; [lia|]. left. rewrite C0. lia.
      + rewrite andb_true_r. rewrite <- U. destruct (_ <? _) eqn:O; cbn [negb snd].
        * unfold at_place. cbv zeta. rewrite PN. auto.
        * assert (0 < n)%nat by (rewrite U; cbn; lia).
          unfold at_place. cbn [seat_dyn y_phase y_next y_group]. cbv zeta. split; [auto|].
          destruct P3 as [[G C]|[Z0 _]]; [|lia].
          rewrite (next_mod c (m + n) _ T C).
          destruct (Z.leb_spec (Z.of_nat n) (y_group y + 1)) as [L|L].
          -- split; [lia|]. left. split; [reflexivity|].
             assert (E : S (m + Z.to_nat (y_group y)) = (m + n)%nat) by lia. rewrite E, Nat.eqb_refl.
             change (Z.to_nat 0) with 0%nat. lia.
          -- split; [lia|]. right. split; [first [exact Q|reflexivity]|]. left.
             destruct (Nat.eqb_spec (S (m + Z.to_nat (y_group y))) (m + n)) as [F|F]; lia.
  Qed.

  (** The clock of the washing. *)
  Lemma cycle_step D i y : since i (y_cycle y) -> i_now i < 2 ^ 32 ->
    y_cycle (snd (step_evaluate w kind a i D y)) = y_cycle y \/ y_cycle (snd (step_evaluate w kind a i D y)) = i_now i.
  Proof.
    intros S L. rewrite eval_y. unfold since in S. assert (U : u32 (i_now i) = i_now i) by (unfold u32; apply Z.mod_small; lia).
    unfold seat_eval. destruct (no_seats a); [auto|]. destruct (_ =? P_WAITING).
    - cbn [snd]. destruct (_ <? _); [|auto]. cbn [seat_dyn y_cycle]. auto.
    - destruct (_ =? P_OPEN_UPPER); unfold seat_phase; [destruct (a_upper a)|destruct (a_lower a)]; cbn [snd seat_dyn y_cycle]; auto;
        destruct (_ <? _); cbn [snd seat_dyn y_cycle]; auto.
  Qed.

  Lemma place_run l D y c : no_seats a = false -> 0 <= y_cycle y -> forward (y_cycle y) l -> at_place y c ->
    let r := washing w kind a l D y c in at_place (snd (fst r)) (snd r).
  Proof.
    intros N. revert D y c.
    assert (G : forall l t D y c, 0 <= y_cycle y <= t -> forward t l -> at_place y c ->
                let r := washing w kind a l D y c in at_place (snd (fst r)) (snd r)).
    { clear l. induction l as [|i r IH]; intros t D y c C F P; [exact P|]. cbn [washing]. destruct F as [F1 F2].
      assert (S : since i (y_cycle y)) by (unfold since; lia).
      apply (IH (i_now i)); [|exact F2|apply place_step; assumption].
      destruct (cycle_step D i y S) as [->| ->]; lia. }
    intros D y c C F P. apply (G l (y_cycle y)); auto. lia.
  Qed.

  (** The open group is the one whose turn it is. *)
  Lemma place_group y c : no_seats a = false -> y_phase y <> 0 -> at_place y c -> seat_group a y <> [] ->
    (c mod (m + n) < m + n)%nat /\ seat_group a y = col (c mod (m + n)) (round_groups a) /\
    (y_phase y = 1 <-> (c mod (m + n) < m)%nat).
  Proof.
    intros N E0 (P1 & P2 & P3) NE. assert (PN : y_phase y = y_next y) by tauto. cbv zeta in P3.
    unfold seat_group, round_groups, col in *. rewrite PN in *.
    destruct P3 as [[Q P3]|[Q P3]]; rewrite Q in *; cbn [Z.eqb Pos.eqb] in *.
    - destruct P3 as [[G C]|(Z0 & _)].
      + rewrite C. split; [lia|]. split; [|lia]. symmetry. apply app_nth1. exact G.
      + apply zero_len in Z0. rewrite Z0 in NE. exfalso. apply NE. destruct (Z.to_nat (y_group y)); reflexivity.
    - destruct P3 as [[G C]|(Z0 & _)].
      + rewrite C. split; [lia|]. split; [|lia]. rewrite app_nth2 by lia.  f_equal. lia.
      + apply zero_len in Z0. rewrite Z0 in NE. exfalso. apply NE. destruct (Z.to_nat (y_group y)); reflexivity.
  Qed.

  Lemma place_init i y : no_seats a = false -> at_place (step_init w a i y) 0.
  Proof.
    intros N. unfold step_init, seat_init. rewrite N. unfold at_place. cbn [seat_dyn y_phase y_next y_group].
    unfold P_WAITING, P_OPEN_UPPER. split; [auto|]. split; [lia|]. cbv zeta. left. split; [reflexivity|].
    rewrite Nat.mod_0_l. 2: { unfold no_seats in *. destruct (a_upper a), (a_lower a); cbn; (discriminate || lia). }
    change (Z.to_nat 0) with 0%nat. lia.
  Qed.

  (** A marked valve is in the open group. *)
  Lemma flags_run l D y c d : dyn_ok y -> (d_seat (D d) = true -> kind d = 0 /\ open a d y) ->
    let r := washing w kind a l D y c in
    d_seat (fst (fst r) d) = true -> kind d = 0 /\ open a d (snd (fst r)).
  Proof.
    revert D y c. induction l as [|i r IH]; intros D y c K H; [exact H|]. cbn [washing]. apply IH.
    - rewrite eval_y. apply seat_cases. exact K.
    - intros F. destruct (Z.eq_dec (kind d) 0) as [E|E].
      + split; [exact E|]. destruct (eval_flag_cases w kind a i d D y K F) as [O|[G O]]; [exact O|].
        destruct (H G) as [_ O']. destruct (O O' E).
      + exfalso. assert (G : d_seat (D d) = true); [|destruct (H G); contradiction].
        revert F. unfold step_evaluate. cbv zeta. cbn [fst].
        rewrite seat_same by apply doff_f. rewrite seat_same by apply don_f. rewrite seat_same by apply wash_all_f.
        rewrite seat_same by apply aiao_f. rewrite seat_same by apply inv_f. rewrite seat_same by apply dido_f.
        set (D2 := exec _ (rev_cmds _) _). set (D3 := exec _ (off_cmds _ _ _) _).
        assert (E3 : d_seat (D3 d) = d_seat (D d)).
        { unfold D3, D2. repeat (rewrite seat_same by (first [apply off_f | apply rev_f | apply on_f])). reflexivity. }
        rewrite exec_seat, E3. destruct (seat_cases w kind a i D3 y K) as [_ C]. apply Z.eqb_neq in E.
        destruct C as [[_ ->]|[(_ & st & -> & _)|[_ ->]]].
        * rewrite latest_app, !(checked_all kind d None) by (intros x; cbn; destruct (d =? x); reflexivity).
          destruct (existsb _ _ && _), (existsb _ _ && _); cbn; auto.
        * rewrite on_seats_f, E. cbn. auto.
        * rewrite off_seats_f, E. cbn. auto.
  Qed.

  (** ** Times *)
  Lemma turn_step D i y : no_seats a = false -> dyn_ok y -> since i (y_cycle y) -> i_now i < 2 ^ 32 ->
    let y' := snd (step_evaluate w kind a i D y) in
    (y_phase y = 0 ->
       (y_wait y < i_now i - y_cycle y -> y_phase y' = y_next y /\ y_cycle y' = i_now i) /\
       (i_now i - y_cycle y <= y_wait y -> y_phase y' = 0 /\ y_cycle y' = y_cycle y)) /\
    (closes a i y = true -> y_phase y' = 0 /\ y_cycle y' = i_now i) /\
    (y_phase y <> 0 -> closes a i y = false -> y_phase y' <> 0 /\ y_cycle y' = y_cycle y) /\
    y_wait y' = y_wait y.
  Proof.
    intros N [P Q] S L y'. unfold y'. rewrite eval_y. clear y'. unfold seat_eval. rewrite N.
    assert (U : u32 (i_now i) = i_now i) by (unfold u32, since in *; apply Z.mod_small; lia). rewrite U.
    unfold closes, seat_open_now, seat_phase, P_WAITING, P_OPEN_UPPER, P_OPEN_LOWER. rewrite (delta_since w i _ S), U.
    destruct P as [P|[P|P]]; rewrite P; cbn [Z.eqb Pos.eqb negb andb].
    - split; [|split; [discriminate|split; [congruence|]]].
      + intros _. cbn [snd]. destruct (Z.ltb_spec (y_wait y) (i_now i - y_cycle y)).
        * split; [auto|lia].
        * split; [lia|auto].
      + cbn [snd]. destruct (_ <? _); reflexivity.
    - split; [congruence|]. destruct (a_upper a) as [|x r] eqn:X.
      + rewrite andb_false_r. cbn. split; [discriminate|]. split; [|reflexivity]. intros _ _. split; [discriminate|reflexivity].
      + rewrite andb_true_r. destruct (_ <? _); cbn [negb snd].
        * split; [discriminate|]. split; [|reflexivity]. intros _ _. split; [congruence|reflexivity].
        * cbv zeta. cbn [seat_dyn y_phase y_cycle y_wait]. split; [auto|]. split; [|reflexivity]. discriminate.
    - split; [congruence|]. destruct (a_lower a) as [|x r] eqn:X.
      + rewrite andb_false_r. cbn. split; [discriminate|]. split; [|reflexivity]. intros _ _. split; [discriminate|reflexivity].
      + rewrite andb_true_r. destruct (_ <? _); cbn [negb snd].
        * split; [discriminate|]. split; [|reflexivity]. intros _ _. split; [congruence|reflexivity].
        * cbv zeta. cbn [seat_dyn y_phase y_cycle y_wait]. split; [auto|]. split; [|reflexivity]. discriminate.
  Qed.
  Lemma wait_share i y : no_seats a = false -> 32 <= w -> 0 <= i_upper i -> 0 <= i_lower i ->
    let g := Z.of_nat (m + n) in let flip := Z.max (i_upper i) (i_lower i) in
    let base := if a_mode a then i_period i * 1000 else i_set_time i in
    0 <= base < 2 ^ 32 -> g * flip <= base ->
    let t := y_wait (step_init w a i y) in
    (g + 1) * t + g * flip <= base < (g + 1) * (t + 1) + g * flip.
  Proof.
    intros N W U1 U2 g flip base B F t. unfold t, step_init, seat_init. rewrite N. cbn [y_wait seat_dyn]. clear t. 
    change (Z.of_nat (m + n)) with g. change (Z.max (i_upper i) (i_lower i)) with flip.
    replace (if a_mode a then u32 (i_period i * 1000) else u32 (i_set_time i)) with base.
    2: { unfold base in *. destruct (a_mode a); unfold u32; symmetry; apply Z.mod_small; exact B. }
    assert (2 ^ 32 <= 2 ^ w) by (apply Z.pow_le_mono_r; lia).
    assert (0 <= g) by (unfold g; lia). assert (0 <= flip) by (unfold flip; lia).
    assert (0 <= g * flip) by (apply Z.mul_nonneg_nonneg; assumption).
    replace (flip * g) with (g * flip) by lia. clearbody g flip base.
    rewrite (Z.mod_small (base - g * flip)) by lia.
    assert (D : base - g * flip = (g + 1) * ((base - g * flip) / (g + 1)) + (base - g * flip) mod (g + 1)) by (apply Z.div_mod; lia).
    assert (M : 0 <= (base - g * flip) mod (g + 1) < g + 1) by (apply Z.mod_pos_bound; lia).
    assert (Q : 0 <= (base - g * flip) / (g + 1)) by (apply Z.div_pos; lia).
    assert (Q2 : (base - g * flip) / (g + 1) <= base - g * flip) by (apply Z.div_le_upper_bound; nia).
    unfold u32. rewrite Z.mod_small by lia. clear - D M. set (q := (base - g * flip) / (g + 1)) in *. nia.
  Qed.
End Round.
