(** Properties of simple devices: commands, names, manual mode, text. *)
From Coq Require Import ZArith List Bool Lia QArith Qround Qabs.
From Verif Require Import Base FTextModel FloatModel DevModel DevSpec DevProofs DevProofs2 DevProofs3.
Import ListNotations.
Open Scope Z_scope.

(** An analog input AI1 with parameters P_A, P_B, P_C in memory 2.5, 7, 0.125. *)
Definition PA : text := [80; 95; 65].
Definition PB : text := [80; 95; 66].
Definition PC : text := [80; 95; 67].
Definition AI1 : text := [65; 73; 49].
Definition mem3 : list Z := [1075838976; 1088421888; 1040187392].
Definition naming : list ev := [EName 1 0 PA; EName 1 1 PB; EName 0 3 PC].
Definition after (h : list ev) : option (dev * list Z) := match create 15 0 (Some AI1) mem3 with Some d => run d h | None => None end.
Definition tie0 (_ : Z) : bool := true.
Definition num (z : Z) : dbl := DFin false (inject_Z z).

(** * C150: the text *)

Theorem C150_text tie p d : plain_names d -> blank p -> - 2 ^ 31 <= state d < 2 ^ 31 ->
  exists fs l, read_device (save_device tie p d) = Some (dname d, fs) /\ cells_of d l /\
    Forall2 (fun f e => fst f = fst e /\ tells (snd f) (snd e)) fs l.
Proof. exact (text_ok tie p d). Qed.
Print Assumptions C150_text.

Definition RESULT : text := [82; 69; 83; 85; 76; 84].
Definition READY : text := [82; 69; 65; 68; 89].
Lemma camera_flat : camera_text = flat [(RESULT, [37; 100]); (READY, [37; 100])].
Proof. reflexivity. Qed.
(** What a camera adds is never a number. *)
Theorem C150_refuted_camera tie p d : plain_names d -> blank p -> - 2 ^ 31 <= state d < 2 ^ 31 ->
  exists fs t1 t2, read_device (save_device_with tie camera_text p d) = Some (dname d, fs) /\
    In (RESULT, t1) fs /\ In (READY, t2) fs /\ number t1 = None /\ number t2 = None.
Proof.
  intros [P1 P2] B S.
  set (fs := ([77], [if manual d then 49 else 48]) ::
    (if has_state d then [([83; 84], show_int (state d))] else []) ++
    (if has_value d then [([86], show_num tie (value d))] else []) ++
    [(RESULT, [37; 100]); (READY, [37; 100])] ++ par_fields tie (names d) (vals d)).
  exists fs, [37; 100], [37; 100].
  assert (In (RESULT, [37; 100]) fs /\ In (READY, [37; 100]) fs) as [I1 I2].
  { split; right; apply in_app_iff; right; apply in_app_iff; right; cbn; auto. }
  assert (save_device_with tie camera_text p d =
    firstn (length ((p ++ dname d ++ [61; 123]) ++ flat fs) - 2) ((p ++ dname d ++ [61; 123]) ++ flat fs) ++ [125; 44; 10]) as E.
  { unfold save_device_with. cbv zeta. rewrite par_flat, camera_flat.
    assert (entry [77] [if manual d then 49 else 48] ++ (if has_state d then entry [83; 84] (show_int (state d)) else []) ++
      (if has_value d then entry [86] (show_num tie (value d)) else []) ++ flat [(RESULT, [37; 100]); (READY, [37; 100])] ++
      flat (par_fields tie (names d) (vals d)) = flat fs) as ->; [|reflexivity].
    unfold fs, flat. cbn [flat_map fst snd]. rewrite !flat_map_app. f_equal. f_equal.
    - destruct (has_state d); [|reflexivity]. cbn [flat_map fst snd]. rewrite app_nil_r. reflexivity.
    - f_equal. destruct (has_value d); [|reflexivity]. cbn [flat_map fst snd]. rewrite app_nil_r. reflexivity. }
  split; [|auto]. rewrite E. apply read_flat; [exact B|exact P1|discriminate|].
  destruct (par_fields_ok tie (names d) P2 (vals d)) as [C _].
  unfold fs. constructor.
  { cbn [fst snd]. split; [repeat constructor; lia|]. destruct (manual d); repeat constructor; lia. }
  apply Forall_app. split; [|apply Forall_app; split; [|apply Forall_app; split; [|exact C]]].
  - destruct (has_state d); repeat constructor; cbn; try lia. apply clean_int. lia.
  - destruct (has_value d); repeat constructor; cbn; try lia. apply show_num_tells.
  - repeat constructor; cbn; lia.
Qed.
Print Assumptions C150_refuted_camera.
(** A value that is not a number can be given by a command and is then in the text. *)
Theorem C150_refuted_number : exists d fs t, reachable d /\ plain_names d /\
  read_device (save_device tie0 [] d) = Some (dname d, fs) /\ In ([86], t) fs /\ number t = None.
Proof.
  destruct (after [ECmd [86] DNan]) as [[d l]|] eqn:E; [|discriminate]. vm_compute in E. injection E as <- <-. eexists _, _, _.
  split. { exists 15, 0, (Some AI1), mem3. eexists _, [ECmd [86] DNan], _. split; [reflexivity|vm_compute; reflexivity]. }
  split. { split; [repeat constructor; lia|]. intros n I. cbn in I. destruct I as [I|[I|[I|[]]]]; discriminate. }
  split; [vm_compute; reflexivity|]. split; [right; right; left; reflexivity|reflexivity].
Qed.
Print Assumptions C150_refuted_number.
Example ex_C150 :
  (* tab AI1={M=0, ST=3, V=-0.50, P_A=2.50, P_B=7, P_C=0.13}, end of line *)
  match after (naming ++ [ECmd [83; 84] (num 3); ECmd [86] (DFin true (- 1 # 2))]) with
  | Some (d, _) => read_device (save_device tie0 [9] d) =
      Some (AI1, [([77], [48]); ([83; 84], [51]); ([86], [45; 48; 46; 53; 48]); (PA, [50; 46; 53; 48]); (PB, [55]); (PC, [48; 46; 49; 51])])
  | None => False
  end /\ number [45; 48; 46; 53; 48] = Some (- (inject_Z 0 + inject_Z 50 / inject_Z 100))%Q.
Proof. vm_compute. split; reflexivity. Qed.

(** * C151: parameters by name *)

Theorem C151_command d k v : reachable d ->
  (forall i, first_named (names d) (80 :: k) i -> ~ gap (names d) (80 :: k) ->
     exists d', step d (ECmd (80 :: k) v) = Some (d', 0) /\
       nth_error (vals d') i = Some (as_float v) /\ nth_error (kept d') i = Some (as_float v) /\
       (forall j, j <> i -> nth_error (vals d') j = nth_error (vals d) j /\ nth_error (kept d') j = nth_error (kept d) j) /\
       names d' = names d /\ state d' = state d /\ value d' = value d /\ manual d' = manual d) /\
  ((forall i, nth_error (names d) i <> Some (Some (80 :: k))) -> ~ gap (names d) (80 :: k) -> step d (ECmd (80 :: k) v) = Some (d, 1)) /\
  (gap (names d) (80 :: k) <-> step d (ECmd (80 :: k) v) = None).
Proof.
  intros R. destruct (reachable_sizes d R) as (n & A & B & C). split; [|split].
  - intros i F G. pose proof (settled_find _ _ _ (settled_gap _ _ _ F G) 0) as E. cbn [Nat.add] in E.
    assert (i < n)%nat as L. { rewrite <- A. apply nth_error_Some. destruct F as [F _]. congruence. }
    cbn [step set_cmd]. unfold set_par_by_name. rewrite E, as_float_eq. eexists. split; [reflexivity|]. cbn [vals kept names state value manual with_vals].
    split; [apply put_same; lia|]. split; [apply put_same; lia|]. split; [|auto]. intros j J. split; apply put_other; auto.
  - intros N G. cbn [step set_cmd]. unfold set_par_by_name. destruct (find_par (names d) (80 :: k) 0) as [[i|]|] eqn:E.
    + exfalso. destruct (find_some _ _ _ _ E) as (j & _ & F & _). exact (N j F).
    + reflexivity.
    + exfalso. apply find_gap in E. exact (G E).
  - rewrite step_bad. reflexivity.
Qed.
Print Assumptions C151_command.

Theorem C151_history d n i h d' l : reachable d -> hd 0 n = 80 -> first_named (names d) n i -> ~ gap (names d) n -> run d h = Some (d', l) ->
  (nth i (vals d') 0, nth i (kept d') 0) = fold_left (track i n) h (nth i (vals d) 0, nth i (kept d) 0).
Proof.
  intros R P F G H. destruct (reachable_sizes d R) as (k & S). exact (run_track h _ _ _ _ _ _ S H (settled_gap _ _ _ F G) P).
Qed.
Print Assumptions C151_history.

(** The program reads this value. *)
Theorem C151_read d n i h d' l idx off : reachable d -> hd 0 n = 80 -> first_named (names d) n i -> ~ gap (names d) n -> run d h = Some (d', l) ->
  (off + idx) mod 2 ^ 32 = Z.of_nat i + 1 ->
  get_par d' idx off = fst (fold_left (track i n) h (nth i (vals d) 0, nth i (kept d) 0)).
Proof.
  intros R P F G H E. rewrite <- (C151_history d n i h d' l R P F G H). cbn [fst].
  destruct (reachable_sizes d R) as (k & S). pose proof (run_sizes h _ _ _ _ S H) as S'.
  assert (i < k)%nat as I.
  { destruct F as [F _]. destruct S as (S & _). rewrite <- S. apply nth_error_Some. rewrite F. discriminate. }
  assert (count d' = Z.of_nat k) as C by (unfold count; destruct S' as (S1 & S2 & _); first [rewrite S1; reflexivity|rewrite S2; reflexivity]).
  unfold get_par. cbv zeta. rewrite C. unfold u32. rewrite E.
  destruct (Z.eqb_spec (Z.of_nat k) 0); [lia|]. assert ((Z.of_nat i + 1 <=? Z.of_nat k) && (0 <? Z.of_nat i + 1) = true) as -> by lia.
  f_equal. lia.
Qed.
Print Assumptions C151_read.

(** A parameter without a name before the one that is meant: undefined. *)
Theorem C151_refuted_unnamed : exists d, reachable d /\ nth_error (names d) 1 = Some (Some PB) /\ forall v, step d (ECmd PB v) = None.
Proof.
  destruct (after [EName 2 0 PB]) as [[d l]|] eqn:E; [|discriminate]. vm_compute in E. injection E as <- <-. eexists.
  split. { exists 15, 0, (Some AI1), mem3. eexists _, [EName 2 0 PB], _. split; [reflexivity|vm_compute; reflexivity]. }
  split; [reflexivity|]. intros v. reflexivity.
Qed.
Print Assumptions C151_refuted_unnamed.
Example ex_C151 :
  match after (naming ++ [ECmd PB (num 9); EPar 1 0 1077936128; ERestart; ECmd [80; 90] (num 1); EPar 3 0 0]) with
  | Some (d, l) => vals d = [1075838976; 1091567616; 0] /\ kept d = [1075838976; 1091567616; 1040187392] /\ l = [0; 0; 0; 0; 0; 0; 1; 0]
  | None => False
  end.
Proof. vm_compute. auto. Qed.

(** * C152: names *)

Theorem C152_names ty sub nm mem d0 h d l i : create ty sub nm mem = Some d0 -> run d0 h = Some (d, l) -> (i < length mem)%nat ->
  nth_error (names d) i = Some (first_name i h).
Proof.
  intros C R L. pose proof (create_sizes _ _ _ _ _ C) as S. pose proof (run_sizes _ _ _ _ _ S R) as (A & _).
  rewrite (nth_err _ _ _ A L), (run_names _ _ _ _ _ _ S L R).
  assert (nth i (names d0) None = None) as ->; [|reflexivity].
  unfold create in C. destruct (_ <? _); [|discriminate]. injection C as <-. cbn [names].
  assert (forall (q : list Z) j, nth j (map (fun _ => @None text) q) None = None) as X.
  { induction q as [|x q IH]; intros [|j]; cbn; auto. }
  apply X.
Qed.
Print Assumptions C152_names.
Example ex_C152 :
  (* the first name stays; too long names and indices out of range are ignored *)
  match after [EName 1 0 (repeat 80 26); EName 1 0 PB; EName 0 1 PA; EName 4 0 PC; EName (2 ^ 32 - 1) 4 PC; EName 0 0 PC] with
  | Some (d, _) => names d = [Some PB; None; Some PC]
  | None => False
  end /\ create 15 0 (Some (repeat 65 20)) [] = None.
Proof. vm_compute. auto. Qed.

(** * C153: manual mode *)

Theorem C153_manual ty sub nm mem d0 h d l : create ty sub nm mem = Some d0 -> run d0 h = Some (d, l) ->
  manual d = manual_after h /\ last_effect new_state h (state d) /\ last_effect new_value h (value d).
Proof. intros C R. exact (run_state _ _ _ _ _ C h d l R). Qed.
Print Assumptions C153_manual.
Theorem C153_defined d h : run d h = None <-> exists a e b d1 l, h = a ++ e :: b /\ run d a = Some (d1, l) /\ bad d1 e.
Proof. exact (run_bad h d). Qed.
Print Assumptions C153_defined.
(** In manual mode no order of the program changes anything. *)
Theorem C153_locked d h d' l : manual d = true -> Forall (fun e => exists o, e = EOrder o) h -> run d h = Some (d', l) -> d' = d.
Proof.
  intros M F. revert d' l. induction F as [|e h [o ->] F IH]; intros d' l R; cbn [run step] in R.
  - injection R as <- <-. reflexivity.
  - unfold obey in R. rewrite M in R. destruct (run d h) as [[d2 l2]|] eqn:E; [|discriminate]. injection R as <- <-. exact (IH _ _ eq_refl).
Qed.
Print Assumptions C153_locked.
(** The answer: 1 exactly for an unknown first letter or an unknown parameter. *)
Theorem C153_answer d p v d' a : step d (ECmd p v) = Some (d', a) ->
  (a = 0 \/ a = 1) /\
  (a = 1 <-> ~ In (hd 0 p) [83; 86; 77; 80] \/ hd 0 p = 80 /\ forall i, nth_error (names d) i <> Some (Some p)).
Proof.
  intros H. cbn [step] in H. destruct p as [|c p].
  { cbn in H. injection H as <- <-. split; [auto|]. split; [|auto]. intros _. left. cbn. lia. }
  cbn [hd]. destruct (Z.eq_dec c 80) as [->|N80].
  { cbn in H. apply set_par_by_name_cases in H. destruct H as [(_ & -> & N)|(i & [F _] & -> & _)].
    - split; [auto|]. split; [auto|reflexivity].
    - split; [auto|]. split; [discriminate|]. intros [X|[_ X]]; [exfalso; apply X; cbn; auto|]. exfalso. exact (X i F). }
  destruct (Z.eq_dec c 83) as [->|N83].
  { cbn in H. destruct (to_int v); [|discriminate]. injection H as <- <-. split; [auto|]. split; [discriminate|]. intros [X|[X _]]; [exfalso; apply X; cbn; auto|discriminate]. }
  destruct (Z.eq_dec c 86) as [->|N86].
  { cbn in H. injection H as <- <-. split; [auto|]. split; [discriminate|]. intros [X|[X _]]; [exfalso; apply X; cbn; auto|discriminate]. }
  destruct (Z.eq_dec c 77) as [->|N77].
  { cbn in H. injection H as <- <-. split; [auto|]. split; [discriminate|]. intros [X|[X _]]; [exfalso; apply X; cbn; auto|discriminate]. }
  assert (a = 1) as ->.
  { unfold set_cmd in H. repeat match type of H with
      | match ?x with _ => _ end = _ => destruct x
      end; try discriminate; try congruence; injection H; auto. }
  split; [auto|]. split; [|auto]. intros _. left. cbn. lia.
Qed.
Print Assumptions C153_answer.
(** The state of a command has to fit: 2^31 is undefined. *)
Theorem C153_refuted_state : exists d, reachable d /\ step d (ECmd [83; 84] (num (2 ^ 31))) = None.
Proof.
  destruct (after []) as [[d l]|] eqn:E; [|discriminate]. vm_compute in E. injection E as <- <-. eexists.
  split. { exists 15, 0, (Some AI1), mem3. eexists _, [], _. split; [reflexivity|vm_compute; reflexivity]. }
  vm_compute. reflexivity.
Qed.
Print Assumptions C153_refuted_state.
(** Only the first letter of a command counts: an unknown name can change the state. *)
Theorem C153_refuted_letter : exists d d' p, reachable d /\ p <> [83] /\ p <> [83; 84] /\ state d = 0 /\ step d (ECmd p (num 1)) = Some (d', 0) /\ state d' = 1.
Proof.
  destruct (after []) as [[d l]|] eqn:E; [|discriminate]. vm_compute in E. injection E as <- <-. eexists _, _, [83; 80; 69; 69; 68].
  split. { exists 15, 0, (Some AI1), mem3. eexists _, [], _. split; [reflexivity|vm_compute; reflexivity]. }
  split; [discriminate|]. split; [discriminate|]. split; [reflexivity|]. split; [vm_compute; reflexivity|reflexivity].
Qed.
Print Assumptions C153_refuted_letter.
Example ex_C153 :
  (* on; manual; off has no effect; state 5 by command; value 2 is refused; 0.5 leaves manual mode; automatic; value 2 *)
  match after [EOrder OOn; ECmd [77] (num 1); EOrder OOff; ECmd [83] (num 5); EOrder (OSetValue 1073741824); ECmd [77] (DFin false (1 # 2))],
        after [ECmd [77] (num 1); ECmd [83] (DFin true (- 29 # 10)); ECmd [77] (num 0); EOrder (OSetValue 1073741824); EOrder OOn] with
  | Some (d1, l1), Some (d2, l2) => state d1 = 5 /\ value d1 = 0 /\ manual d1 = true /\ state d2 = 1 /\ value d2 = 1073741824 /\ manual d2 = false
  | _, _ => False
  end.
Proof. vm_compute. repeat split. Qed.

(** * C154: a text sent back *)

Theorem C154_restore tie p d1 d2 n fs h : reachable d1 -> reachable d2 ->
  names d2 = names d1 -> command_names (names d1) -> plain_names d1 -> blank p -> - 2 ^ 31 <= state d1 < 2 ^ 31 ->
  read_device (save_device tie p d1) = Some (n, fs) -> replay fs h ->
  exists d l, run d2 h = Some (d, l) /\ Forall (fun a => a = 0) l /\
    forall i, (i < length (vals d1))%nat ->
      f_finite (nth i (vals d1) 0) = true /\ near (nth i (vals d1) 0) (nth i (vals d) 0) /\ nth i (kept d) 0 = nth i (vals d) 0.
Proof.
  intros R1 R2 E C P B S RD RP. destruct (reachable_sizes _ R1) as (k1 & S1). destruct (reachable_sizes _ R2) as (k2 & S2).
  pose proof S1 as (A1 & B1 & _). pose proof S2 as (A2 & _). assert (k2 = k1) as -> by (rewrite <- A1, <- A2, E; reflexivity).
  rewrite B1. exact (replay_ok tie p d1 d2 k1 n fs h S1 S2 E C P B S RD RP).
Qed.
Print Assumptions C154_restore.

(** Two parameters with the same name: the second one cannot be reached. *)
Theorem C154_refuted_same_name : exists d1 d2 fs h d l, reachable d1 /\ reachable d2 /\ names d2 = names d1 /\
  Forall (fun o => exists k, o = Some (80 :: k)) (names d1) /\ plain_names d1 /\
  read_device (save_device tie0 [] d1) = Some (AI1, fs) /\ replay fs h /\ run d2 h = Some (d, l) /\
  nth 1 (vals d1) 0 = 1088421888 /\ nth 1 (vals d) 0 = 0.
Proof.
  set (nm := [EName 1 0 PA; EName 2 0 PA; EName 3 0 PC]).
  destruct (after nm) as [[d1 l1]|] eqn:E1; [|discriminate].
  destruct (after (nm ++ [EPar 2 0 0])) as [[d2 l2]|] eqn:E2; [|discriminate].
  assert (reachable d1) as RA. { exists 15, 0, (Some AI1), mem3. eexists _, nm, l1. split; [reflexivity|]. exact E1. }
  assert (reachable d2) as RB. { exists 15, 0, (Some AI1), mem3. eexists _, (nm ++ [EPar 2 0 0]), l2. split; [reflexivity|]. exact E2. }
  exists d1, d2. vm_compute in E1. injection E1 as <- <-. vm_compute in E2. injection E2 as <- <-.
  eexists [([77], [48]); ([83; 84], [48]); ([86], [48]); (PA, [50; 46; 53; 48]); (PA, [55]); (PC, [48; 46; 49; 51])].
  exists [ECmd PA (DFin false (5 # 2)); ECmd PA (num 7); ECmd PC (DFin false (13 # 100))]. eexists _, _.
  split; [exact RA|]. split; [exact RB|]. split; [reflexivity|].
  split. { repeat constructor; eexists; reflexivity. }
  split. { split; [repeat constructor; lia|]. intros n I. cbn in I. destruct I as [I|[I|[I|[]]]]; injection I as <-; repeat constructor; lia. }
  split; [vm_compute; reflexivity|].
  split.
  { apply R2; [cbn; lia|]. apply R2; [cbn; lia|]. apply R2; [cbn; lia|].
    assert (forall t q x s, number t = Some q -> (q == x)%Q -> parsed t (DFin s x)) as PP.
    { intros t q x s N E. exists s, q, x. split; [exact N|]. split; [reflexivity|]. split; [|intros; symmetry; exact E].
      rewrite E. setoid_replace (x - x)%Q with 0%Q by ring. change (Qabs 0) with 0%Q. apply Qmult_le_0_compat; [apply Qabs_nonneg|discriminate]. }
    apply R1; [apply (PP _ (inject_Z 2 + inject_Z 50 / inject_Z 100)%Q); reflexivity|].
    apply R1; [apply (PP _ (inject_Z 7)); reflexivity|].
    apply R1; [apply (PP _ (inject_Z 0 + inject_Z 13 / inject_Z 100)%Q); reflexivity|]. apply R0. }
  split; [vm_compute; reflexivity|]. split; reflexivity.
Qed.
Print Assumptions C154_refuted_same_name.
Example ex_C154 :
  (* 2.5, 7, 0.125 sent as 2.50, 7, 0.13 *)
  match after naming, after (naming ++ [ECmd PA (num 100); ECmd PB (num 100); ECmd PC (num 100)]) with
  | Some (d1, _), Some (d2, _) =>
      command_names (names d1) /\ names d2 = names d1 /\
      match run d2 [ECmd PA (DFin false (250 # 100)); ECmd PB (num 7); ECmd PC (DFin false (13 # 100))] with
      | Some (d, l) => l = [0; 0; 0] /\ vals d = [1075838976; 1088421888; 1040522936] /\ kept d = vals d
      | None => False
      end
  | _, _ => False
  end.
Proof.
  vm_compute. split; [|auto]. split; [repeat constructor; eexists; reflexivity|].
  repeat constructor; cbn; intros X; repeat destruct X as [X|X]; try discriminate; contradiction.
Qed.
