(** Properties of cameras. *)
From Coq Require Import ZArith List Bool Lia QArith Qround Lqa.
From Verif Require Import Base TimeModel FTextModel FloatModel FloatProofs AioProofs DevModel DevSpec DevProofs CamModel CamSpec.
Import ListNotations.
Open Scope Z_scope.

Local Lemma c_run_snoc w h : forall c e c', c_run w c (h ++ [e]) = Some c' -> exists c1, c_run w c h = Some c1 /\ c_step w c1 e = Some c'.
Proof.
  induction h as [|x h IH]; intros c e c' H; cbn [app c_run] in *.
  - destruct (c_step w c e) as [c1|] eqn:E; [|discriminate]. injection H as <-. exists c. auto.
  - destruct (c_step w c x) as [c1|]; [|discriminate]. apply IH. exact H.
Qed.
Local Lemma is_same a b : same a b = is a b.
Proof.
  unfold is. destruct (list_eq_dec Z.eq_dec a b) as [E|N]; [apply same_eq; exact E|].
  destruct (same a b) eqn:S; [|reflexivity]. apply same_eq in S. contradiction.
Qed.
Local Lemma is_sym a b : is a b = is b a.
Proof. unfold is. destruct (list_eq_dec Z.eq_dec a b), (list_eq_dec Z.eq_dec b a); congruence. Qed.
Local Lemma above_eq v : above_zero v = match v with DFin _ q => 0 <? Qnum q | DInf s => negb s | DNan => false end.
Proof.
  destruct v as [s [n d]|s|]; try reflexivity. unfold above_zero, Qle_bool. cbn. rewrite Z.mul_1_r.
  destruct (Z.leb_spec n 0), (Z.ltb_spec 0 n); try reflexivity; lia.
Qed.

(** What a command does to each part. *)
Local Lemma cmd_all c p v c' : c_cmd c p v = Some c' ->
  c_start c' = c_start c /\ c_state c' = c_state c /\ c_result2 c' = c_result2 c /\
  c_time c' = (if is p word_time then as_float v else c_time c) /\
  c_ready c' = (if is p word_ready then match v with DFin _ q => 0 <? Qnum q | DInf s => negb s | DNan => false end else c_ready c) /\
  c_manual c' = match p, v with
                | 77 :: _, DFin _ q => if Qeq_bool q 0 then false else if Qeq_bool q 1 then true else c_manual c
                | _, _ => c_manual c
                end /\
  c_out c' = match p with 83 :: _ => match whole_part v with Some n => if n =? 0 then 0 else 1 | None => c_out c end | _ => c_out c end.
Proof.
  intros H. unfold c_cmd in H. rewrite !is_same in H. rewrite (is_sym TIME_name p) in H. change TIME_name with word_time in H.
  change READY_name with word_ready in H.
  destruct (is p RESULT_name) eqn:E1.
  { assert (p = RESULT_name) as -> by (unfold is in E1; destruct (list_eq_dec Z.eq_dec p RESULT_name); [assumption|discriminate]).
    destruct (to_int v); [|discriminate]. injection H as <-. repeat split. }
  destruct (is p word_ready) eqn:E2.
  { assert (p = word_ready) as -> by (unfold is in E2; destruct (list_eq_dec Z.eq_dec p word_ready); [assumption|discriminate]).
    injection H as <-. rewrite above_eq. repeat split. }
  assert (hd 0 p <> 80 -> is p word_time = false) as NT.
  { intros N. unfold is. destruct (list_eq_dec Z.eq_dec p word_time) as [->|]; [exfalso; apply N; reflexivity|reflexivity]. }
  destruct p as [|x p]. { injection H as <-. repeat split. }
  destruct (Z.eq_dec x 83) as [->|N1].
  { rewrite NT by discriminate. rewrite <- to_int_eq. cbn in H. destruct (to_int v) as [n|]; [|discriminate]. injection H as <-.
    unfold c_direct_state. destruct (n =? 0); repeat split. }
  destruct (Z.eq_dec x 86) as [->|N2]. { rewrite NT by discriminate. cbn in H. injection H as <-. repeat split. }
  destruct (Z.eq_dec x 77) as [->|N3].
  { rewrite NT by discriminate. cbn in H. injection H as <-. destruct v as [s q|s|]; repeat split. }
  destruct (Z.eq_dec x 80) as [->|N4].
  { cbv beta iota in H. destruct (is (80 :: p) word_time); injection H as <-; cbn; rewrite ?as_float_eq; repeat split. }
  rewrite NT by (cbn; exact N4).
  assert (c' = c) as ->.
  { repeat match type of H with
      | match ?y with _ => _ end = _ => destruct y; try congruence
      end. }
  repeat split; repeat match goal with |- _ = match ?y with _ => _ end => destruct y; try congruence end.
Qed.

Local Lemma fold_lit (b : bool) (x : Z) : x = (if b then 1 else 0) -> (if x =? 0 then 0 else 1) = if b then 1 else 0.
Proof. intros ->. destruct b; reflexivity. Qed.
Local Lemma delay b d : fine_time b -> 0 <= d < 2 ^ 64 -> f_lt (f_of_Z d) b = negb (Qle_bool (f_val b) (inject_Z d)).
Proof.
  intros [F B] D. destruct (Z.ltb_spec d (2 ^ 24)) as [S|S].
  - assert (f_finite (f_of_Z d) = true) as FD by (apply fz; lia). assert (f_val (f_of_Z d) == inject_Z d)%Q as VD by (apply vz; lia).
    unfold f_lt. destruct (finite_not _ F) as [-> _]. destruct (finite_not _ FD) as [-> _]. cbn [negb andb].
    destruct (Z.ltb_spec (key (f_of_Z d)) (key b)) as [L|L].
    + apply (val_lt _ _ FD F) in L. destruct (Qle_bool (f_val b) (inject_Z d)) eqn:E; [|reflexivity]. apply Qle_bool_iff in E. exfalso. lra.
    + apply (val_le _ _ F FD) in L. assert (Qle_bool (f_val b) (inject_Z d) = true) as ->; [|reflexivity]. apply Qle_bool_iff. lra.
  - set (lo := 1266679808). set (hi := 1602224128). (* 2^24, 2^64 *)
    assert (f_finite lo = true) as FL by reflexivity. assert (f_finite hi = true) as FH by reflexivity.
    assert (f_val lo == 16777216)%Q as VL by reflexivity. assert (f_val hi == 18446744073709551616)%Q as VH by reflexivity.
    assert (16777216 <= inject_Z d)%Q as D1 by (change 16777216%Q with (inject_Z (2 ^ 24)); rewrite <- Zle_Qle; exact S).
    assert (inject_Z d <= 18446744073709551616)%Q as D2 by (change 18446744073709551616%Q with (inject_Z (2 ^ 64)); rewrite <- Zle_Qle; lia).
    destruct (round_between false lo hi (inject_Z d) FL FH) as [FD [V1 _]]. { rewrite VL, VH. auto. }
    fold (f_of_Z d) in FD, V1. assert (Qle_bool (f_val b) (inject_Z d) = true) as -> by (apply Qle_bool_iff; lra).
    cbn [negb]. unfold f_lt. destruct (finite_not _ F) as [-> _]. destruct (finite_not _ FD) as [-> _]. cbn [negb andb].
    apply Z.ltb_ge. apply (val_le _ _ F FD). rewrite VL in V1. lra.
Qed.

(** The parts that need no clock. *)
Definition parts (t0 b0 : Z) (h : list cev) (c : cam) : Prop :=
  c_manual c = by_hand (rev h) /\ c_time c = tolerance b0 (rev h) /\ c_ready c = told_ready (rev h) /\ c_result2 c = second (rev h) /\ c_state c = 0.
Local Lemma parts_run w t0 b0 h : forall c, c_run w (c_new (clock w t0) b0) h = Some c -> parts t0 b0 h c.
Proof.
  induction h as [|e h IH] using rev_ind; intros c R.
  - cbn in R. injection R as <-. repeat split.
  - apply c_run_snoc in R. destruct R as (c1 & R & S). destruct (IH _ R) as (M & T & Y & W & Z). unfold parts. rewrite rev_app_distr. cbn [rev app].
    destruct e as [t i r2|o|p v|n r1]; cbn [c_step] in S.
    + injection S as <-. unfold c_evaluate. cbv zeta. unfold c_direct_state, c_direct_off, c_direct_on.
      repeat match goal with |- context [if ?x then _ else _] => destruct x eqn:? end; cbn; rewrite ?M, ?T, ?Y, ?W, ?Z; repeat split; congruence.
    + injection S as <-. unfold c_obey. destruct (c_manual c1) eqn:MM; [cbn; repeat split; congruence|].
      destruct o as [| | |k|k]; unfold c_direct_state, c_direct_off, c_direct_on; try (destruct (k =? 0)); cbn; rewrite ?MM; repeat split; congruence.
    + apply cmd_all in S. destruct S as (_ & -> & -> & -> & -> & -> & _). rewrite M, T, Y, W, Z.
      split. { cbn [by_hand]. repeat match goal with |- _ = match ?y with _ => _ end => destruct y; try reflexivity end. }
      cbn. repeat split; auto.
    + injection S as <-. unfold c_get_result. destruct (n =? 1), (n =? 2); cbn; repeat split; auto.
Qed.

(** * C157: the output *)

Local Lemma ordered_snoc top h e : forall t0, ordered t0 top (h ++ [e]) -> ordered t0 top h /\
  match e with CEval t _ _ => t0 <= t < top /\ last_ready t0 (rev h) <= t | _ => True end.
Proof.
  assert (forall rh a b, a <= b -> last_ready a rh <= last_ready b rh) as MONO.
  { induction rh as [|x rh IH]; intros a b L; cbn [last_ready]; [exact L|]. destruct x as [t i r|o|p v|n r]; auto.
    repeat match goal with |- match ?y with _ => _ end <= _ => destruct y; auto end; lia. }
  assert (forall rh a t i r, a <= t -> last_ready a (rh ++ [CEval t i r]) <= last_ready t rh) as ADD.
  { induction rh as [|x rh IH]; intros a t i r L; cbn [app last_ready].
    - repeat match goal with |- match ?y with _ => _ end <= _ => destruct y; auto end; lia.
    - destruct x as [t1 i1 r1|o|p v|n r1]; auto.
      repeat match goal with |- match ?y with _ => _ end <= _ => destruct y; auto end; lia. }
  assert (forall rh a x, match x with CEval _ _ _ => False | _ => True end -> last_ready a (rh ++ [x]) = last_ready a rh) as SKIP.
  { induction rh as [|y rh IH]; intros a x X; cbn [app last_ready]; [destruct x; tauto|]. destruct y as [t1 i1 r1|o|p v|n r1]; auto.
    rewrite (IH a x X). reflexivity. }
  induction h as [|x h IH]; intros t0 H.
  - cbn [app] in *. destruct e as [t i r|o|p v|n r]; cbn [ordered rev last_ready] in *; try (split; [exact H|exact I]). destruct H as [H1 H2]. split; [lia|lia].
  - cbn [app] in H. destruct x as [t1 i1 r1|o|p v|n r1]; cbn [ordered] in *.
    + destruct H as [H1 H2]. apply IH in H2. destruct H2 as [A B]. split; [auto|]. destruct e as [t i r|o|p v|n r]; auto. destruct B as [B1 B2].
      split; [lia|]. cbn [rev]. pose proof (ADD (rev h) t0 t1 i1 r1 ltac:(lia)). lia.
    + apply IH in H. destruct H as [A B]. split; [exact A|]. cbn [rev]. rewrite SKIP by exact I. exact B.
    + apply IH in H. destruct H as [A B]. split; [exact A|]. cbn [rev]. rewrite SKIP by exact I. exact B.
    + apply IH in H. destruct H as [A B]. split; [exact A|]. cbn [rev]. rewrite SKIP by exact I. exact B.
Qed.
Local Lemma last_ready_low rh : forall t0 h, rev rh = h -> forall top, ordered t0 top h -> t0 <= last_ready t0 rh < top.
Proof.
  induction rh as [|e rh IH]; intros t0 h E top O; cbn [rev] in E; subst h.
  - cbn in O. cbn. lia.
  - apply ordered_snoc in O. destruct O as [O1 O2]. specialize (IH t0 _ eq_refl top O1). cbn [last_ready].
    destruct e as [t i r|o|p v|n r]; try exact IH.
    repeat match goal with |- _ <= match ?y with _ => _ end < _ => destruct y; auto end; lia.
Qed.
Local Lemma fine_tolerance b0 rh : fine_time b0 -> Forall fine_cmd rh -> fine_time (tolerance b0 rh).
Proof.
  intros B F. induction F as [|e rh A F IH]; cbn [tolerance]; [exact B|]. destruct e as [t i r|o|p v|n r]; auto.
  cbn [fine_cmd] in A. destruct (is p word_time); auto.
Qed.
Local Lemma last_ready_eval t0 t i r rh : last_ready t0 (CEval t i r :: rh) = if i =? 1 then t else last_ready t0 rh.
Proof. cbn [last_ready]. destruct (Z.eqb_spec i 1) as [->|N]; [reflexivity|]. repeat match goal with |- match ?y with _ => _ end = _ => destruct y; auto end; congruence. Qed.

Theorem C157_output w t0 b0 h c : 32 <= w <= 64 -> 0 <= t0 -> ordered t0 (2 ^ 32) h -> fine_time b0 -> Forall fine_cmd h ->
  c_run w (c_new (clock w t0) b0) h = Some c -> c_out c = if lit t0 b0 (rev h) then 1 else 0.
Proof.
  intros W T0 O B F R.
  assert (2 ^ 32 <= 2 ^ w) as PW by (apply Z.pow_le_mono_r; lia). assert (2 ^ w <= 2 ^ 64) as PW2 by (apply Z.pow_le_mono_r; lia).
  assert (c_start c = last_ready t0 (rev h) /\ c_out c = if lit t0 b0 (rev h) then 1 else 0) as [_ X]; [|exact X].
  revert c R. induction h as [|e h IH] using rev_ind; intros c R.
  - cbn in R. injection R as <-. cbn. split; [|reflexivity]. cbn in O. unfold clock, u32. rewrite (Z.mod_small t0 (2 ^ w)) by lia. apply Z.mod_small. lia.
  - pose proof (ordered_snoc _ _ _ _ O) as [O1 O2]. apply Forall_app in F. destruct F as [F F1].
    apply c_run_snoc in R. destruct R as (c1 & R & S). destruct (IH O1 F _ R) as (P1 & P2). pose proof (parts_run _ _ _ _ _ R) as (M & T & _).
    rewrite rev_app_distr. cbn [rev app]. destruct e as [t i r2|o|p v|n r1]; cbn [c_step] in S.
    + injection S as <-. destruct O2 as [O2 O3]. rewrite last_ready_eval. cbn [lit]. unfold clock. rewrite (Z.mod_small t (2 ^ w)) by lia.
      unfold c_evaluate. cbv zeta. cbn [c_start c_out]. pose proof (last_ready_low (rev h) t0 h (rev_involutive h) _ O1) as LR.
      destruct (i =? 1).
      * unfold c_direct_state, c_direct_off, c_direct_on. rewrite P2. destruct (lit t0 b0 (rev h)); cbn; (split; [apply Z.mod_small; lia|reflexivity]).
      * assert (get_delta_millisec w t (c_start c1) = t - last_ready t0 (rev h)) as ->.
        { rewrite P1. unfold get_delta_millisec. cbv zeta. destruct (Z.ltb_spec t (last_ready t0 (rev h))); [lia|].
          destruct (Z.leb_spec (last_ready t0 (rev h)) t); lia. }
        rewrite T, delay; [|apply fine_tolerance; [exact B|apply Forall_rev; exact F]|lia].
        destruct (Qle_bool _ _); cbn [negb].
        -- cbn. auto.
        -- unfold c_direct_state. rewrite P2. destruct (lit t0 b0 (rev h)); cbn; auto.
    + injection S as <-. cbn [last_ready lit]. rewrite <- M. unfold c_obey. destruct (c_manual c1) eqn:MM; [cbn; repeat split; congruence|].
      destruct o as [| | |k|k]; unfold c_direct_state, c_direct_off, c_direct_on; try (destruct (k =? 0)); cbn; rewrite ?MM; repeat split; congruence.
    + apply cmd_all in S. destruct S as (-> & _ & _ & _ & _ & _ & ->). split; [exact P1|]. cbn [lit]. rewrite P2.
      destruct p as [|x p]; [reflexivity|]. destruct (Z.eq_dec x 83) as [->|N].
      { destruct (whole_part v) as [n|]; [|reflexivity]. destruct (n =? 0); reflexivity. }
      destruct (lit t0 b0 (rev h)); repeat match goal with |- match ?y with _ => _ end = _ => destruct y; try reflexivity; try congruence end.
    + injection S as <-. cbn [last_ready lit]. unfold c_get_result. destruct (n =? 1), (n =? 2); cbn; repeat split; auto.
Qed.
Print Assumptions C157_output.

(** An evaluation switches a camera on that was switched off. *)
Theorem C157_refuted_off : exists h c, c_run 64 (c_new 1000 1148846080) h = Some c /\ c_out c = 1 /\
  h = [CEval 1000 1 0; COrder OOff; CEval 1500 0 0; CEval 2000 0 0].
Proof. eexists _, _. split; [|split; [|reflexivity]]; [vm_compute; reflexivity|reflexivity]. Qed.
Print Assumptions C157_refuted_off.
(** The reported state is always 0. *)
Theorem C157_state w t0 b0 h c : c_run w (c_new (clock w t0) b0) h = Some c -> c_state c = 0.
Proof. intros R. apply (parts_run _ _ _ _ _ R). Qed.
Print Assumptions C157_state.
(** With a clock of 64 bits that runs for more than 2^32 ms nothing is tolerated. *)
Theorem C157_refuted_uptime t b : 2 ^ 32 <= t < 2 ^ 63 -> fine_time b ->
  exists c, c_run 64 (c_new (clock 64 t) b) [CEval t 1 0; CEval (t + 1) 0 0] = Some c /\ c_out c = 1.
Proof.
  intros T B. cbn [c_run c_step]. eexists. split; [reflexivity|].
  assert (clock 64 t = t) as -> by (apply Z.mod_small; lia). assert (clock 64 (t + 1) = t + 1) as -> by (apply Z.mod_small; lia).
  set (c1 := c_evaluate 64 (c_new t b) t 1 0). assert (c_start c1 = t mod 2 ^ 32) as S by reflexivity. assert (c_time c1 = b) as TT by reflexivity.
  clearbody c1. unfold c_evaluate. cbv zeta. change (0 =? 1) with false. cbv iota. rewrite S, TT.
  pose proof (Z.mod_pos_bound t (2 ^ 32) ltac:(lia)). pose proof (Z.div_mod t (2 ^ 32) ltac:(lia)).
  assert (1 <= t / 2 ^ 32) by (apply Z.div_le_lower_bound; lia).
  assert (get_delta_millisec 64 (t + 1) (t mod 2 ^ 32) = t + 1 - t mod 2 ^ 32) as ->.
  { unfold get_delta_millisec. cbv zeta. destruct (Z.ltb_spec (t + 1) (t mod 2 ^ 32)); [lia|]. destruct (Z.leb_spec (t mod 2 ^ 32) (t + 1)); lia. }
  assert (2 ^ 32 < t + 1 - t mod 2 ^ 32) as D by lia.
  rewrite delay by (exact B || lia).
  assert (Qle_bool (f_val b) (inject_Z (t + 1 - t mod 2 ^ 32)) = true) as ->.
  { apply Qle_bool_iff. destruct B as [_ B]. assert (inject_Z (2 ^ 32) <= inject_Z (t + 1 - t mod 2 ^ 32))%Q as L by (rewrite <- Zle_Qle; lia).
    eapply Qle_trans; [exact B|]. eapply Qle_trans; [|exact L]. vm_compute. discriminate. }
  reflexivity.
Qed.
Print Assumptions C157_refuted_uptime.
Example ex_C157 :
  (* tolerance 1000 ms; off; not ready for 999 ms, then 1000 ms; manual mode does not help *)
  let h := [CEval 100 1 0; COrder OOn; COrder OOff; CEval 1099 0 0] in
  match c_run 32 (c_new 0 1148846080) h, c_run 32 (c_new 0 1148846080) (h ++ [CCmd [77] (DFin false 1); CEval 1100 0 0]) with
  | Some a, Some b => c_out a = 0 /\ c_out b = 1
  | _, _ => False
  end /\ fine_time 1148846080 /\ lit 0 1148846080 (rev (h ++ [CEval 1100 0 0])) = true.
Proof. vm_compute. repeat split; discriminate. Qed.

(** * C158: readiness and results *)

Theorem C158_ready w t0 b0 h c : c_run w (c_new (clock w t0) b0) h = Some c ->
  c_ready c = told_ready (rev h) /\
  (forall r1, snd (c_get_result c 1 r1) = r1) /\ (forall r1, snd (c_get_result c 2 r1) = second (rev h)) /\
  (forall n r1, n <> 1 -> n <> 2 -> snd (c_get_result c n r1) = 0).
Proof.
  intros R. destruct (parts_run _ _ _ _ _ R) as (_ & _ & Y & W & _). split; [exact Y|]. split; [reflexivity|].
  split; [intros r1; exact W|]. intros n r1 N1 N2. unfold c_get_result.
  destruct (Z.eqb_spec n 1); [contradiction|]. destruct (Z.eqb_spec n 2); [contradiction|]. reflexivity.
Qed.
Print Assumptions C158_ready.
(** A result given by a command is not seen. *)
Theorem C158_refuted_result : forall r1 n, - 2 ^ 31 <= n < 2 ^ 31 ->
  exists c, c_run 64 (c_new 0 0) [CCmd RESULT_name (DFin false (inject_Z n))] = Some c /\ snd (c_get_result c 1 r1) = r1.
Proof.
  intros r1 n N. cbn [c_run c_step c_cmd]. unfold c_cmd. change (same RESULT_name RESULT_name) with true. cbv iota.
  rewrite to_int_eq. unfold whole_part. cbv zeta. cbn [inject_Z Qnum Qden]. rewrite Z.quot_1_r.
  assert ((-2147483648 <=? n) && (n <=? 2147483647) = true) as -> by lia. eexists. split; reflexivity.
Qed.
Print Assumptions C158_refuted_result.
(** The only undefined step: RESULT, or a name that begins with S, with a number that does
    not fit a C++ [int]. *)
Theorem C158_defined w c e : c_step w c e = None <->
  exists p v, e = CCmd p v /\ whole_part v = None /\ (p = word_result \/ hd 0 p = 83).
Proof.
  split.
  - intros H. destruct e as [t i r|o|p v|n r]; cbn [c_step] in H; try discriminate. exists p, v. split; [reflexivity|].
    unfold c_cmd in H. rewrite !is_same in H. destruct (is p RESULT_name) eqn:E1.
    { unfold is in E1. destruct (list_eq_dec Z.eq_dec p RESULT_name) as [->|]; [|discriminate]. rewrite <- to_int_eq.
      destruct (to_int v); [discriminate|]. auto. }
    destruct (is p READY_name); [discriminate|]. destruct p as [|x p]; [discriminate|].
    destruct (Z.eq_dec x 83) as [->|N]. { rewrite <- to_int_eq. cbn in H. destruct (to_int v); [discriminate|]. auto. }
    repeat match type of H with match ?y with _ => _ end = _ => destruct y; try congruence end.
  - intros (p & v & -> & N & [->|H]); cbn [c_step]; unfold c_cmd; rewrite <- to_int_eq in N.
    + change (same word_result RESULT_name) with true. cbv iota. rewrite N. reflexivity.
    + destruct p as [|x p]; [discriminate|]. cbn in H. subst x. change (same (83 :: p) RESULT_name) with false.
      change (same (83 :: p) READY_name) with false. cbv beta iota. rewrite N. reflexivity.
Qed.
Print Assumptions C158_defined.
Example ex_C158 :
  match c_run 64 (c_new 5 0) [CEval 10 1 7; CEval 20 0 8; CCmd READY_name (DFin false (1 # 2)); CCmd RESULT_name (DFin false 3)] with
  | Some c => c_ready c = true /\ snd (c_get_result c 1 4) = 4 /\ snd (c_get_result c 2 4) = 8 /\ snd (c_get_result c 3 4) = 0
  | None => False
  end.
Proof. vm_compute. auto. Qed.
