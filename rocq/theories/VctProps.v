(** Properties of virtual counters. *)
From Coq Require Import ZArith List Bool Lia QArith Qround Lqa.
From Verif Require Import Base FTextModel FloatModel FloatProofs DevModel DevSpec DevProofs CtrProofs VctModel VctSpec.
Import ListNotations.
Open Scope Z_scope.

Local Lemma v_run_snoc h : forall c e c', v_run c (h ++ [e]) = Some c' -> exists c1, v_run c h = Some c1 /\ v_step c1 e = Some c'.
Proof.
  induction h as [|x h IH]; intros c e c' H; cbn [app v_run] in *.
  - destruct (v_step c e) as [c1|] eqn:E; [|discriminate]. injection H as <-. exists c. auto.
  - destruct (v_step c x) as [c1|]; [|discriminate]. apply IH. exact H.
Qed.
Local Lemma fold_snoc {A B} (f : B -> A -> B) h e b : fold_left f (h ++ [e]) b = f (fold_left f h b) e.
Proof. apply fold_left_app. Qed.

(** Parts of the counter that commands leave alone. *)
Local Lemma cmd_parts c p v c' a : v_cmd c p v = Some (c', a) ->
  v_last c' = v_last c /\ v_abs_last c' = v_abs_last c /\ v_first c' = v_first c /\
  v_manual c' = match p, v with
                | 77 :: _, DFin _ q => if Qeq_bool q 0 then false else if Qeq_bool q 1 then true else v_manual c
                | _, _ => v_manual c
                end /\
  (hd 0 p <> 86 -> v_value c' = v_value c) /\
  v_abs c' = match p, v with
             | 65 :: _, DFin _ q => Z.quot (Qnum q) (Zpos (Qden q))
             | _, _ => v_abs c
             end /\
  (match p, v with 65 :: _, DFin _ q => 0 <= Z.quot (Qnum q) (Zpos (Qden q)) < 2 ^ 32 | _, _ => True end).
Proof.
  intros H. destruct p as [|x p]. { cbn in H. injection H as <- <-. repeat split; auto. }
  destruct (Z.eq_dec x 65) as [->|N1].
  { cbn in H. unfold to_uint in H. destruct v as [s q|s|]; try discriminate. cbv zeta in H. rewrite trunc_quot in H.
    set (n := Z.quot _ _) in *. destruct ((0 <=? n) && (n <? 2 ^ 32)) eqn:E; [|discriminate]. injection H as <- <-. cbn. clearbody n.
    repeat split; auto; lia. }
  destruct (Z.eq_dec x 77) as [->|N2].
  { cbn in H. injection H as <- <-. destruct v as [s q|s|]; cbn; try (repeat split; auto; fail).
    destruct (Qeq_bool q 0); [cbn; repeat split; auto|]. destruct (Qeq_bool q 1); cbn; repeat split; auto. }
  assert (v_last c' = v_last c /\ v_abs_last c' = v_abs_last c /\ v_first c' = v_first c /\ v_manual c' = v_manual c /\
    (x <> 86 -> v_value c' = v_value c) /\ v_abs c' = v_abs c) as (-> & -> & -> & -> & V & ->).
  { destruct (Z.eq_dec x 83) as [->|N3].
    { cbn in H. destruct (to_int v) as [n|]; [|discriminate]. injection H as <- <-. unfold v_direct_state. destruct (n =? S_WORK), (n =? S_PAUSE); cbn; repeat split; auto. }
    destruct (Z.eq_dec x 86) as [->|N4].
    { cbn in H. injection H as <- <-. cbn. repeat split; auto. intros X. congruence. }
    destruct (Z.eq_dec x 70) as [->|N5].
    { cbn in H. injection H as <- <-. cbn. repeat split; auto. }
    unfold v_cmd in H. repeat match type of H with
      | match ?y with _ => _ end = _ => destruct y
      end; try discriminate; try congruence; injection H as <- <-; repeat split; auto. }
  split; [reflexivity|]. split; [reflexivity|]. split; [reflexivity|].
  split. { repeat match goal with |- context [match ?y with _ => _ end] => destruct y end; try reflexivity; congruence. }
  split; [exact V|].
  split; repeat match goal with |- context [match ?y with _ => _ end] => destruct y end; try reflexivity; try exact I; congruence.
Qed.
Local Lemma obey_parts c o : v_last (v_obey c o) = v_last c /\ v_abs_last (v_obey c o) = v_abs_last c /\ v_first (v_obey c o) = v_first c /\
  v_manual (v_obey c o) = v_manual c /\ v_abs (v_obey c o) = v_abs c.
Proof.
  unfold v_obey. destruct (v_manual c) eqn:M; [repeat split; auto|]. destruct o; cbn; repeat split; auto; unfold v_direct_state;
    destruct (n =? S_WORK), (n =? S_PAUSE); cbn; auto.
Qed.

Definition known (c : vct) (h : list vev) : Prop :=
  v_manual c = hand h /\
  match last_read h with
  | None => v_first c = true
  | Some (rv, av) => v_first c = false /\ v_last c = rv /\ v_abs_last c = av
  end.
Local Lemma known_step c h e c' : known c h -> v_step c e = Some c' -> known c' (h ++ [e]).
Proof.
  intros [M L] H. unfold known, hand, last_read. rewrite !fold_snoc. fold (hand h). fold (last_read h).
  destruct e as [rv av fl|nv na fl| | | | |o|p v]; cbn [v_step] in H.
  - injection H as <-. cbn. auto.
  - injection H as <-. cbn. auto.
  - injection H as <-. cbn. auto.
  - injection H as <-. cbn. auto.
  - injection H as <-. cbn. auto.
  - injection H as <-. cbn. auto.
  - injection H as <-. destruct (obey_parts c o) as (-> & -> & -> & -> & _). auto.
  - destruct (v_cmd c p v) as [[c1 a]|] eqn:E; [|discriminate]. injection H as <-. apply cmd_parts in E.
    destruct E as (-> & -> & -> & -> & _). rewrite M. split; [|exact L].
    repeat match goal with |- context [match ?y with _ => _ end] => destruct y end; reflexivity.
Qed.
Local Lemma known_run h : forall c, v_run v_new h = Some c -> known c h.
Proof.
  induction h as [|e h IH] using rev_ind; intros c H.
  - cbn in H. injection H as <-. split; reflexivity.
  - apply v_run_snoc in H. destruct H as (c1 & R & S). exact (known_step _ _ _ _ (IH _ R) S).
Qed.

(** * C155: the litres *)

Local Lemma litres_pos rh : Forall args_ok rh -> 0 <= litres rh.
Proof.
  induction 1 as [|e rh A F IH]; cbn [litres]; [lia|]. destruct e as [rv av fl|nv na fl| | | | |o|p v]; try lia; auto.
  - unfold growth. destruct (option_map fst (last_read (rev rh))); lia.
  - destruct A; lia.
  - destruct o; auto; destruct (hand (rev rh)); auto; lia.
Qed.
Theorem C155_litres h c : Forall args_ok h -> Forall only_counts h -> moderate (rev h) -> v_run v_new h = Some c ->
  v_quantity c = Some (litres (rev h)) /\ v_value c = f_of_Z (litres (rev h)).
Proof.
  intros A O M R. assert (v_value c = f_of_Z (litres (rev h))) as V.
  { revert c A O M R. induction h as [|e h IH] using rev_ind; intros c A O M R.
    - cbn in R. injection R as <-. reflexivity.
    - apply v_run_snoc in R. destruct R as (c1 & R & S). rewrite rev_app_distr in *. cbn [rev app] in *. cbn [moderate] in M. destruct M as [M1 M2].
      apply Forall_app in A, O. destruct A as [A A1], O as [O O1]. inversion A1; inversion O1; subst.
      specialize (IH _ A O M2 R). pose proof (known_run _ _ R) as [KM KL].
      pose proof (litres_pos (rev h) (Forall_rev A)) as P.
      assert (0 <= litres (rev h) < 2 ^ 24) as B. { split; [exact P|]. destruct (rev h) eqn:E; [cbn; lia|]. cbn [moderate] in M2. tauto. }
      destruct e as [rv av fl|nv na fl| | | | |o|p v]; cbn [v_step] in S.
      + injection S as <-. cbn [v_eval v_value litres] in *. rewrite rev_involutive in *. unfold growth in *.
        destruct (last_read h) as [[r0 a0]|]; cbn [option_map fst] in *.
        * destruct KL as (-> & -> & _). cbn [negb andb]. destruct (Z.ltb_spec r0 rv) as [L|L].
          -- rewrite IH, add_int by lia. f_equal. lia.
          -- rewrite IH. f_equal. lia.
        * rewrite KL. cbn [negb andb]. rewrite IH. f_equal. lia.
      + injection S as <-. reflexivity.
      + injection S as <-. exact IH.
      + injection S as <-. exact IH.
      + injection S as <-. reflexivity.
      + injection S as <-. exact IH.
      + injection S as <-. cbn [litres]. rewrite rev_involutive. unfold v_obey. rewrite KM. destruct (hand h).
        { destruct o; exact IH. }
        destruct o; try exact IH; try reflexivity; [|contradiction].
        unfold v_direct_state. destruct (n =? S_WORK), (n =? S_PAUSE); exact IH.
      + destruct (v_cmd c1 p v) as [[c2 a]|] eqn:E; [|discriminate]. injection S as <-. apply cmd_parts in E.
        destruct E as (_ & _ & _ & _ & E & _). rewrite E.
        * rewrite IH. destruct p as [|x p]; reflexivity.
        * destruct p as [|x p]; [cbn; lia|]. cbn [hd]. intros ->. cbn in *. contradiction. }
  split; [|exact V]. unfold v_quantity. rewrite V. apply to_u32_int.
  assert (Forall args_ok (rev h)) as A2 by (apply Forall_rev; exact A). pose proof (litres_pos _ A2).
  destruct (rev h); [cbn; lia|]. cbn [moderate] in M. lia.
Qed.
Print Assumptions C155_litres.

(** Pause and start have no influence on the litres. *)
Theorem C155_refuted_pause : exists h c, v_run v_new h = Some c /\ v_state c = 2 /\ hand h = false /\
  v_quantity c = Some 50 /\ h = [VEval 100 100 0; VPause; VEval 150 150 0].
Proof.
  eexists _, _. split; [|split; [|split; [|split; [|reflexivity]]]].
  1: vm_compute; reflexivity. all: vm_compute; reflexivity.
Qed.
Print Assumptions C155_refuted_pause.
Definition switches (e : vev) : bool := match e with VPause | VStart => true | _ => false end.
Local Lemma same_eval c d : v_value c = v_value d -> v_last c = v_last d -> v_first c = v_first d -> forall rv av fl,
  v_value (v_eval c rv av fl) = v_value (v_eval d rv av fl).
Proof. intros A B C rv av fl. cbn. rewrite A, B, C. reflexivity. Qed.
Theorem C155_pause_ignored h c : v_run v_new h = Some c ->
  exists d, v_run v_new (filter (fun e => negb (switches e)) h) = Some d /\ v_value d = v_value c /\ v_abs d = v_abs c.
Proof.
  assert (forall h x y z, put_state x 0 = put_state y 0 -> v_run x h = Some z ->
    exists d, v_run y (filter (fun e => negb (switches e)) h) = Some d /\ put_state d 0 = put_state z 0) as G.
  { clear. induction h as [|e h IH]; intros x y z E R; cbn [v_run filter] in *.
    - injection R as <-. exists y. auto.
    - destruct (v_step x e) as [x1|] eqn:S; [|discriminate].
      destruct x as [xs xv xf xl xa xal xb xm], y as [ys yv yf yl ya yal yb ym]. unfold put_state in E. cbn in E.
      injection E as <- <- <- <- <- <- <-.
      destruct e as [rv av fl|nv na fl| | | | |o|p v]; cbn [switches negb v_run v_step] in *;
        try (injection S as <-; eapply IH; [|exact R]; reflexivity).
      + injection S as <-. eapply IH; [|exact R]. unfold v_obey. cbn [v_manual]. destruct xm; [reflexivity|].
        destruct o; try (cbn; reflexivity).
      + unfold v_cmd in *. destruct p as [|k p]. { injection S as <-. eapply IH; [|exact R]. reflexivity. }
        destruct (Z.eq_dec k 65) as [->|N1]. { cbn in *. destruct (to_uint v); [|discriminate]. injection S as <-. eapply IH; [|exact R]. reflexivity. }
        destruct (Z.eq_dec k 83) as [->|N2].
        { cbn in *. destruct (to_int v) as [n|]; [|discriminate]. injection S as <-. eapply IH; [|exact R].
          unfold v_direct_state. destruct (n =? S_WORK), (n =? S_PAUSE); reflexivity. }
        destruct (Z.eq_dec k 77) as [->|N3].
        { cbn in *. injection S as <-. eapply IH; [|exact R]. destruct (equals v 0); [reflexivity|]. destruct (equals v 1); reflexivity. }
        destruct (Z.eq_dec k 70) as [->|N4]. { cbn in *. injection S as <-. eapply IH; [|exact R]. reflexivity. }
        destruct (Z.eq_dec k 86) as [->|N5]. { cbn in *. injection S as <-. eapply IH; [|exact R]. reflexivity. }
        repeat match type of S with
          | match match ?y with _ => _ end with _ => _ end = _ => destruct y; try congruence
          end; injection S as <-; (eapply IH; [|exact R]; reflexivity). }
  intros R. destruct (G h v_new v_new c eq_refl R) as (d & D & E). exists d. split; [exact D|].
  destruct d, c. unfold put_state in E. cbn in *. injection E; auto.
Qed.
Print Assumptions C155_pause_ignored.

(** From 2^24 litres on a growth of one litre is lost. *)
Fixpoint ones (from : Z) (k : nat) : list vev := match k with O => [] | S k' => VEval (from + 1) 0 0 :: ones (from + 1) k' end.
Theorem C155_refuted_large k : exists c, v_run v_new (VEval 0 0 0 :: VSet (2 ^ 24) 0 0 :: ones 0 k) = Some c /\ v_quantity c = Some (2 ^ 24) /\
  litres (rev (VEval 0 0 0 :: VSet (2 ^ 24) 0 0 :: ones 0 k)) = 2 ^ 24 + Z.of_nat k.
Proof.
  assert (forall k from c, v_first c = false -> v_last c = from -> v_value c = f_of_Z (2 ^ 24) ->
    exists d, v_run c (ones from k) = Some d /\ v_value d = f_of_Z (2 ^ 24)) as G.
  { intros j. induction j as [|j IH]; intros from c F L V; cbn [ones v_run]; [exists c; auto|].
    cbn [v_step]. apply IH; [reflexivity|reflexivity|]. cbn [v_eval v_value]. rewrite F, L, V. cbn [negb andb].
    destruct (Z.ltb_spec from (from + 1)); [|lia]. replace (from + 1 - from) with 1 by lia. vm_compute. reflexivity. }
  cbn [v_run v_step]. destruct (G k 0 (v_set (v_eval v_new 0 0 0) (2 ^ 24) 0 0) eq_refl eq_refl eq_refl) as (d & D & V).
  exists d. split; [exact D|]. split. { unfold v_quantity. rewrite V. vm_compute. reflexivity. }
  clear. assert (forall k from h, last_read (rev h) = Some (from, 0) ->
    litres (rev (ones from k) ++ h) = litres h + Z.of_nat k) as G.
  { intros j. induction j as [|j IH]; intros from h L; cbn [ones rev app]; [lia|]. rewrite <- app_assoc. cbn [app]. rewrite IH.
    - cbn [litres]. rewrite L. cbn [option_map fst growth]. lia.
    - cbn [rev]. unfold last_read. rewrite fold_snoc. reflexivity. }
  change (rev (VEval 0 0 0 :: VSet (2 ^ 24) 0 0 :: ones 0 k)) with ((rev (ones 0 k) ++ [VSet (2 ^ 24) 0 0]) ++ [VEval 0 0 0]).
  rewrite <- app_assoc. cbn [app]. rewrite G by reflexivity. reflexivity.
Qed.
Print Assumptions C155_refuted_large.
Example ex_C155 :
  let h := [VEval 100 0 0; VEval 130 0 0; VEval 90 0 0; VEval 95 0 0; VCmd [77] (DFin false 1); VOrder OOff; VPause; VEval 105 0 0] in
  match v_run v_new h with Some c => v_quantity c = Some 45 | None => False end /\ litres (rev h) = 45 /\ moderate (rev h).
Proof. vm_compute. repeat split. Qed.

(** * C156: the absolute counter and the flow *)

Theorem C156_total h c : Forall args_ok h -> v_run v_new h = Some c -> v_abs c = total (rev h) mod 2 ^ 32.
Proof.
  revert c. induction h as [|e h IH] using rev_ind; intros c A R.
  - cbn in R. injection R as <-. reflexivity.
  - apply v_run_snoc in R. destruct R as (c1 & R & S). rewrite rev_app_distr. cbn [rev app].
    apply Forall_app in A. destruct A as [A A1]. inversion A1; subst. specialize (IH _ A R). pose proof (known_run _ _ R) as [KM KL].
    destruct e as [rv av fl|nv na fl| | | | |o|p v]; cbn [v_step] in S.
    + injection S as <-. cbn [v_eval v_abs total]. rewrite rev_involutive. unfold growth.
      destruct (last_read h) as [[r0 a0]|]; cbn [option_map snd].
      * destruct KL as (-> & _ & ->). cbn [negb andb]. destruct (Z.ltb_spec a0 av) as [L|L].
        -- unfold u32. rewrite Zplus_mod_idemp_r, IH, Zplus_mod_idemp_l. f_equal. lia.
        -- rewrite IH. f_equal. lia.
      * rewrite KL. cbn [negb andb]. rewrite IH. f_equal. lia.
    + injection S as <-. cbn [total v_set put_abs v_abs]. destruct H1. symmetry. apply Z.mod_small. assumption.
    + injection S as <-. exact IH.
    + injection S as <-. exact IH.
    + injection S as <-. exact IH.
    + injection S as <-. reflexivity.
    + injection S as <-. destruct (obey_parts c1 o) as (_ & _ & _ & _ & ->). exact IH.
    + destruct (v_cmd c1 p v) as [[c2 a]|] eqn:E; [|discriminate]. injection S as <-. apply cmd_parts in E.
      destruct E as (_ & _ & _ & _ & _ & -> & X). rewrite IH. clear - X.
      destruct p as [|x p]; [reflexivity|]. destruct (Z.eq_dec x 65) as [->|N].
      { cbn [total]. destruct v; cbn [total]; try reflexivity. symmetry. apply Z.mod_small. exact X. }
      cbn [total]. repeat match goal with |- context [match ?y with _ => _ end] => destruct y end; try reflexivity; congruence.
Qed.
Print Assumptions C156_total.
(** The flow is what was given last. *)
Definition last_flow (h : list vev) : Z :=
  fold_left (fun f e => match e with VEval _ _ x => x | VSet _ _ x => x | VCmd (70 :: _) v => as_float v | _ => f end) h 0.
Theorem C156_flow h c : v_run v_new h = Some c -> v_flow c = last_flow h.
Proof.
  revert c. induction h as [|e h IH] using rev_ind; intros c R.
  - cbn in R. injection R as <-. reflexivity.
  - apply v_run_snoc in R. destruct R as (c1 & R & S). specialize (IH _ R). unfold last_flow. rewrite fold_snoc. fold (last_flow h).
    destruct e as [rv av fl|nv na fl| | | | |o|p v]; cbn [v_step] in S; try (injection S as <-; exact IH || reflexivity).
    + injection S as <-. unfold v_obey. destruct (v_manual c1); [exact IH|]. destruct o; try exact IH.
      unfold v_direct_state. destruct (n =? S_WORK), (n =? S_PAUSE); exact IH.
    + destruct p as [|x p]. { cbn in S. injection S as <-. exact IH. }
      destruct (Z.eq_dec x 70) as [->|N]. { cbn in S. injection S as <-. cbn. apply as_float_eq. }
      assert (v_flow c = v_flow c1) as ->.
      { unfold v_cmd in S. destruct (Z.eq_dec x 83) as [->|N3].
        { cbn in S. destruct (to_int v) as [n|]; [|discriminate]. injection S as <-. unfold v_direct_state. destruct (n =? S_WORK), (n =? S_PAUSE); reflexivity. }
        destruct (Z.eq_dec x 77) as [->|N2]. { cbn in S. injection S as <-. destruct (equals v 0); [reflexivity|]. destruct (equals v 1); reflexivity. }
        destruct (Z.eq_dec x 65) as [->|N1]. { cbn in S. destruct (to_uint v); [|discriminate]. injection S as <-. reflexivity. }
        destruct (Z.eq_dec x 86) as [->|N4]. { cbn in S. injection S as <-. reflexivity. }
        repeat match type of S with
          | match match ?y with _ => _ end with _ => _ end = _ => destruct y; try congruence
          end; injection S as <-; reflexivity. }
      rewrite IH. repeat match goal with |- context [match ?y with _ => _ end] => destruct y end; try reflexivity; congruence.
Qed.
Print Assumptions C156_flow.
(** The state is the one ordered last. *)
Local Lemma direct_state c n : v_direct_state c n = put_state c n.
Proof. unfold v_direct_state. destruct (Z.eqb_spec n S_WORK) as [->|]; [reflexivity|]. destruct (Z.eqb_spec n S_PAUSE) as [->|]; reflexivity. Qed.
Theorem C156_state h c : v_run v_new h = Some c -> v_state c = counter_state (rev h).
Proof.
  revert c. induction h as [|e h IH] using rev_ind; intros c R.
  - cbn in R. injection R as <-. reflexivity.
  - apply v_run_snoc in R. destruct R as (c1 & R & S). specialize (IH _ R). pose proof (known_run _ _ R) as [KM _].
    rewrite rev_app_distr. cbn [rev app].
    destruct e as [rv av fl|nv na fl| | | | |o|p v]; cbn [v_step] in S; try (injection S as <-; exact IH || reflexivity).
    + injection S as <-. unfold v_obey. cbn [counter_state]. rewrite rev_involutive, <- KM. destruct (v_manual c1); destruct o; try exact IH; [reflexivity|].
      rewrite direct_state. reflexivity.
    + destruct p as [|x p]. { cbn in S. injection S as <-. exact IH. }
      destruct (Z.eq_dec x 83) as [->|N].
      { cbn [counter_state]. rewrite <- to_int_eq. cbn in S. destruct (to_int v) as [n|]; [|discriminate]. injection S as <-. rewrite direct_state. reflexivity. }
      assert (v_state c = v_state c1) as ->.
      { unfold v_cmd in S. destruct (Z.eq_dec x 70) as [->|N3]. { cbn in S. injection S as <-. reflexivity. }
        destruct (Z.eq_dec x 77) as [->|N2]. { cbn in S. injection S as <-. destruct (equals v 0); [reflexivity|]. destruct (equals v 1); reflexivity. }
        destruct (Z.eq_dec x 65) as [->|N1]. { cbn in S. destruct (to_uint v); [|discriminate]. injection S as <-. reflexivity. }
        destruct (Z.eq_dec x 86) as [->|N4]. { cbn in S. injection S as <-. reflexivity. }
        repeat match type of S with
          | match match ?y with _ => _ end with _ => _ end = _ => destruct y; try congruence
          end; injection S as <-; reflexivity. }
      rewrite IH. cbn [counter_state]. repeat match goal with |- _ = match ?y with _ => _ end => destruct y; try reflexivity; try congruence end.
Qed.
Print Assumptions C156_state.
(** A command is refused exactly if its first letter is none of A, F, S, V, M. *)
Theorem C156_answer c p v c' a : v_cmd c p v = Some (c', a) ->
  a = if existsb (Z.eqb (hd 0 p)) [65; 70; 83; 86; 77] then 0 else 1.
Proof.
  intros H. destruct p as [|x p]. { cbn in H. injection H as <- <-. reflexivity. }
  cbn [hd existsb]. unfold v_cmd in H.
  destruct (Z.eqb_spec x 65) as [->|N1]. { destruct (to_uint v); [|discriminate]. injection H as <- <-. reflexivity. }
  destruct (Z.eqb_spec x 70) as [->|N2]. { injection H as <- <-. reflexivity. }
  destruct (Z.eqb_spec x 83) as [->|N3]. { destruct (to_int v); [|discriminate]. injection H as <- <-. reflexivity. }
  destruct (Z.eqb_spec x 86) as [->|N4]. { injection H as <- <-. reflexivity. }
  destruct (Z.eqb_spec x 77) as [->|N5]. { injection H as <- <-. reflexivity. }
  cbn [orb]. repeat match type of H with match ?y with _ => _ end = _ => destruct y; try congruence end.
Qed.
Print Assumptions C156_answer.
(** Where the behaviour is undefined: a command that does not fit. *)
Theorem C156_defined c e : v_step c e = None <->
  exists p v, e = VCmd p v /\ (hd 0 p = 83 /\ whole_part v = None \/
    hd 0 p = 65 /\ forall s q, v = DFin s q -> ~ 0 <= Z.quot (Qnum q) (Zpos (Qden q)) < 2 ^ 32).
Proof.
  destruct e as [rv av fl|nv na fl| | | | |o|p v]; cbn [v_step]; try (split; [discriminate|intros (? & ? & ? & _); discriminate]).
  destruct p as [|x p].
  { cbn. split; [discriminate|]. intros (p' & v' & E & [[H _]|[H _]]); injection E as <- <-; cbn in H; discriminate. }
  destruct (Z.eq_dec x 83) as [->|N1].
  { cbn. rewrite to_int_eq. destruct (whole_part v) eqn:W.
    - split; [discriminate|]. intros (p' & v' & E & [[_ H]|[H _]]); injection E as <- <-; [congruence|discriminate].
    - split; [|reflexivity]. intros _. exists (83 :: p), v. split; [reflexivity|]. left. auto. }
  destruct (Z.eq_dec x 65) as [->|N2].
  { cbn. unfold to_uint. destruct v as [s q|s|].
    - cbv zeta. rewrite trunc_quot. set (n := Z.quot _ _) in *. destruct ((0 <=? n) && (n <? 2 ^ 32)) eqn:B.
      + split; [discriminate|]. intros (p' & v' & E & [[H _]|[_ H]]); injection E as <- <-; [discriminate|].
        exfalso. apply (H s q eq_refl). fold n. lia.
      + split; [|reflexivity]. intros _. exists (65 :: p), (DFin s q). split; [reflexivity|]. right. split; [reflexivity|].
        intros s1 q1 E. injection E as <- <-. fold n. lia.
    - split; [|reflexivity]. intros _. exists (65 :: p), (DInf s). split; [reflexivity|]. right. split; [reflexivity|]. intros ? ? E. discriminate.
    - split; [|reflexivity]. intros _. exists (65 :: p), DNan. split; [reflexivity|]. right. split; [reflexivity|]. intros ? ? E. discriminate. }
  split.
  - intros H. exfalso. unfold v_cmd in H. repeat match type of H with
      | match match ?y with _ => _ end with _ => _ end = _ => destruct y; try congruence
      end; discriminate.
  - intros (p' & v' & E & [[H _]|[H _]]); injection E as <- <-; cbn in H; congruence.
Qed.
Print Assumptions C156_defined.
(** The source counter starts again from zero: what it counted before its first reading is lost. *)
Theorem C156_refuted_restart : exists c, v_run v_new [VEval 10 10 0; VEval 20 20 0; VEval 5 5 0] = Some c /\ v_abs c = 10 /\ v_quantity c = Some 10.
Proof. eexists. split; [vm_compute; reflexivity|]. split; vm_compute; reflexivity. Qed.
Print Assumptions C156_refuted_restart.
Example ex_C156 :
  match v_run v_new [VCmd [65; 66; 83] (DFin false (inject_Z (2 ^ 32 - 5))); VEval 0 100 0; VEval 0 110 7; VPause; VEval 0 111 8] with
  | Some c => v_abs c = 6 /\ v_flow c = 8
  | None => False
  end.
Proof. vm_compute. auto. Qed.
