(** Lemmas about commands, names and manual mode of simple devices. *)
From Coq Require Import ZArith List Bool Lia QArith Qround.
From Verif Require Import Base FTextModel FloatModel DevModel DevSpec.
Import ListNotations.
Open Scope Z_scope.

Lemma same_eq a : forall b, same a b = true <-> a = b.
Proof.
  induction a as [|x a IH]; intros [|y b]; cbn [same]; split; intros H; try discriminate; auto.
  - apply andb_true_iff in H. destruct H as [H1 H2]. apply Z.eqb_eq in H1. apply IH in H2. subst. reflexivity.
  - injection H as -> ->. rewrite Z.eqb_refl. apply IH. reflexivity.
Qed.
Lemma as_float_eq d : to_float d = as_float d.
Proof. destruct d as [s q|[] |]; reflexivity. Qed.
Lemma trunc_quot q : trunc q = Z.quot (Qnum q) (Zpos (Qden q)).
Proof.
  destruct q as [n d]. unfold trunc, Qfloor, Qopp. cbn [Qnum Qden].
  destruct (Qle_bool 0 (n # d)) eqn:E.
  - apply Qle_bool_iff in E. unfold Qle in E. cbn in E. rewrite Z.quot_div_nonneg by lia. reflexivity.
  - assert (n < 0).
    { destruct (Z_lt_ge_dec n 0) as [L|G]; [exact L|]. exfalso.
      assert (Qle_bool 0 (n # d) = true); [|congruence]. apply Qle_bool_iff. unfold Qle. cbn. lia. }
    rewrite <- (Z.opp_involutive n) at 2. rewrite Z.quot_opp_l by lia. rewrite Z.quot_div_nonneg by lia. reflexivity.
Qed.
Lemma to_int_eq d : to_int d = whole_part d.
Proof.
  destruct d as [s q|s|]; try reflexivity. unfold to_int, whole_part. cbv zeta. rewrite trunc_quot.
  set (n := Z.quot _ _). clearbody n. change (- 2 ^ 31) with (-2147483648). change (2 ^ 31) with 2147483648.
  destruct (Z.leb_spec (-2147483648) n), (Z.ltb_spec n 2147483648), (Z.leb_spec n 2147483647); cbn [andb]; try reflexivity; lia.
Qed.

(** * Lists *)

Lemma put_len {A} (l : list A) : forall n x, length (put l n x) = length l.
Proof. induction l as [|y l IH]; intros [|n] x; cbn; auto. Qed.
Lemma put_same {A} (l : list A) : forall n x, (n < length l)%nat -> nth_error (put l n x) n = Some x.
Proof. induction l as [|y l IH]; intros [|n] x H; cbn in *; try lia; [reflexivity|]. apply IH. lia. Qed.
Lemma put_other {A} (l : list A) : forall n m x, n <> m -> nth_error (put l n x) m = nth_error l m.
Proof. induction l as [|y l IH]; intros [|n] [|m] x H; cbn; try reflexivity; try lia. apply IH. lia. Qed.

(** * Search of a name *)

Lemma find_gap l : forall n k, find_par l n k = None <-> gap l n.
Proof.
  induction l as [|[m|] l IH]; intros n k; cbn [find_par].
  - split; [discriminate|]. intros [[|j] [H _]]; discriminate.
  - destruct (same m n) eqn:E.
    + apply same_eq in E. subst m. split; [discriminate|]. intros [[|j] [H1 H2]]; [discriminate|].
      exfalso. apply (H2 O); [lia|reflexivity].
    + rewrite IH. split; intros [j [H1 H2]].
      * exists (S j). split; [exact H1|]. intros [|i] Hi; [|apply H2; lia]. cbn. intros X. injection X as ->.
        assert (same n n = true) by (apply same_eq; reflexivity). congruence.
      * destruct j as [|j]; [discriminate|]. exists j. split; [exact H1|]. intros i Hi. apply (H2 (S i)). lia.
  - split; [|reflexivity]. intros _. exists O. split; [reflexivity|]. intros i Hi. lia.
Qed.
Lemma find_some l : forall n k i, find_par l n k = Some (Some i) -> exists j, i = (k + j)%nat /\ first_named l n j.
Proof.
  induction l as [|[m|] l IH]; intros n k i; cbn [find_par]; intros H; try discriminate.
  destruct (same m n) eqn:E.
  - apply same_eq in E. injection H as <-. subst m. exists O. split; [lia|]. split; [reflexivity|]. intros j Hj. lia.
  - destruct (IH _ _ _ H) as (j & -> & H1 & H2). exists (S j). split; [lia|]. split; [exact H1|].
    intros [|q] Hq; [|apply H2; lia]. cbn. intros X. injection X as ->.
    assert (same n n = true) by (apply same_eq; reflexivity). congruence.
Qed.
Lemma find_none l : forall n k, find_par l n k = Some None -> forall j, nth_error l j <> Some (Some n).
Proof.
  induction l as [|[m|] l IH]; intros n k; cbn [find_par]; intros H j; try discriminate.
  - destruct j; discriminate.
  - destruct (same m n) eqn:E; [discriminate|]. destruct j as [|j]; [|apply (IH _ _ H)]. cbn. intros X. injection X as ->.
    assert (same n n = true) by (apply same_eq; reflexivity). congruence.
Qed.
Lemma first_named_one l n i j : first_named l n i -> first_named l n j -> i = j.
Proof.
  intros [A1 A2] [B1 B2]. destruct (Nat.lt_trichotomy i j) as [L|[E|G]]; [|exact E|].
  - exfalso. exact (B2 _ L A1).
  - exfalso. exact (A2 _ G B1).
Qed.

(** * Runs *)

Lemma run_snoc h : forall d e d2 l2, run d (h ++ [e]) = Some (d2, l2) ->
  exists d1 l1 a, run d h = Some (d1, l1) /\ step d1 e = Some (d2, a) /\ l2 = l1 ++ [a].
Proof.
  induction h as [|x h IH]; intros d e d2 l2 H.
  - cbn [run app] in H. destruct (step d e) as [[d1 a]|] eqn:E; [|discriminate]. injection H as <- <-.
    exists d, [], a. auto.
  - cbn [run app] in *. destruct (step d x) as [[d1 a]|] eqn:E; [|discriminate].
    destruct (run d1 (h ++ [e])) as [[d3 l3]|] eqn:R; [|discriminate]. injection H as <- <-.
    destruct (IH _ _ _ _ R) as (d4 & l4 & b & R4 & S4 & ->). rewrite R4. exists d4, (a :: l4), b. auto.
Qed.
Lemma run_app h1 : forall h2 d d1 l1, run d h1 = Some (d1, l1) ->
  run d (h1 ++ h2) = match run d1 h2 with Some (d2, l2) => Some (d2, l1 ++ l2) | None => None end.
Proof.
  induction h1 as [|x h IH]; intros h2 d d1 l1 H.
  - injection H as <- <-. cbn [app]. destruct (run d h2) as [[? ?]|]; reflexivity.
  - cbn [run app] in *. destruct (step d x) as [[d3 a]|] eqn:E; [|discriminate].
    destruct (run d3 h) as [[d4 l4]|] eqn:R; [|discriminate]. injection H as <- <-.
    rewrite (IH h2 _ _ _ R). destruct (run d4 h2) as [[d5 l5]|]; reflexivity.
Qed.

Definition sizes (d : dev) (n : nat) : Prop := length (names d) = n /\ length (vals d) = n /\ length (kept d) = n.
Lemma create_sizes ty sub nm mem d : create ty sub nm mem = Some d -> sizes d (length mem).
Proof.
  unfold create. destruct (_ <? _); [|discriminate]. intros H. injection H as <-. unfold sizes. cbn [names vals kept].
  rewrite map_length. auto.
Qed.
Lemma set_cmd_cases d p v d' a : set_cmd d p v = Some (d', a) ->
  (names d' = names d /\ vals d' = vals d /\ kept d' = kept d /\ hd 0 p <> 80) \/
  (hd 0 p = 80 /\ set_par_by_name d p v = Some (d', a)).
Proof.
  unfold set_cmd. intros H. destruct p as [|c p].
  { injection H as <- <-. left. cbn. auto with zarith. }
  destruct (Z.eq_dec c 80) as [->|N]. { right. auto. }
  left. repeat match type of H with
    | match ?x with _ => _ end = _ => destruct x
    end; try discriminate; try congruence; injection H as <- <-; cbn;
    repeat match goal with |- context [if ?b then _ else _] => destruct b end; cbn; auto.
Qed.
Lemma set_par_by_name_cases d p v d' a : set_par_by_name d p v = Some (d', a) ->
  (d' = d /\ a = 1 /\ forall j, nth_error (names d) j <> Some (Some p)) \/
  exists i, first_named (names d) p i /\ a = 0 /\
    d' = with_vals d (put (vals d) i (as_float v)) (put (kept d) i (as_float v)) (stub d).
Proof.
  unfold set_par_by_name. destruct (find_par (names d) p 0) as [[i|]|] eqn:E; intros H; try discriminate.
  - injection H as <- <-. right. destruct (find_some _ _ _ _ E) as (j & -> & F). cbn [Nat.add]. exists j. rewrite as_float_eq. auto.
  - injection H as <- <-. left. split; [reflexivity|]. split; [reflexivity|]. exact (find_none _ _ _ E).
Qed.
Lemma step_sizes d e d' a n : sizes d n -> step d e = Some (d', a) -> sizes d' n.
Proof.
  intros (A & B & C) H. unfold sizes. destruct e as [o|p v|i o nm|i o v|]; cbn [step] in H.
  - injection H as <- <-. unfold obey. destruct (manual d); [auto|]. destruct o; cbn; auto.
  - apply set_cmd_cases in H. destruct H as [(-> & -> & -> & _)|[_ H]]; [auto|].
    apply set_par_by_name_cases in H. destruct H as [(-> & _)|(i & _ & _ & ->)]; [auto|]. cbn. rewrite !put_len. auto.
  - injection H as <- <-. unfold set_par_name. cbv zeta. destruct (_ && _); [|auto]. destruct (_ <? _); [auto|].
    destruct (nth _ _ _); [auto|]. cbn. rewrite put_len. auto.
  - injection H as <- <-. unfold set_par. cbv zeta. destruct (_ =? _); [auto|]. destruct (_ && _); cbn; rewrite ?put_len; auto.
  - injection H as <- <-. cbn. auto.
Qed.
Lemma run_sizes h : forall d d' l n, sizes d n -> run d h = Some (d', l) -> sizes d' n.
Proof.
  induction h as [|e h IH]; intros d d' l n S H; cbn [run] in H.
  - injection H as <- <-. exact S.
  - destruct (step d e) as [[d1 a]|] eqn:E; [|discriminate]. destruct (run d1 h) as [[d2 l2]|] eqn:R; [|discriminate].
    injection H as <- <-. exact (IH _ _ _ _ (step_sizes _ _ _ _ _ S E) R).
Qed.
Lemma reachable_sizes d : reachable d -> exists n, sizes d n.
Proof. intros (ty & sub & nm & mem & d0 & h & l & C & R). exists (length mem). exact (run_sizes _ _ _ _ _ (create_sizes _ _ _ _ _ C) R). Qed.

(** * Where behaviour is defined *)

Lemma step_bad d e : step d e = None <-> bad d e.
Proof.
  destruct e as [o|p v|i o nm|i o v|]; cbn [step bad]; try (split; [discriminate|tauto]).
  destruct p as [|c p]. { split; [discriminate|tauto]. }
  destruct (Z.eq_dec c 80) as [->|N80].
  { cbn. unfold set_par_by_name. destruct (find_par (names d) (80 :: p) 0) as [[i|]|] eqn:E.
    - split; [discriminate|]. intros G. apply (find_gap _ _ 0%nat) in G. congruence.
    - split; [discriminate|]. intros G. apply (find_gap _ _ 0%nat) in G. congruence.
    - apply find_gap in E. tauto. }
  destruct (Z.eq_dec c 83) as [->|N83].
  { cbn. rewrite to_int_eq. destruct (whole_part v); split; try discriminate; auto. }
  unfold set_cmd.
  split; intros H.
  - exfalso. repeat match type of H with
    | match ?x with _ => _ end = _ => destruct x
    end; try discriminate; congruence.
  - exfalso. repeat match type of H with
    | match ?x with _ => _ end => destruct x
    end; try contradiction; congruence.
Qed.
Lemma run_bad h : forall d, run d h = None <-> exists a e b d1 l, h = a ++ e :: b /\ run d a = Some (d1, l) /\ bad d1 e.
Proof.
  induction h as [|x h IH]; intros d; cbn [run].
  - split; [discriminate|]. intros ([|y a] & e & b & d1 & l & H & _); discriminate.
  - destruct (step d x) as [[d1 a]|] eqn:E.
    + destruct (run d1 h) as [[d2 l2]|] eqn:R.
      * split; [discriminate|]. intros X. destruct X as (a0 & e1 & b & d3 & l & H & R3 & B). destruct a0 as [|y a0].
        { cbn in H, R3. injection H as H1 H2. injection R3 as R1 R2. subst. apply step_bad in B. congruence. }
        cbn [app] in H. injection H as H1 H. subst y. cbn [run] in R3. rewrite E in R3.
        destruct (run d1 a0) as [[d4 l4]|] eqn:R4; [|discriminate]. injection R3 as R31 R32. subst d4.
        assert (run d1 h = None); [|congruence]. apply IH. exists a0, e1, b, d3, l4. auto.
      * split; [intros _|reflexivity]. apply IH in R. destruct R as (a0 & e & b & d3 & l & -> & R3 & B).
        exists (x :: a0), e, b, d3, (a :: l). cbn [run]. rewrite E, R3. auto.
    + split; [intros _|reflexivity]. exists [], x, h, d, []. cbn. split; [reflexivity|]. split; [reflexivity|]. apply step_bad. exact E.
Qed.

(** * State, value, manual mode *)

Lemma manual_snoc h e : manual_after (h ++ [e]) =
  match e with
  | ECmd (77 :: _) (DFin _ q) => if Qeq_bool q 0 then false else if Qeq_bool q 1 then true else manual_after h
  | ERestart => false
  | _ => manual_after h
  end.
Proof. unfold manual_after. rewrite fold_left_app. reflexivity. Qed.

Lemma step_manual d e d' a m : manual d = m -> step d e = Some (d', a) ->
  manual d' = match e with
  | ECmd (77 :: _) (DFin _ q) => if Qeq_bool q 0 then false else if Qeq_bool q 1 then true else m
  | ERestart => false
  | _ => m
  end.
Proof.
  intros M H. destruct e as [o|p v|i o nm|i o v|]; cbn [step] in H.
  - injection H as <- <-. unfold obey. rewrite M. destruct m; [exact M|]. destruct o; exact M.
  - destruct p as [|c p]. { injection H as <- <-. exact M. }
    destruct (Z.eq_dec c 77) as [->|N].
    { cbn in H. injection H as <- <-. destruct v as [s q|s|]; cbn; try exact M.
      destruct (Qeq_bool q 0); [reflexivity|]. destruct (Qeq_bool q 1); [reflexivity|exact M]. }
    assert (manual d' = manual d) as ->.
    { unfold set_cmd in H. repeat match type of H with
        | match ?x with _ => _ end = _ => destruct x eqn:?
        end; try discriminate; try congruence; try (injection H as <- <-; reflexivity).
      apply set_par_by_name_cases in H. destruct H as [(-> & _)|(i & _ & _ & ->)]; reflexivity. }
    rewrite M. repeat match goal with |- context [match ?x with _ => _ end] => destruct x end; try reflexivity; congruence.
  - injection H as <- <-. unfold set_par_name. cbv zeta. repeat match goal with |- context [match ?x with _ => _ end] => destruct x end; exact M.
  - injection H as <- <-. unfold set_par. cbv zeta. repeat match goal with |- context [match ?x with _ => _ end] => destruct x end; exact M.
  - injection H as <- <-. reflexivity.
Qed.
Lemma zero_f : f_of_Z 0 = 0. Proof. vm_compute. reflexivity. Qed.
Lemma step_state d e d' a : step d e = Some (d', a) ->
  state d' = match new_state (manual d) e with Some x => x | None => state d end /\
  value d' = match new_value (manual d) e with Some x => x | None => value d end.
Proof.
  intros H. destruct e as [o|p v|i o nm|i o v|]; cbn [step] in H.
  - injection H as <- <-. unfold obey, new_state, new_value. destruct (manual d); [auto|]. destruct o; cbn; rewrite ?zero_f; auto.
  - destruct p as [|c p]. { injection H as <- <-. auto. }
    destruct (Z.eq_dec c 83) as [->|N1].
    { cbn in H. rewrite to_int_eq in H. destruct (whole_part v) eqn:W; [|discriminate]. injection H as <- <-. cbn. rewrite W. auto. }
    destruct (Z.eq_dec c 86) as [->|N2].
    { cbn in H. injection H as <- <-. cbn. rewrite as_float_eq. auto. }
    assert (state d' = state d /\ value d' = value d) as [-> ->].
    { unfold set_cmd in H. repeat match type of H with
        | match ?x with _ => _ end = _ => destruct x eqn:?
        end; try discriminate; try congruence;
        try (injection H as <- <-; repeat match goal with |- context [if ?x then _ else _] => destruct x end; auto).
      apply set_par_by_name_cases in H. destruct H as [(-> & _)|(i & _ & _ & ->)]; auto. }
    assert (new_state (manual d) (ECmd (c :: p) v) = None) as ->.
    { unfold new_state. repeat match goal with |- match ?x with _ => _ end = _ => destruct x end; try reflexivity; congruence. }
    assert (new_value (manual d) (ECmd (c :: p) v) = None) as ->.
    { unfold new_value. repeat match goal with |- match ?x with _ => _ end = _ => destruct x end; try reflexivity; congruence. }
    auto.
  - injection H as <- <-. unfold set_par_name. cbv zeta. cbn [new_state new_value]. repeat match goal with |- context [match ?x with _ => _ end] => destruct x end; auto.
  - injection H as <- <-. unfold set_par. cbv zeta. cbn [new_state new_value]. repeat match goal with |- context [match ?x with _ => _ end] => destruct x end; auto.
  - injection H as <- <-. auto.
Qed.
Lemma last_effect_snoc f h e x y : last_effect f h x ->
  y = match f (manual_after h) e with Some z => z | None => x end -> last_effect f (h ++ [e]) y.
Proof.
  intros L E. destruct (f (manual_after h) e) as [z|] eqn:F.
  - subst z. right. exists h, e, []. split; [reflexivity|]. split; [exact F|]. intros [|? ?] ? ? X; discriminate.
  - subst y. destruct L as [[-> L]|(a & e0 & b & -> & F0 & L)].
    + left. split; [reflexivity|]. intros a e1 b H. destruct (app_eq_app _ _ _ _ H) as (l & [[A B]|[A B]]).
      * destruct l as [|q l]; [|]. { rewrite app_nil_r in A. subst a. cbn in B. injection B as B1 B2; subst; exact F. }
        cbn in B. injection B as B1 B2; subst; exact (L _ _ _ eq_refl).
      * destruct l as [|q l]; [|destruct l; discriminate]. rewrite app_nil_r in A. subst a. cbn in B. injection B as B1 B2; subst; exact F.
    + right. exists a, e0, (b ++ [e]). split; [rewrite <- app_assoc; reflexivity|]. split; [exact F0|].
      intros b1 e1 b2 H. destruct (app_eq_app _ _ _ _ H) as (l & [[A B]|[A B]]).
      * destruct l as [|q l]. { rewrite app_nil_r in A. subst b1. cbn in B. injection B as B1 B2; subst; exact F. }
        cbn in B. injection B as B1 B2; subst; exact (L _ _ _ eq_refl).
      * destruct l as [|q l]; [|destruct l; discriminate]. rewrite app_nil_r in A. subst b1. cbn in B. injection B as B1 B2; subst; exact F.
Qed.
Lemma run_state ty sub nm mem d0 : create ty sub nm mem = Some d0 -> forall h d l, run d0 h = Some (d, l) ->
  manual d = manual_after h /\ last_effect new_state h (state d) /\ last_effect new_value h (value d).
Proof.
  intros C. induction h as [|e h IH] using rev_ind; intros d l H.
  - cbn in H. injection H as <- <-. unfold create in C. destruct (_ <? _); [|discriminate]. injection C as <-. cbn.
    split; [reflexivity|]. split; left; (split; [reflexivity|]); intros [|? ?] ? ? X; discriminate.
  - apply run_snoc in H. destruct H as (d1 & l1 & a & R & S & ->). destruct (IH _ _ R) as (M & L1 & L2).
    split. { rewrite manual_snoc. exact (step_manual _ _ _ _ _ M S). }
    apply step_state in S. destruct S as [S1 S2]. rewrite M in S1, S2.
    split; [exact (last_effect_snoc _ _ _ _ _ L1 S1)|exact (last_effect_snoc _ _ _ _ _ L2 S2)].
Qed.

(** * Names *)

Lemma step_names d e d' a n i : sizes d n -> (i < n)%nat -> step d e = Some (d', a) ->
  nth i (names d') None = match nth i (names d) None with
                          | Some m => Some m
                          | None => match e with
                                    | EName idx off m => if ((off + idx) mod 2 ^ 32 =? Z.of_nat i + 1) && (Z.of_nat (length m) <=? 25) then Some m else None
                                    | _ => None
                                    end
                          end.
Proof.
  intros (A & B & C) L H. destruct e as [o|p v|ix o nm|ix o v|]; cbn [step] in H.
  - injection H as <- <-. assert (names (obey d o) = names d) as -> by (unfold obey; destruct (manual d); [reflexivity|]; destruct o; reflexivity).
    destruct (nth i (names d) None); reflexivity.
  - assert (names d' = names d) as ->.
    { apply set_cmd_cases in H. destruct H as [(-> & _)|[_ H]]; [reflexivity|].
      apply set_par_by_name_cases in H. destruct H as [(-> & _)|(j & _ & _ & ->)]; reflexivity. }
    destruct (nth i (names d) None); reflexivity.
  - injection H as <- <-. unfold set_par_name, count, C_MAX_PAR_NAME_LENGTH, u32. rewrite B. cbv zeta.
    set (k := (o + ix) mod 2 ^ 32). assert (0 <= k < 2 ^ 32) by (apply Z.mod_pos_bound; lia).
    change (2 ^ 32) with 4294967296 in *. clearbody k.
    destruct (Z.eqb_spec k (Z.of_nat i + 1)) as [E|N].
    + assert ((k <=? Z.of_nat n) && (0 <? k) = true) as -> by lia. replace (Z.to_nat (k - 1)) with i by lia.
      destruct (Z.ltb_spec 25 (Z.of_nat (length nm))) as [G|G]; destruct (Z.leb_spec (Z.of_nat (length nm)) 25); try lia; cbn [andb].
      * destruct (nth i (names d) None); reflexivity.
      * destruct (nth i (names d) None) eqn:E1; [exact E1|]. cbn. apply nth_error_nth. apply put_same. lia.
    + cbn [andb]. assert (forall q : option text, match q with Some m => Some m | None => None end = q) as -> by (intros [?|]; reflexivity).
      destruct ((k <=? Z.of_nat n) && (0 <? k)) eqn:R; [|reflexivity]. destruct (25 <? _); [reflexivity|].
      destruct (nth (Z.to_nat (k - 1)) (names d) None); [reflexivity|]. cbn.
      assert (nth_error (put (names d) (Z.to_nat (k - 1)) (Some nm)) i = nth_error (names d) i) by (apply put_other; lia).
      destruct (nth_error (names d) i) eqn:E1.
      * rewrite (nth_error_nth _ _ None H0), (nth_error_nth _ _ None E1). reflexivity.
      * apply nth_error_None in E1. lia.
  - injection H as <- <-. assert (names (set_par d ix o v) = names d) as ->.
    { unfold set_par. cbv zeta. repeat match goal with |- context [if ?x then _ else _] => destruct x end; reflexivity. }
    destruct (nth i (names d) None); reflexivity.
  - injection H as <- <-. cbn. destruct (nth i (names d) None); reflexivity.
Qed.
Lemma run_names h : forall d d' l n i, sizes d n -> (i < n)%nat -> run d h = Some (d', l) ->
  nth i (names d') None = match nth i (names d) None with Some m => Some m | None => first_name i h end.
Proof.
  induction h as [|e h IH]; intros d d' l n i S L H; cbn [run] in H.
  - injection H as <- <-. cbn. destruct (nth i (names d) None); reflexivity.
  - destruct (step d e) as [[d1 a]|] eqn:E; [|discriminate]. destruct (run d1 h) as [[d2 l2]|] eqn:R; [|discriminate].
    injection H as <- <-. rewrite (IH _ _ _ _ _ (step_sizes _ _ _ _ _ S E) L R), (step_names _ _ _ _ _ _ S L E).
    destruct (nth i (names d) None); [reflexivity|]. destruct e as [o|p v|ix o nm|ix o v|]; cbn [first_name]; try reflexivity.
    destruct (_ && _); reflexivity.
Qed.
Lemma nth_err {A} (l : list (option A)) i n : length l = n -> (i < n)%nat -> nth_error l i = Some (nth i l None).
Proof. intros E L. apply nth_error_nth'. lia. Qed.

(** * Values of a parameter *)

(** All parameters up to [i] have names, and [i] is the first named [n]. *)
Definition settled (ns : list (option text)) (n : text) (i : nat) : Prop :=
  first_named ns n i /\ forall j, (j < i)%nat -> nth_error ns j <> Some None.
Lemma settled_gap ns n i : first_named ns n i -> ~ gap ns n -> settled ns n i.
Proof.
  intros F G. split; [exact F|]. intros j Hj E. apply G. exists j. split; [exact E|]. intros k Hk. apply F. lia.
Qed.
Lemma settled_find ns : forall n i, settled ns n i -> forall k, find_par ns n k = Some (Some (k + i)%nat).
Proof.
  intros n i [F N] k. destruct (find_par ns n k) as [[j|]|] eqn:E.
  - destruct (find_some _ _ _ _ E) as (q & -> & F2). rewrite (first_named_one _ _ _ _ F2 F). reflexivity.
  - exfalso. exact (find_none _ _ _ E i (proj1 F)).
  - exfalso. apply find_gap in E. destruct E as (j & E & G). destruct (Nat.lt_trichotomy j i) as [L|[->|L]].
    + exact (N _ L E).
    + destruct F as [F _]. congruence.
    + exact (G _ L (proj1 F)).
Qed.
Lemma step_settled d e d' a k n i : sizes d k -> step d e = Some (d', a) -> settled (names d) n i -> settled (names d') n i.
Proof.
  intros S H [[F1 F2] N]. pose proof S as (A & _). pose proof (step_sizes _ _ _ _ _ S H) as (A' & _).
  assert (i < k)%nat as L. { rewrite <- A. apply nth_error_Some. congruence. }
  assert (forall j, (j <= i)%nat -> nth_error (names d') j = nth_error (names d) j) as K.
  { intros j Hj. rewrite (nth_err _ _ k A'), (nth_err _ _ k A) by lia. f_equal. rewrite (step_names _ _ _ _ k j S) with (2 := H) by lia.
    destruct (nth j (names d) None) eqn:E; [reflexivity|]. exfalso. assert (nth_error (names d) j = Some None) as X by (rewrite (nth_err _ _ k A) by lia; rewrite E; reflexivity).
    destruct (Nat.eq_dec j i) as [->|NE]; [congruence|]. apply (N j); [lia|exact X]. }
  split; [split|].
  - rewrite K by lia. exact F1.
  - intros j Hj. rewrite K by lia. apply F2. exact Hj.
  - intros j Hj. rewrite K by lia. apply N. exact Hj.
Qed.
Lemma nth_put (l : list Z) i v n : length l = n -> (i < n)%nat -> nth i (put l i v) 0 = v.
Proof. intros E L. apply nth_error_nth. apply put_same. lia. Qed.
Lemma nth_put_ne (l : list Z) i j v : i <> j -> nth j (put l i v) 0 = nth j l 0.
Proof.
  intros N. destruct (nth_error l j) eqn:E.
  - rewrite (nth_error_nth _ _ 0 E). apply nth_error_nth. rewrite put_other by exact N. exact E.
  - apply nth_error_None in E. rewrite (nth_overflow l) by exact E. apply nth_overflow. rewrite put_len. exact E.
Qed.
Lemma step_track d e d' a k n i : sizes d k -> step d e = Some (d', a) -> settled (names d) n i -> hd 0 n = 80 ->
  (nth i (vals d') 0, nth i (kept d') 0) = track i n (nth i (vals d) 0, nth i (kept d) 0) e.
Proof.
  intros S H T P. pose proof S as (A & B & C).
  assert (i < k)%nat as L. { rewrite <- A. apply nth_error_Some. destruct T as [[X _] _]. congruence. }
  destruct e as [o|p v|ix o nm|ix o v|]; cbn [step track] in *.
  - injection H as <- <-. unfold obey. destruct (manual d); [reflexivity|]. destruct o; reflexivity.
  - apply set_cmd_cases in H. destruct H as [(_ & -> & -> & NP)|[HP H]].
    + destruct (list_eq_dec Z.eq_dec p n) as [->|NE]; [congruence|reflexivity].
    + unfold set_par_by_name in H. destruct (list_eq_dec Z.eq_dec p n) as [->|NE].
      * rewrite (settled_find _ _ _ T 0) in H. cbn [Nat.add] in H. injection H as <- <-. cbn [vals kept with_vals]. rewrite as_float_eq.
        rewrite (nth_put _ _ _ k B L), (nth_put _ _ _ k C L). reflexivity.
      * destruct (find_par (names d) p 0) as [[j|]|] eqn:E; [| |discriminate].
        { injection H as <- <-. cbn [vals kept with_vals]. destruct (find_some _ _ _ _ E) as (q & -> & F). cbn [Nat.add].
          assert (q <> i). { intros ->. destruct F as [F _], T as [[T _] _]. congruence. }
          rewrite !nth_put_ne by assumption. reflexivity. }
        injection H as <- <-. reflexivity.
  - injection H as <- <-. unfold set_par_name. cbv zeta. repeat match goal with |- context [match ?x with _ => _ end] => destruct x end; reflexivity.
  - injection H as <- <-. unfold set_par, count, u32. rewrite B. cbv zeta. cbn [snd].
    destruct (Z.eqb_spec (Z.of_nat k) 0); [lia|].
    set (q := (o + ix) mod 2 ^ 32). assert (0 <= q < 2 ^ 32) by (apply Z.mod_pos_bound; lia).
    change (2 ^ 32) with 4294967296 in *. clearbody q.
    destruct (Z.eqb_spec q (Z.of_nat i + 1)) as [E|N].
    + assert ((q <=? Z.of_nat k) && (0 <? q) = true) as -> by lia. replace (Z.to_nat (q - 1)) with i by lia.
      cbn [vals kept with_vals]. rewrite (nth_put _ _ _ k B L). reflexivity.
    + destruct ((q <=? Z.of_nat k) && (0 <? q)) eqn:R; cbn [vals kept with_vals]; [|reflexivity].
      rewrite nth_put_ne by lia. reflexivity.
  - injection H as <- <-. reflexivity.
Qed.
Lemma run_track h : forall d d' l k n i, sizes d k -> run d h = Some (d', l) -> settled (names d) n i -> hd 0 n = 80 ->
  (nth i (vals d') 0, nth i (kept d') 0) = fold_left (track i n) h (nth i (vals d) 0, nth i (kept d) 0).
Proof.
  induction h as [|e h IH]; intros d d' l k n i S H T P; cbn [run] in H.
  - injection H as <- <-. reflexivity.
  - destruct (step d e) as [[d1 a]|] eqn:E; [|discriminate]. destruct (run d1 h) as [[d2 l2]|] eqn:R; [|discriminate].
    injection H as <- <-. cbn [fold_left]. rewrite <- (step_track _ _ _ _ _ _ _ S E T P).
    exact (IH _ _ _ _ _ _ (step_sizes _ _ _ _ _ S E) R (step_settled _ _ _ _ _ _ _ S E T) P).
Qed.
