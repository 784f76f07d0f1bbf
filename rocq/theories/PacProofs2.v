(** Proofs about the restrictions mode and the couplers in service. *)
From Coq Require Import ZArith QArith Qround List Bool Lia Permutation.
From Verif Require Import Base TimeModel TimeProofs ErrModel PacModel PacSpec PacProofs.
Import ListNotations.
Open Scope Z_scope.

Lemma to_u32_whole v : to_u32 v = whole v.
Proof.
  unfold to_u32, whole. destruct v as [n d]. unfold Qle_bool, Qfloor. cbn [Qnum Qden inject_Z]. rewrite !Z.mul_1_r.
  change (-1 * Zpos d) with (- Zpos d).
  destruct (Z.leb_spec n (- Zpos d)) as [A|A]; cbn [orb].
  { assert (Q : Z.quot n (Zpos d) <= -1).
    { apply Z.le_trans with (Z.quot (- Zpos d) (Zpos d)); [apply Z.quot_le_mono; lia|].
      replace (- Zpos d) with (-1 * Zpos d) by lia. rewrite Z.quot_mul by lia. lia. }
    destruct (Z.leb_spec 0 (Z.quot n (Zpos d))); [lia|reflexivity]. }
  destruct (Z.leb_spec n (0 * Zpos d)) as [B|B].
  { assert (Q : Z.quot n (Zpos d) = 0).
    { destruct (Z.eq_dec n 0) as [->|N]; [reflexivity|]. rewrite <- (Z.opp_involutive n), Z.quot_opp_l by lia.
      rewrite Z.quot_small; lia. }
    rewrite Q. destruct (Z.leb_spec (2 ^ 32 * Zpos d) n); [lia|reflexivity]. }
  rewrite Z.quot_div_nonneg by lia.
  destruct (Z.leb_spec (2 ^ 32 * Zpos d) n) as [C|C].
  - assert (2 ^ 32 <= n / Zpos d) by (apply Z.div_le_lower_bound; lia).
    destruct (Z.ltb_spec (n / Zpos d) (2 ^ 32)); [lia|]. rewrite andb_false_r. reflexivity.
  - assert (0 <= n / Zpos d) by (apply Z.div_pos; lia). assert (n / Zpos d < 2 ^ 32) by (apply Z.div_lt_upper_bound; lia).
    destruct (Z.leb_spec 0 (n / Zpos d)); [|lia]. destruct (Z.ltb_spec (n / Zpos d) (2 ^ 32)); [reflexivity|lia].
Qed.

Lemma restr_run_app w a : forall r b,
  restr_run w r (a ++ b) =
  match restr_run w r a with None => None | Some r' => restr_run w r' b end.
Proof.
  induction a as [|e a IH]; intros r b; cbn [app restr_run]; [reflexivity|].
  destruct (restr_step w r e); [apply IH|reflexivity].
Qed.

Lemma run_saved w h : forall r r',
  restr_run w r h = Some r' ->
  rs_saved_mode r' = commanded (rs_saved_mode r) h /\
  (rs_time r = rs_saved_time r ->
   rs_time r' = period (rs_time r) h /\ rs_saved_time r' = rs_time r').
Proof.
  induction h as [|e h IH]; intros r r' H; cbn [restr_run] in H.
  - injection H as <-. cbn. auto.
  - destruct e as [|v t|v| |t]; cbn [restr_step] in H.
    + destruct (IH _ _ H) as (A & B). cbn in A, B. split; [exact A|].
      intros E. rewrite <- E in B. cbn. apply B. reflexivity.
    + unfold restr_set_mode in H. destruct (to_u32 v) eqn:V; [|discriminate].
      destruct (IH _ _ H) as (A & B). cbn [commanded period]. rewrite <- to_u32_whole, V. auto.
    + unfold restr_set_time in H. destruct (to_u32 v) eqn:V; [|discriminate].
      destruct (IH _ _ H) as (A & B). cbn [commanded period]. rewrite <- to_u32_whole, V. auto.
    + destruct (IH _ _ H) as (A & B). cbn in A, B. cbn [commanded period]. auto.
    + destruct (IH _ _ H) as (A & B). unfold restr_eval in A, B. cbn [commanded period].
      destruct (_ && _); cbn in A, B; auto.
Qed.

Lemma run_time w h r : restr_run w restr_init h = Some r -> rs_time r = period 120000 h.
Proof. intros H. apply (run_saved w h _ _ H). reflexivity. Qed.

(** Nothing counted: the mode stays. *)
Lemma quiet_still w es : forall r r', forallb quiet es = true -> rs_off r = 0 ->
  restr_run w r es = Some r' -> rs_mode r' = rs_mode r /\ rs_off r' = 0.
Proof.
  induction es as [|e es IH]; intros r r' Q O H; cbn [restr_run forallb] in *.
  - injection H as <-. auto.
  - apply andb_prop in Q. destruct Q as (Q1 & Q2).
    destruct e as [|v t|v| |t]; try discriminate; cbn [restr_step] in H.
    + unfold restr_set_time in H. destruct (to_u32 v); [|discriminate].
      apply IH in H; auto.
    + unfold restr_eval in H. rewrite O in H. cbn in H. auto.
Qed.

Definition measurable (w t : Z) (es : list rev_t) : Prop :=
  0 <= t /\ u32 (clock w t) <> 0 /\
  forall r, In (REval r) es ->
    t <= r /\ get_delta_millisec w (clock w r) (u32 (clock w t)) = measured w t r.

Lemma quiet_counts w t es : forall r r', forallb quiet es = true -> rs_mode r = 2 ->
  rs_time r = rs_saved_time r -> rs_off r = u32 (clock w t) ->
  measurable w t es -> restr_run w r es = Some r' ->
  (rs_mode r' = 0 \/ rs_mode r' = 2) /\
  (rs_mode r' = 0 <->
   exists a x b, es = a ++ REval x :: b /\ measured w t x > period (rs_time r) a).
Proof.
  induction es as [|e es IH]; intros r r' Q M E O G H; cbn [restr_run forallb] in *.
  - injection H as <-. rewrite M. split; [auto|]. split; [discriminate|].
    intros (a & x & b & X & _). destruct a; discriminate.
  - apply andb_prop in Q. destruct Q as (Q1 & Q2).
    destruct G as (G0 & G1 & G2).
    assert (G' : measurable w t es) by (repeat split; try assumption; intros; apply G2; right; assumption).
    destruct e as [|v u|v| |u]; try discriminate; cbn [restr_step] in H.
    + unfold restr_set_time in H. destruct (to_u32 v) as [n|] eqn:V; [|discriminate].
      edestruct IH as (I1 & I2); [exact Q2| | | |exact G'|exact H|]; cbn; auto.
      split; [exact I1|]. rewrite I2. cbn [rs_time]. split.
      * intros (a & x & b & -> & X). exists (RTime v :: a), x, b. cbn [app period]. rewrite <- to_u32_whole, V. auto.
      * intros (a & x & b & X & Y). destruct a as [|z a]; [discriminate|].
        cbn [app] in X. injection X as <- ->. cbn [period] in Y. rewrite <- to_u32_whole, V in Y. eauto.
    + unfold restr_eval in H. destruct (G2 u (or_introl eq_refl)) as (G3 & G4).
      rewrite O, G4 in H. destruct (Z.eqb_spec (u32 (clock w t)) 0) as [Z0|_]; [contradiction|].
      cbn [negb andb] in H. destruct (measured w t u >? rs_time r) eqn:X.
      * apply quiet_still in H; [|exact Q2|reflexivity]. cbn [rs_mode] in H.
        destruct H as (H & _). split; [auto|]. split; [intros _|auto].
        exists [], u, es. split; [reflexivity|]. cbn [period]. apply Z.gtb_lt in X. lia.
      * edestruct IH as (I1 & I2); [exact Q2|exact M|exact E|exact O|exact G'|exact H|].
        split; [exact I1|]. rewrite I2. split.
        -- intros (a & x & b & -> & Y). exists (REval u :: a), x, b. auto.
        -- intros (a & x & b & Y & K). destruct a as [|z a].
           ++ cbn [app] in Y. injection Y as <- <-. cbn [period] in K.
              rewrite Z.gtb_ltb in X. apply Z.ltb_ge in X. lia.
           ++ cbn [app] in Y. injection Y as <- ->. cbn [period] in K. eauto.
Qed.

Lemma measurable_32 t es : 0 <= t -> t mod 2 ^ 32 <> 0 ->
  Forall (in_range t) es -> measurable 32 t es.
Proof.
  intros H0 H1 F. split; [exact H0|]. rewrite u32_clock32. split; [exact H1|].
  intros r H. rewrite Forall_forall in F. specialize (F _ H). cbn [in_range] in F.
  split; [lia|]. apply delta_measured; lia.
Qed.

Lemma measurable_64 t es : 0 < t -> Forall (in_range t) es ->
  (forall r, In (REval r) es -> r < 2 ^ 32) -> t < 2 ^ 32 -> measurable 64 t es.
Proof.
  intros H0 F L T.
  assert (Ec : u32 (clock 64 t) = t).
  { unfold u32, clock. rewrite (Z.mod_small t (2 ^ 64)) by (change (2 ^ 64) with 18446744073709551616; lia).
    apply Z.mod_small. lia. }
  split; [lia|]. split; [rewrite Ec; lia|].
  intros r H. rewrite Forall_forall in F. specialize (F _ H). cbn [in_range] in F.
  specialize (L _ H). split; [lia|].
  rewrite delta_64 by (change (2 ^ 50) with 1125899906842624; lia).
  unfold measured, wrapped. rewrite (Z.div_small t (2 ^ 32)) by lia.
  rewrite !Z.div_small by (change (2 ^ 64) with 18446744073709551616; lia).
  cbn [one_if Z.ltb Z.compare]. lia.
Qed.

Lemma to_u32_two v : Qeq_bool v 2 = true -> to_u32 v = Some 2.
Proof.
  intros H. apply Qeq_bool_eq in H. unfold Qeq in H. cbn [Qnum Qden] in H.
  unfold to_u32. replace (Qnum v) with (2 * Zpos (Qden v)) by lia.
  rewrite Z.quot_mul by discriminate. reflexivity.
Qed.

Lemma lasting_run w h v t es r : forallb quiet es = true -> Qeq_bool v 2 = false ->
  restr_run w restr_init (h ++ RMode v t :: es) = Some r ->
  to_u32 v = Some (rs_mode r) /\ rs_saved_mode r = rs_mode r.
Proof.
  intros Q V H. rewrite restr_run_app in H.
  destruct (restr_run w restr_init h) as [r1|] eqn:H1; [|discriminate].
  cbn [restr_run restr_step] in H. unfold restr_set_mode in H. rewrite V in H.
  destruct (to_u32 v) as [n|] eqn:N; [|discriminate].
  pose proof (run_saved _ _ _ _ H) as (S1 & _).
  apply quiet_still in H; [|exact Q|reflexivity]. cbn [rs_mode rs_saved_mode] in *.
  destruct H as (H & _). split; [congruence|].
  rewrite S1, H. clear -Q. induction es as [|e es IH]; [reflexivity|].
  cbn [forallb] in Q. apply andb_prop in Q. destruct Q as (Q1 & Q2).
  destruct e; try discriminate; cbn [commanded]; auto.
Qed.

Lemma boot_run w h es r : forallb quiet es = true ->
  restr_run w restr_init (h ++ RBoot :: es) = Some r ->
  rs_mode r = commanded 0 h.
Proof.
  intros Q H. rewrite restr_run_app in H.
  destruct (restr_run w restr_init h) as [r1|] eqn:H1; [|discriminate].
  cbn [restr_run restr_step] in H.
  pose proof (run_saved _ _ _ _ H1) as (S1 & _).
  apply quiet_still in H; [|exact Q|reflexivity].
  destruct H as (H & _). rewrite H. exact S1.
Qed.

(** * Couplers *)

Lemma ce_eqb_eq a b : ce_eqb a b = true <-> a = b.
Proof.
  unfold ce_eqb. rewrite !andb_true_iff, !Z.eqb_eq.
  destruct a, b; cbn. split; [intros ((-> & ->) & ->); reflexivity|].
  intros E; injection E as -> -> ->. auto.
Qed.

Lemma existsb_ce e l : existsb (ce_eqb e) l = true <-> In e l.
Proof.
  rewrite existsb_exists. split.
  - intros (x & I & E). apply ce_eqb_eq in E. subst. exact I.
  - intros I. exists e. split; [exact I|]. apply ce_eqb_eq. reflexivity.
Qed.

Lemma in_set m c s p e : In e (cm_errors (set_global_error m c s p)) <->
  In e (cm_errors m) \/ e = ce_of c s p.
Proof.
  unfold set_global_error. destruct (existsb _ _) eqn:E.
  - apply existsb_ce in E. split; [auto|]. intros [H| ->]; assumption.
  - cbn [cm_errors]. rewrite in_app_iff. cbn. intuition.
Qed.

Lemma nodup_set m c s p : NoDup (cm_errors m) -> NoDup (cm_errors (set_global_error m c s p)).
Proof.
  intros N. unfold set_global_error. destruct (existsb _ _) eqn:E; [exact N|]. cbn [cm_errors].
  apply Permutation_NoDup with (l := ce_of c s p :: cm_errors m).
  - apply Permutation_cons_append.
  - constructor; [|exact N]. intros I. apply existsb_ce in I. congruence.
Qed.

Lemma erase_in e l : NoDup l -> forall x, In x (erase_first e l) <-> In x l /\ x <> e.
Proof.
  induction 1 as [|y l Ny N IH]; intros x; cbn [erase_first]; [cbn; tauto|].
  destruct (ce_eqb e y) eqn:E.
  - apply ce_eqb_eq in E. subst y. cbn. split; [intros I; split; [auto|intros ->; contradiction]|].
    intros ([<-|I] & D); [congruence|exact I].
  - cbn. rewrite IH. assert (y <> e) by (intros ->; assert (ce_eqb e e = true) by (apply ce_eqb_eq; reflexivity); congruence).
    split.
    + intros [<-|(I & D)]; auto.
    + intros ([<-|I] & D); auto.
Qed.

Lemma erase_nodup e l : NoDup l -> NoDup (erase_first e l).
Proof.
  induction 1 as [|y l Ny N IH]; cbn [erase_first]; [constructor|].
  destruct (ce_eqb e y) eqn:E; [exact N|]. constructor; [|exact IH].
  rewrite erase_in by exact N. tauto.
Qed.

Lemma in_reset m c s p e : NoDup (cm_errors m) ->
  (In e (cm_errors (reset_global_error m c s p)) <-> In e (cm_errors m) /\ e <> ce_of c s p).
Proof.
  intros N. unfold reset_global_error. destruct (existsb _ _) eqn:E; cbn [cm_errors].
  - apply erase_in. exact N.
  - split; [|tauto]. intros I. split; [exact I|]. intros ->. apply existsb_ce in I. congruence.
Qed.

Lemma nodup_reset m c s p : NoDup (cm_errors m) -> NoDup (cm_errors (reset_global_error m c s p)).
Proof.
  intros N. unfold reset_global_error. destruct (existsb _ _); [|exact N].
  apply erase_nodup. exact N.
Qed.

Lemma upd_length l : forall i n, length (upd_node l i n) = length l.
Proof. induction l; intros [|i] n; cbn; auto. Qed.

Lemma nth_upd l : forall i j n, nth_error (upd_node l i n) j =
  if Nat.eqb i j then match nth_error l i with None => None | Some _ => Some n end
  else nth_error l j.
Proof.
  induction l as [|x l IH]; intros [|i] [|j] n; cbn [upd_node nth_error Nat.eqb]; try reflexivity.
  - destruct (Nat.eqb i j); reflexivity.
  - apply IH.
Qed.

(** What holds after a history [h] (latest first), couplers with numbers [ks]. *)
Definition node_inv (ks : list Z) (h : list nev) (s : list snode * crit_mgr) : Prop :=
  NoDup (cm_errors (snd s)) /\
  (forall i, match nth_error ks i, nth_error (fst s) i with
             | None, None => True
             | Some k, Some n =>
                 sn_number n = k /\ sn_active n = in_service h i /\
                 sn_err n = link_alarm h i /\
                 (In (service_error k) (cm_errors (snd s)) <-> service_alarm h i = true) /\
                 (In (link_error k) (cm_errors (snd s)) <-> link_alarm h i = true)
             | _, _ => False
             end).

Lemma ce_service k : 0 <= k < 2 ^ 32 -> ce_of AC_SERVICE AS_IO_COUPLER k = service_error k.
Proof. intros H. unfold ce_of, service_error, AC_SERVICE, AS_IO_COUPLER, u32.
  f_equal; apply Z.mod_small; lia. Qed.
Lemma ce_link k : 0 <= k < 2 ^ 32 -> ce_of AC_NO_CONNECTION AS_IO_COUPLER k = link_error k.
Proof. intros H. unfold ce_of, link_error, AC_NO_CONNECTION, AS_IO_COUPLER, u32.
  f_equal; apply Z.mod_small; lia. Qed.

Lemma service_inj a b : service_error a = service_error b -> a = b.
Proof. intros E. injection E as E. exact E. Qed.
Lemma link_inj a b : link_error a = link_error b -> a = b.
Proof. intros E. injection E as E. exact E. Qed.

Lemma eqb_01 v : Qeq_bool v 1 = true -> Qeq_bool v 0 = false /\ Qeq_bool v 100 = false.
Proof.
  intros H. apply Qeq_bool_eq in H.
  split; match goal with |- ?x = false => destruct x eqn:E; [|reflexivity] end;
  apply Qeq_bool_eq in E; rewrite H in E; discriminate E.
Qed.

Lemma node_step_inv ks h s e s' : NoDup ks -> Forall (fun k => 0 <= k < 2 ^ 32) ks ->
  node_inv ks h s -> node_step s e = Some s' -> node_inv ks (e :: h) s'.
Proof.
  intros Nk Fk (N & I) H. destruct s as (ns, m). cbn [fst snd] in *.
  assert (Same : forall i j k, nth_error ks i = Some k -> nth_error ks j = Some k -> i = j).
  { intros i j k A B. apply (NoDup_nth_error ks); [exact Nk| |congruence].
    apply nth_error_Some. congruence. }
  assert (Rng : forall i k, nth_error ks i = Some k -> 0 <= k < 2 ^ 32).
  { intros i k A. rewrite Forall_forall in Fk. apply Fk. eapply nth_error_In; eauto. }
  destruct e as [idx v|j b]; cbn [node_step fst snd] in H.
  - unfold node_enabled in H.
    destruct (Nat.leb_spec idx (length ns)) as [L|L].
    + destruct idx as [|j]; [discriminate|].
      destruct (nth_error ns j) as [n|] eqn:Hn; [|discriminate].
      pose proof (I j) as Ij. rewrite Hn in Ij.
      destruct (nth_error ks j) as [kj|] eqn:Hk; [|contradiction].
      destruct Ij as (J1 & J2 & J3 & J4 & J5). rewrite J1 in H.
      pose proof (Rng _ _ Hk) as Rj.
      destruct (Qeq_bool v 1) eqn:V1; [|destruct (Qeq_bool v 0) eqn:V0;
        [|destruct (Qeq_bool v 100) eqn:V100]]; injection H as <-.
      1: destruct (eqb_01 v V1) as (V0 & V100).
      all: split; cbn [fst snd]; [auto using nodup_set, nodup_reset|].
      all: intros i; rewrite ?nth_upd; specialize (I i).
      all: cbn [in_service service_alarm link_alarm Nat.eqb].
      all: rewrite ?V1, ?V0, ?V100; cbn [orb].
      all: rewrite ?ce_service, ?ce_link by exact Rj.
      all: destruct (Nat.eqb_spec j i) as [<-|D]; [rewrite Hk, ?Hn in *|].
      all: try (rewrite Hn in I).
      all: cbn [sn_number sn_active sn_err].
      all: try (destruct (nth_error ks i) as [k|] eqn:Hi; [|exact I]).
      all: try (destruct (nth_error ns i) as [x|] eqn:Hx; [|exact I]).
      all: try (assert (Dk : k <> kj) by (intros ->; apply D; eapply Same; eauto)).
      all: rewrite ?in_reset, ?in_set by auto using nodup_set, nodup_reset.
      all: rewrite ?in_set, ?in_reset by auto using nodup_set, nodup_reset.
      all: rewrite ?ce_service, ?ce_link by exact Rj.
      all: clear Same Rng Fk Nk.
      all: try (assert (Ds : service_error k <> service_error kj)
                  by (intros X; apply Dk; apply service_inj; exact X)).
      all: try (assert (Dl : link_error k <> link_error kj)
                  by (intros X; apply Dk; apply link_inj; exact X)).
      all: try (assert (SLk : service_error k <> link_error kj) by discriminate).
      all: try (assert (LSk : link_error k <> service_error kj) by discriminate).
      all: assert (SLj : service_error kj <> link_error kj) by discriminate.
      all: assert (LSj : link_error kj <> service_error kj) by discriminate.
      all: repeat match goal with |- context [Nat.eqb ?a ?b] =>
             destruct (Nat.eqb_spec a b); [try congruence|try congruence] end.
      all: try (intuition congruence).
    + injection H as <-. split; cbn [fst snd]; [exact N|].
      intros i. specialize (I i). cbn [in_service service_alarm link_alarm].
      destruct (Nat.eqb_spec idx (S i)) as [->|D]; [|exact I].
      assert (nth_error ns i = None) as E by (apply nth_error_None; lia).
      rewrite E in *. destruct (nth_error ks i); [contradiction|exact I].
  - injection H as <-. unfold node_poll.
    destruct (nth_error ns j) as [n|] eqn:Hn.
    2:{ split; cbn [fst snd]; [exact N|].
        intros i. specialize (I i). cbn [in_service service_alarm link_alarm].
        destruct (Nat.eqb_spec i j) as [->|D]; [|exact I].
        rewrite Hn in *. destruct (nth_error ks j); [contradiction|exact I]. }
    pose proof (I j) as Ij. rewrite Hn in Ij.
    destruct (nth_error ks j) as [kj|] eqn:Hk; [|contradiction].
    destruct Ij as (J1 & J2 & J3 & J4 & J5). rewrite J1.
    pose proof (Rng _ _ Hk) as Rj.
    assert (Other : forall i, i <> j -> in_service (NPoll j b :: h) i = in_service h i /\
              service_alarm (NPoll j b :: h) i = service_alarm h i /\
              link_alarm (NPoll j b :: h) i = link_alarm h i).
    { intros i D. cbn [in_service service_alarm link_alarm].
      destruct (Nat.eqb_spec i j); [contradiction|]. auto. }
    assert (Mine : in_service (NPoll j b :: h) j = in_service h j /\
              service_alarm (NPoll j b :: h) j = service_alarm h j /\
              link_alarm (NPoll j b :: h) j = (if in_service h j then b else link_alarm h j)).
    { cbn [in_service service_alarm link_alarm]. rewrite Nat.eqb_refl. auto. }
    destruct (sn_active n) eqn:An; cbn [negb];
      [destruct b; destruct (sn_err n) eqn:En|].
    all: split; cbn [fst snd]; [auto using nodup_set, nodup_reset|].
    all: intros i; rewrite ?nth_upd; specialize (I i).
    all: destruct (Nat.eq_dec i j) as [->|D];
      [destruct Mine as (M1 & M2 & M3); rewrite ?Nat.eqb_refl, ?Hk, ?Hn in *; rewrite M1, M2, M3
      |destruct (Other i D) as (M1 & M2 & M3); rewrite M1, M2, M3].
    all: try (rewrite <- J2).
    all: try (destruct (Nat.eqb_spec j i) as [X|_]; [congruence|]).
    all: cbn [sn_number sn_active sn_err].
    all: try exact I.
    all: try (destruct (nth_error ks i) as [k|] eqn:Hi; [|exact I]).
    all: try (destruct (nth_error ns i) as [x|] eqn:Hx; [|exact I]).
    all: try (assert (Dk : k <> kj) by (intros ->; apply D; eapply Same; eauto)).
    all: rewrite ?in_reset, ?in_set by auto using nodup_set, nodup_reset.
    all: rewrite ?ce_service, ?ce_link by exact Rj.
    all: clear Same Rng Fk Nk.
    all: try (assert (Dl : link_error k <> link_error kj)
                by (intros X; apply Dk; apply link_inj; exact X)).
    all: try (assert (SLk : service_error k <> link_error kj) by discriminate).
    all: assert (SLj : service_error kj <> link_error kj) by discriminate.
    all: try (intuition congruence).
    rewrite <- J3 in J5. tauto.
Qed.

Lemma node_run_inv ks hs : forall s h s', NoDup ks -> Forall (fun k => 0 <= k < 2 ^ 32) ks ->
  node_inv ks h s -> node_run s hs = Some s' -> node_inv ks (rev hs ++ h) s'.
Proof.
  induction hs as [|e hs IH]; intros s h s' Nk Fk I H; cbn [node_run] in H.
  - injection H as <-. exact I.
  - destruct (node_step s e) as [s1|] eqn:E; [|discriminate].
    cbn [rev]. rewrite <- app_assoc. cbn [app]. eapply IH; eauto using node_step_inv.
Qed.

Lemma node_start_inv ks : node_inv ks [] (node_start ks).
Proof.
  split; cbn [node_start fst snd crit_init cm_errors]; [constructor|].
  intros i. rewrite nth_error_map. destruct (nth_error ks i); cbn; [|exact Logic.I].
  repeat split; try reflexivity; intros X; try contradiction; discriminate.
Qed.

(** A history is defined exactly when no command names coupler 0. *)
Lemma node_run_defined hs : forall s,
  node_run s hs <> None <-> ~ exists v, In (NCmd 0 v) hs.
Proof.
  induction hs as [|e hs IH]; intros s; cbn [node_run].
  - split; [intros _ (v & [])|discriminate].
  - assert (K : node_step s e = None <-> exists v, e = NCmd 0 v).
    { destruct e as [idx v|j b]; cbn [node_step].
      - unfold node_enabled. destruct (Nat.leb_spec idx (length (fst s))) as [L|L].
        + destruct idx as [|j]; [split; eauto|].
          destruct (nth_error (fst s) j) eqn:E.
          * destruct (Qeq_bool v 1), (Qeq_bool v 0), (Qeq_bool v 100); split; try discriminate;
              intros (x & X); discriminate.
          * apply nth_error_None in E. lia.
        + split; [discriminate|]. intros (x & X). injection X as -> _. lia.
      - split; [discriminate|]. intros (x & X). discriminate. }
    destruct (node_step s e) as [s1|] eqn:E.
    + rewrite IH. split; intros H (v & X); apply H.
      * destruct X as [->|X]; [|eauto].
        assert (Some s1 = None) by (apply K; eauto). discriminate.
      * exists v. right. exact X.
    + destruct K as (K & _). destruct (K eq_refl) as (v & ->). split; [congruence|].
      intros H. exfalso. apply H. exists v. left. reflexivity.
Qed.
