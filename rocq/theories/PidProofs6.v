(** Histories of the regulator: limits, loss of the measurement, switching off, start. *)
From Coq Require Import ZArith List Bool Lia QArith Qround Qpower Qabs Qminmax Lqa.
From Verif Require Import Base FTextModel FTextProofs FloatModel FloatProofs FloatProofs2 FloatProofs3 AioProofs TimeModel PidModel PidSpec PidProofs PidProofs2 PidProofs3 PidProofs4 PidProofs5.
Import ListNotations.
Open Scope Z_scope.

(** * Limits *)

Lemma limit_key lo hi v : f_isnan lo = false -> f_isnan hi = false -> key lo <= key hi ->
  f_isnan (limit lo hi v) = true \/ (f_isnan (limit lo hi v) = false /\ key lo <= key (limit lo hi v) <= key hi).
Proof.
  intros L H O. unfold limit. cbv zeta. destruct (f_isnan v) eqn:N.
  - left. destruct (lt_nan v lo N) as (-> & _). destruct (lt_nan v hi N) as (_ & ->). exact N.
  - right. rewrite (lt_key v lo N L). destruct (Z.ltb_spec (key v) (key lo)).
    + rewrite (lt_key hi lo H L). destruct (Z.ltb_spec (key hi) (key lo)); [lia|]. split; [exact L|lia].
    + rewrite (lt_key hi v H N). destruct (Z.ltb_spec (key hi) (key v)); [split; [exact H|lia]|split; [exact N|lia]].
Qed.
Lemma limit_nan lo hi v : f_isnan v = true -> f_isnan (limit lo hi v) = true.
Proof. intros N. unfold limit. cbv zeta. destruct (lt_nan v lo N) as (-> & _). destruct (lt_nan v hi N) as (_ & ->). exact N. Qed.

Definition set_limits (p : pid) (lo hi : Z) : Prop :=
  prev_manual p = false /\ f_eq (par p P_is_manual_mode) (f_of_Z 0) = true /\ par p P_out_min = lo /\ par p P_out_max = hi.

Lemma zero_eq0 : f_eq (f_of_Z 0) (f_of_Z 0) = true.
Proof. reflexivity. Qed.
Lemma reset_limits p now lo hi : set_limits p lo hi -> set_limits (reset p now) lo hi.
Proof. intros (A & B & C & D). unfold set_limits, reset. cbn [prev_manual par]. repeat split; try assumption. Qed.
Lemma on_limits p now lo hi : set_limits p lo hi -> set_limits (direct_on p now) lo hi.
Proof.
  intros H. unfold direct_on. destruct (state p =? S_ON); [exact H|]. destruct (state p =? S_OFF); [|exact H].
  exact (reset_limits (with_times p now) now lo hi H).
Qed.
Lemma off_limits p now lo hi q a : direct_off p now = (q, a) -> set_limits p lo hi -> set_limits q lo hi /\ (forall v, a <> AValue v).
Proof.
  unfold direct_off. intros E H. destruct (state p =? S_STOPPING); [|destruct (state p =? S_ON)]; inversion E; subst; clear E.
  - split; [exact (reset_limits p now lo hi H)|discriminate].
  - split; [exact H|discriminate].
  - split; [exact H|discriminate].
Qed.
Lemma eval_limits w p cur s now lo hi q o : set_limits p lo hi -> eval w p cur s now = Some (q, o) ->
  set_limits q lo hi /\ state q = state p /\ (state p = S_OFF \/ exists x, o = limit lo hi x).
Proof.
  intros (P & M & L & H) E. destruct (Z.eq_dec (state p) S_OFF) as [S|S].
  - unfold eval in E. rewrite S, Z.eqb_refl in E. inversion E; subst. split; [|split; [reflexivity|left; exact S]]. unfold set_limits. auto.
  - destruct (auto_eval w p cur s now q o) as (r & R & O & _ & PQ & _ & _ & (_ & A1 & A2) & ST); [unfold auto; auto|exact E|].
    split; [|split; [exact ST|right; exists (Uk r); rewrite O, L, H; reflexivity]]. unfold set_limits. rewrite PQ in *. auto.
Qed.
Lemma set_value_limits w p v c now lo hi q a : set_limits p lo hi -> direct_set_value w p v c now = Some (q, a) ->
  set_limits q lo hi /\ (forall x, a = AValue x -> exists y, x = limit lo hi y).
Proof.
  intros H E. unfold direct_set_value in E. cbv zeta in E. destruct (eval w _ _ _ _) as [(q' & o)|] eqn:EV; [|discriminate].
  destruct (eval_limits w (with_set p v) _ _ _ lo hi _ _ H EV) as (SL & ST & O). inversion E; subst. clear E. split; [exact SL|].
  intros x X. destruct (Z.eqb_spec (state q') S_OFF) as [Y|Y]; [discriminate|]. inversion X; subst.
  destruct O as [O|O]; [|exact O]. rewrite <- ST in O. contradiction.
Qed.

Lemma step_limits w p e lo hi q a : set_limits p lo hi -> automatic e -> step w p e = Some (q, a) ->
  set_limits q lo hi /\ (forall x, a = AValue x -> exists y, x = limit lo hi y).
Proof.
  intros H AU E. destruct e; cbn [step automatic] in *.
  - set (p1 := match not_zero_start with Some b => _ | None => p end) in E.
    assert (H1 : set_limits p1 lo hi) by (unfold p1; destruct not_zero_start; exact H).
    inversion E; subst. split; [|discriminate]. destruct (held p1); [exact H1|apply on_limits; exact H1].
  - destruct (held p); [inversion E; subst; split; [exact H|discriminate]|]. inversion E as [E']. destruct (off_limits _ _ lo hi _ _ E' H) as (H1 & H2).
    split; [exact H1|]. intros x X. exfalso. exact (H2 x X).
  - destruct (n =? S_OFF); [|destruct (n =? S_ON)].
    + inversion E as [E']. destruct (off_limits _ _ lo hi _ _ E' H) as (H1 & H2). split; [exact H1|]. intros x X. exfalso. exact (H2 x X).
    + inversion E; subst. split; [apply on_limits; exact H|discriminate].
    + inversion E; subst. split; [exact H|discriminate].
  - destruct (_ && _); [|inversion E; subst; split; [exact H|discriminate]].
    inversion E as [E']. destruct (off_limits _ _ lo hi _ _ E' H) as (H1 & H2). split; [exact H1|]. intros x X. exfalso. exact (H2 x X).
  - destruct (held p); [inversion E; subst; split; [exact H|discriminate]|]. exact (set_value_limits _ _ _ _ _ _ _ _ _ H E).
  - exact (set_value_limits _ _ _ _ _ _ _ _ _ H E).
  - destruct (eval w p current sign now) as [(q' & o)|] eqn:EV; [|discriminate]. inversion E; subst.
    split; [exact (proj1 (eval_limits _ _ _ _ _ _ _ _ _ H EV))|discriminate].
  - inversion E; subst. split; [exact H|discriminate].
  - inversion E; subst. split; [exact H|discriminate].
  - inversion E; subst. split; [exact H|discriminate].
  - inversion E; subst. split; [|discriminate]. destruct (_ && _); [|exact H]. destruct H as (P & M & L & HH). destruct AU as (A8 & A13 & A14).
    unfold set_limits, set_par. cbn [prev_manual par]. split; [exact P|].
    destruct (Z.eqb_spec P_is_manual_mode i) as [X|X]; [unfold P_is_manual_mode in X; lia|].
    destruct (Z.eqb_spec P_out_min i) as [Y|Y]; [unfold P_out_min in Y; lia|].
    destruct (Z.eqb_spec P_out_max i) as [V|V]; [unfold P_out_max in V; lia|]. auto.
  - destruct (_ && _); [|inversion E; subst; split; [exact H|discriminate]]. cbv zeta in E.
    destruct (_ || _); inversion E; subst; (split; [|discriminate]); [exact H|]. destruct H as (P & M & L & HH). destruct AU as (A8 & A13 & A14).
    unfold set_limits, set_par. cbn [prev_manual par]. split; [exact P|].
    destruct (Z.eqb_spec P_is_manual_mode i) as [X|X]; [unfold P_is_manual_mode in X; lia|].
    destruct (Z.eqb_spec P_out_min i) as [Y|Y]; [unfold P_out_min in Y; lia|].
    destruct (Z.eqb_spec P_out_max i) as [V|V]; [unfold P_out_max in V; lia|]. auto.
  - inversion E; subst. split; [exact H|discriminate].
Qed.
Lemma run_limits w h lo hi : Forall automatic h -> forall p q l, set_limits p lo hi -> run w p h = Some (q, l) ->
  set_limits q lo hi /\ forall x, In (AValue x) l -> exists y, x = limit lo hi y.
Proof.
  induction 1 as [|e h A _ IH]; intros p q l H E; cbn [run] in E.
  - inversion E; subst. split; [exact H|intros x []].
  - destruct (step w p e) as [(p1 & a)|] eqn:S; [|discriminate]. destruct (run w p1 h) as [(p2 & l2)|] eqn:R; [|discriminate]. inversion E; subst. clear E.
    destruct (step_limits _ _ _ _ _ _ _ H A S) as (H1 & H2). destruct (IH _ _ _ H1 R) as (H3 & H4). split; [exact H3|].
    intros x [X|X]; [apply H2; exact X|apply H4; exact X].
Qed.

(** * Not a number *)

Definition lost (p : pid) : Prop := auto p /\ state p = S_ON /\ f_isnan (uk_1 p) = true /\ f_isnan (Uk p) = true.
Lemma nan_add a b : f_isnan a = true \/ f_isnan b = true -> f_isnan (f_add a b) = true.
Proof. intros H. destruct (f_isnan (f_add a b)) eqn:E; [reflexivity|]. apply add_nn in E. destruct E, H; congruence. Qed.
Lemma nan_mul a b : f_isnan a = true \/ f_isnan b = true -> f_isnan (f_mul a b) = true.
Proof. intros H. destruct (f_isnan (f_mul a b)) eqn:E; [reflexivity|]. apply mul_nn in E. destruct E, H; congruence. Qed.
Lemma nan_div a b : f_isnan a = true \/ f_isnan b = true -> f_isnan (f_div a b) = true.
Proof. intros H. destruct (f_isnan (f_div a b)) eqn:E; [reflexivity|]. apply div_nn in E. destruct E, H; congruence. Qed.
Lemma nan_sub a b : f_isnan a = true \/ f_isnan b = true -> f_isnan (f_sub a b) = true.
Proof. intros H. destruct (f_isnan (f_sub a b)) eqn:E; [reflexivity|]. apply sub_nn in E. destruct E, H; congruence. Qed.
Lemma nan_clamp v : f_isnan v = true -> f_isnan (clamp MIN_OUT MAX_OUT v) = true.
Proof. intros N. unfold clamp. cbv zeta. destruct (lt_nan v MAX_OUT N) as (_ & ->). destruct (lt_nan v MIN_OUT N) as (-> & _). exact N. Qed.
Lemma nan_accelerated w p now v v' : f_isnan v = true -> accelerated w p now v = Some v' -> f_isnan v' = true.
Proof.
  intros N. unfold accelerated. destruct (f_to_u32 _) as [n|]; [|discriminate]. cbv zeta. intros E. injection E as E'. rewrite <- E'. clear E'.
  destruct (_ <? _); [|exact N]. destruct (f_true _).
  - match goal with |- context [f_lt ?r v] => destruct (lt_nan v r N) as (_ & X); rewrite X end. exact N.
  - match goal with |- context [f_lt v ?r] => destruct (lt_nan v r N) as (X & _); rewrite X end. exact N.
Qed.

Lemma lost_recalc w p cur s now q : auto p -> state p = S_ON -> recalc w p cur s now = Some q ->
  (due w p now = true -> f_isnan (uk_1 p) = true \/ f_isnan cur = true) -> (due w p now = false -> f_isnan (uk_1 p) = true /\ f_isnan (Uk p) = true) ->
  f_isnan (uk_1 q) = true /\ f_isnan (Uk q) = true.
Proof.
  intros AU ON R H1 H2. destruct (due w p now) eqn:D.
  - destruct (used_gains p) as ((K & TI) & TD) eqn:UG. destruct (recalc_fields _ _ _ _ _ _ _ _ _ UG D R) as (U & _ & _ & A & _).
    assert (NU : f_isnan (uk_1 q) = true).
    { rewrite U. apply nan_clamp, nan_add. destruct (H1 eq_refl) as [X|X]; [left; exact X|right]. unfold increment. cbv zeta.
      apply nan_add. left. apply nan_add. left. apply nan_mul. right. unfold error. cbv zeta. apply nan_div. left. apply nan_mul. right. apply nan_sub. right. exact X. }
    split; [exact NU|]. exact (nan_accelerated _ _ _ _ _ NU A).
  - rewrite not_due in R by exact D. inversion R; subst. apply H2. reflexivity.
Qed.
Lemma lost_eval w p cur s now q o : auto p -> state p = S_ON -> eval w p cur s now = Some (q, o) ->
  (due w p now = true -> f_isnan (uk_1 p) = true \/ f_isnan cur = true) -> (due w p now = false -> f_isnan (uk_1 p) = true /\ f_isnan (Uk p) = true) ->
  lost q /\ f_isnan o = true.
Proof.
  intros AU ON E H1 H2. destruct (auto_eval _ _ _ _ _ _ _ AU E) as (r & R & O & Q & PQ & UQ & _ & AQ & ST).
  destruct (lost_recalc _ _ _ _ _ _ AU ON R H1 H2) as (N1 & N2).
  assert (NO : f_isnan o = true) by (rewrite O; apply limit_nan; exact N2).
  split; [|exact NO]. split; [exact AQ|]. split; [congruence|]. split; [|congruence].
  destruct (recalc_par _ _ _ _ _ _ R) as (RP & RS & RM & _). destruct AU as (_ & A2 & A3).
  destruct (auto_finish r now) as (_ & _ & _ & _ & _ & X & _); [congruence|rewrite RP; exact A3|]. rewrite Q, X. exact N1.
Qed.
Definition no_number (a : act) : Prop := match a with AValue v | AResult v => f_isnan v = true | _ => True end.
Lemma lost_value w p v c now q a : auto p -> state p = S_ON -> direct_set_value w p v c now = Some (q, a) ->
  (due w p now = true -> f_isnan (uk_1 p) = true \/ f_isnan c = true) -> (due w p now = false -> f_isnan (uk_1 p) = true /\ f_isnan (Uk p) = true) ->
  lost q /\ no_number a.
Proof.
  intros AU ON E H1 H2. unfold direct_set_value in E. cbv zeta in E. destruct (eval w _ _ _ _) as [(q' & o)|] eqn:EV; [|discriminate].
  destruct (lost_eval w (with_set p v) _ _ _ _ _ AU ON EV H1 H2) as (L & N). inversion E; subst. split; [exact L|].
  destruct (state q' =? S_OFF); [exact I|exact N].
Qed.
Lemma step_lost w p e q a : lost p -> undisturbed e -> step w p e = Some (q, a) -> lost q /\ no_number a.
Proof.
  intros (AU & ON & N1 & N2) U E. assert (L : lost p) by (split; [exact AU|auto]). destruct e; cbn [step undisturbed] in *; try contradiction.
  - rewrite ON in E. change (S_ON =? S_STOPPING) with false in E. inversion E; subst. split; [exact L|exact I].
  - destruct (held p); [inversion E; subst; split; [exact L|exact I]|]. apply (lost_value _ _ _ _ _ _ _ AU ON E); auto.
  - apply (lost_value _ _ _ _ _ _ _ AU ON E); auto.
  - destruct (eval w p current sign now) as [(q' & o)|] eqn:EV; [|discriminate]. inversion E; subst.
    destruct (lost_eval _ _ _ _ _ _ _ AU ON EV ltac:(auto) ltac:(auto)) as (L1 & NO). split; [exact L1|exact NO].
  - inversion E; subst. split; [exact L|exact I].
  - inversion E; subst. split; [exact L|exact I].
  - inversion E; subst. split; [|exact I]. destruct (_ && _); [|exact L]. destruct AU as (A1 & A2 & A3).
    split; [|split; [exact ON|split; [exact N1|exact N2]]]. split; [exact A1|]. split; [exact A2|]. unfold set_par. cbn [par].
    destruct (Z.eqb_spec P_is_manual_mode i) as [X|X]; [unfold P_is_manual_mode in X; lia|exact A3].
  - destruct (_ && _); [|inversion E; subst; split; [exact L|exact I]]. cbv zeta in E. destruct (_ || _); inversion E; subst; (split; [|exact I]); [exact L|].
    destruct AU as (A1 & A2 & A3).
    split; [|split; [exact ON|split; [exact N1|exact N2]]]. split; [exact A1|]. split; [exact A2|]. unfold set_par. cbn [par].
    destruct (Z.eqb_spec P_is_manual_mode i) as [X|X]; [unfold P_is_manual_mode in X; lia|exact A3].
  - inversion E; subst. split; [exact L|exact I].
Qed.
Lemma run_lost w h : Forall undisturbed h -> forall p q l, lost p -> run w p h = Some (q, l) -> lost q /\ Forall no_number l.
Proof.
  induction 1 as [|e h A _ IH]; intros p q l H E; cbn [run] in E.
  - inversion E; subst. split; [exact H|constructor].
  - destruct (step w p e) as [(p1 & a)|] eqn:S; [|discriminate]. destruct (run w p1 h) as [(p2 & l2)|] eqn:R; [|discriminate]. inversion E; subst. clear E.
    destruct (step_lost _ _ _ _ _ H A S) as (H1 & H2). destruct (IH _ _ _ H1 R) as (H3 & H4). split; [exact H3|]. constructor; assumption.
Qed.

(** * Switched off *)

Definition rest (a : act) : Prop :=
  match a with AValue _ => False | AResult v => v = MIN_OUT \/ v = MAX_OUT | _ => True end.
Lemma off_off p now : state p = S_OFF -> direct_off p now = (p, ANone).
Proof. intros S. unfold direct_off. rewrite S. reflexivity. Qed.
Lemma off_eval w p c s now q o : state p = S_OFF -> eval w p c s now = Some (q, o) -> q = p /\ (o = MIN_OUT \/ o = MAX_OUT).
Proof. intros S E. unfold eval in E. rewrite S, Z.eqb_refl in E. inversion E; subst. split; [reflexivity|]. destruct (f_true _); auto. Qed.
Lemma off_value w p v c now q a : state p = S_OFF -> direct_set_value w p v c now = Some (q, a) -> state q = S_OFF /\ a = AOff.
Proof.
  intros S E. unfold direct_set_value in E. cbv zeta in E. destruct (eval w _ _ _ _) as [(q' & o)|] eqn:EV; [|discriminate].
  destruct (off_eval w (with_set p v) _ _ _ _ _ S EV) as (X & _). inversion E; subst. change (state (with_set p v)) with (state p). rewrite S, Z.eqb_refl. auto.
Qed.
Lemma step_off w p e q a : state p = S_OFF -> not_on e -> step w p e = Some (q, a) -> state q = S_OFF /\ rest a.
Proof.
  intros S N E. destruct e; cbn [step not_on] in *; try contradiction.
  - rewrite off_off in E by exact S. destruct (held p); inversion E; subst; split; try exact S; exact I.
  - destruct (n =? S_OFF); [rewrite off_off in E by exact S; inversion E; subst; split; try exact S; exact I|].
    destruct (Z.eqb_spec n S_ON); [contradiction|]. inversion E; subst; split; try exact S; exact I.
  - rewrite S in E. change (S_OFF =? S_STOPPING) with false in E. inversion E; subst; split; try exact S; exact I.
  - destruct (held p); [inversion E; subst; split; try exact S; exact I|]. destruct (off_value _ _ _ _ _ _ _ S E) as (X & ->). split; [exact X|exact I].
  - destruct (off_value _ _ _ _ _ _ _ S E) as (X & ->). split; [exact X|exact I].
  - destruct (eval w p current sign now) as [(q' & o)|] eqn:EV; [|discriminate]. inversion E; subst. destruct (off_eval _ _ _ _ _ _ _ S EV) as (-> & X). split; [exact S|exact X].
  - inversion E; subst; split; try exact S; exact I.
  - inversion E; subst; split; try exact S; exact I.
  - inversion E; subst; split; try exact S; exact I.
  - inversion E; subst. destruct (_ && _); split; try exact S; exact I.
  - destruct (_ && _); [|inversion E; subst; split; try exact S; exact I]. cbv zeta in E. destruct (_ || _); inversion E; subst; split; try exact S; exact I.
  - inversion E; subst; split; try exact S; exact I.
Qed.
Lemma run_off w h : Forall not_on h -> forall p q l, state p = S_OFF -> run w p h = Some (q, l) -> state q = S_OFF /\ Forall rest l.
Proof.
  induction 1 as [|e h A _ IH]; intros p q l H E; cbn [run] in E.
  - inversion E; subst. split; [exact H|constructor].
  - destruct (step w p e) as [(p1 & a)|] eqn:S; [|discriminate]. destruct (run w p1 h) as [(p2 & l2)|] eqn:R; [|discriminate]. inversion E; subst. clear E.
    destruct (step_off _ _ _ _ _ H A S) as (H1 & H2). destruct (IH _ _ _ H1 R) as (H3 & H4). split; [exact H3|]. constructor; assumption.
Qed.
