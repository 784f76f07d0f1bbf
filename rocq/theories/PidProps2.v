(** Properties of the regulator: manual mode, start and switching (C71-C73). *)
From Coq Require Import ZArith List Bool Lia QArith Qround Qpower Qabs Qminmax Lqa.
From Verif Require Import Base FTextModel FTextProofs FloatModel FloatProofs FloatProofs2 FloatProofs3 AioProofs TimeModel PidModel PidSpec.
From Verif Require Import PidProofs PidProofs2 PidProofs3 PidProofs4 PidProofs5 PidProofs6 PidProofs7 PidProps.
Import ListNotations.
Open Scope Z_scope.

(** * C71: manual mode *)

Definition one : Z := f_of_Z 1.
Lemma f_true_one a : f_eq one a = true -> f_true a = true /\ f_eq a (f_of_Z 0) = false.
Proof.
  intros E. assert (X : f_eq a (f_of_Z 0) = false); [|unfold f_true; rewrite X; auto].
  destruct (f_eq a (f_of_Z 0)) eqn:Y; [|reflexivity]. apply f_eq_spec in E, Y. destruct E as (_ & _ & E), Y as (_ & _ & Y). rewrite <- E in Y. vm_compute in Y. discriminate Y.
Qed.
(** An evaluation of a regulator in manual mode. *)
Lemma manual_finish p now : f_eq one (par p 8) = true ->
  let q := finish p now in let m := if prev_manual p then par p 9 else out_value p in
  out_value q = m /\ par q 9 = m /\ par q 8 = par p 8 /\ prev_manual q = true /\ state q = state p /\ held q = held p.
Proof.
  intros M. destruct (f_true_one _ M) as (T & N). cbv zeta. unfold finish, entered. change P_is_manual_mode with 8. change P_U_manual with 9. rewrite T. cbn [andb].
  destruct (prev_manual p) eqn:PM; cbn [negb]; cbv iota; cbn [par prev_manual].
  - rewrite N. cbn [andb]. cbn [out_value par prev_manual state held]. unfold one in M. rewrite M. auto 10.
  - change (8 =? 9) with false. cbv iota. rewrite N. cbn [andb]. cbn [out_value par prev_manual state held]. change (8 =? 9) with false. cbv iota.
    unfold one in M. rewrite M. change (9 =? 9) with true. cbv iota. auto 10.
Qed.
Lemma recalc_held w p c s now q : recalc w p c s now = Some q -> held q = held p.
Proof.
  unfold recalc. destruct (gains p) as ((K & TI) & TD). cbv zeta. destruct (f_lt _ _).
  - destruct (accelerated _ _ _ _); [|discriminate]. intros E; inversion E; reflexivity.
  - intros E; inversion E; reflexivity.
Qed.
Lemma manual_eval w p c s now q o : state p <> 0 -> f_eq one (par p 8) = true -> eval w p c s now = Some (q, o) ->
  let m := if prev_manual p then par p 9 else out_value p in
  o = m /\ par q 9 = m /\ par q 8 = par p 8 /\ prev_manual q = true /\ state q = state p /\ held q = held p.
Proof.
  intros S M E. unfold eval in E. destruct (Z.eqb_spec (state p) S_OFF); [contradiction|].
  destruct (recalc w p c s now) as [r|] eqn:R; [|discriminate]. cbv zeta in E. inversion E; subst. clear E.
  destruct (recalc_par _ _ _ _ _ _ R) as (RP & RS & RM & _).
  assert (RO : out_value r = out_value p).
  { revert R. unfold recalc. destruct (gains p) as ((K & TI) & TD). cbv zeta. destruct (f_lt _ _); [destruct (accelerated _ _ _ _); [|discriminate]|]; intros E; inversion E; reflexivity. }
  destruct (manual_finish r now) as (F1 & F2 & F3 & F4 & F5 & F6); [rewrite RP; exact M|]. cbv zeta in *.
  rewrite RM, RP, RO in *. rewrite (recalc_held _ _ _ _ _ _ R) in F6. rewrite RS in F5. auto 10.
Qed.
Lemma manual_value w p v c now q a : state p <> 0 -> f_eq one (par p 8) = true -> direct_set_value w p v c now = Some (q, a) ->
  let m := if prev_manual p then par p 9 else out_value p in
  a = AValue m /\ out_value q = m /\ par q 9 = m /\ par q 8 = par p 8 /\ prev_manual q = true /\ state q = state p /\ held q = held p.
Proof.
  intros S M E. unfold direct_set_value in E. cbv zeta in E. destruct (eval w (with_set p v) _ _ _) as [(q' & o)|] eqn:EV; [|discriminate].
  destruct (manual_eval w (with_set p v) _ _ _ _ _ S M EV) as (F1 & F2 & F3 & F4 & F5 & F6). cbv zeta in *. cbn [with_set prev_manual par out_value state held] in *.
  inversion E; subst. rewrite F5. destruct (Z.eqb_spec (state p) S_OFF); [contradiction|]. cbn [with_out out_value par prev_manual state held]. auto 10.
Qed.

(** Switching manual mode on does not move the actuator. *)
Theorem C71_enter w p v c t v' c' t' q o1 o2 a : state p <> 0 -> prev_manual p = false -> f_eq (par p 8) (f_of_Z 0) = true ->
  run w p [PCmdValue v c t; PPar 8 (f_of_Z 1); PCmdValue v' c' t'] = Some (q, [AValue o1; a; AValue o2]) ->
  o2 = o1 /\ par q 9 = o1.
Proof.
  intros S PM M R. cbn [run] in R. destruct (step w p (PCmdValue v c t)) as [(p1 & a1)|] eqn:S1; [|discriminate]. cbn [step] in S1.
  destruct (value_auto w p v c t p1 a1 (conj S (conj PM M)) S1) as (r & _ & A & _ & _ & _ & _ & _ & OUT & (_ & AQ & _) & SQ & PQ).
  change (step w p1 (PPar 8 (f_of_Z 1))) with (Some (set_par p1 8 (f_of_Z 1), ANone)) in R. cbv iota beta in R.
  destruct (step w (set_par p1 8 (f_of_Z 1)) (PCmdValue v' c' t')) as [(p2 & a2)|] eqn:S2; [|discriminate]. cbn [step] in S2.
  destruct (manual_value w (set_par p1 8 (f_of_Z 1)) v' c' t' p2 a2) as (A2 & _ & P9 & _); [|reflexivity|exact S2|].
  { cbn [set_par state]. rewrite SQ. exact S. }
  cbv zeta in *. cbn [set_par prev_manual out_value] in *. rewrite AQ in *. inversion R; subst. inversion H1; subst. inversion H3; subst. split; congruence.
Qed.

(** What manual mode should send: the manual value last written. *)
Fixpoint manual_values (m : Z) (h : list pev) : list (option Z) :=
  match h with
  | [] => []
  | PValue _ _ _ :: h' | PCmdValue _ _ _ :: h' | PEval _ _ _ :: h' => Some m :: manual_values m h'
  | PPar i v :: h' => None :: manual_values (if i =? 9 then v else m) h'
  | _ :: h' => None :: manual_values m h'
  end.
Definition value_of (a : act) : option Z := match a with AValue v | AResult v => Some v | _ => None end.
Definition in_manual (e : pev) : Prop :=
  match e with
  | PValue _ _ _ | PCmdValue _ _ _ | PEval _ _ _ | PSet _ | PUsed _ | POldOut _ => True
  | PPar i _ => i <> 8
  | _ => False
  end.
Theorem C71_hold w h : Forall in_manual h -> forall p q l, state p = 1 -> held p = false -> prev_manual p = true -> f_eq (f_of_Z 1) (par p 8) = true ->
  run w p h = Some (q, l) -> map value_of l = manual_values (par p 9) h.
Proof.
  induction 1 as [|e h A _ IH]; intros p q l S HE PM M R; cbn [run] in R.
  - inversion R; subst. reflexivity.
  - destruct (step w p e) as [(p1 & a)|] eqn:S1; [|discriminate]. destruct (run w p1 h) as [(p2 & l2)|] eqn:R2; [|discriminate]. inversion R; subst. clear R.
    assert (NS : state p <> 0) by (rewrite S; discriminate).
    destruct e; cbn [in_manual step] in *; try contradiction; cbn [map manual_values].
    + rewrite HE in S1. destruct (manual_value w p _ _ _ _ _ NS M S1) as (X1 & X2 & X3 & X4 & X5 & X6 & X7). cbv zeta in *. rewrite PM in *.
      rewrite (IH p1 q l2); [|congruence|congruence|exact X5|rewrite X4; exact M|exact R2]. rewrite X1, X3. reflexivity.
    + destruct (manual_value w p _ _ _ _ _ NS M S1) as (X1 & X2 & X3 & X4 & X5 & X6 & X7). cbv zeta in *. rewrite PM in *.
      rewrite (IH p1 q l2); [|congruence|congruence|exact X5|rewrite X4; exact M|exact R2]. rewrite X1, X3. reflexivity.
    + destruct (eval w p current sign now) as [(q' & o)|] eqn:EV; [|discriminate]. inversion S1; subst.
      destruct (manual_eval w p _ _ _ _ _ NS M EV) as (X1 & X3 & X4 & X5 & X6 & X7). cbv zeta in *. rewrite PM in *.
      rewrite (IH p1 q l2); [|congruence|congruence|exact X5|rewrite X4; exact M|exact R2]. rewrite X1, X3. reflexivity.
    + inversion S1; subst. rewrite (IH (with_set p v) q l2 S HE PM M R2). reflexivity.
    + inversion S1; subst. rewrite (IH (with_out p v) q l2 S HE PM M R2). reflexivity.
    + inversion S1; subst. rewrite (IH (with_used p (if (n <? 1) || (2 <? n) then 1 else n)) q l2 S HE PM M R2). reflexivity.
    + inversion S1; subst. clear S1. destruct (Z.leb_spec 1 i); destruct (Z.leb_spec i PARAMS); cbn [andb] in *; unfold PARAMS in *.
      * assert (E8 : par (set_par p i v) 8 = par p 8) by (unfold set_par; cbn [par]; destruct (Z.eqb_spec 8 i); [congruence|reflexivity]).
        rewrite (IH (set_par p i v) q l2); [|exact S|exact HE|exact PM|rewrite E8; exact M|exact R2]. cbn [value_of]. f_equal. f_equal.
        unfold set_par. cbn [par]. rewrite Z.eqb_sym. reflexivity.
      * destruct (Z.eqb_spec i 9); [lia|]. rewrite (IH p q l2 S HE PM M R2). reflexivity.
      * destruct (Z.eqb_spec i 9); [lia|]. rewrite (IH p q l2 S HE PM M R2). reflexivity.
      * lia.
Qed.

(** Switching it off: the first value is still the manual one. *)
Lemma left_finish p now : prev_manual p = true -> f_eq (par p 8) (f_of_Z 0) = true -> finish p now = left_manual p now.
Proof. intros PM M. unfold finish, entered. change P_is_manual_mode with 8. unfold f_true. rewrite PM, M. cbn [negb andb]. rewrite M, PM. reflexivity. Qed.
Lemma left_value w p v c now q a : state p = 1 -> prev_manual p = true -> f_eq (par p 8) (f_of_Z 0) = true ->
  direct_set_value w p v c now = Some (q, a) ->
  a = AValue (par p 9) /\ working q /\ start_time q = now /\ Uk q = (if f_true (par p 16) then f_of_Z 0 else f_of_Z 100) /\
  (forall i, i <> 8 -> par q i = par p i) /\ (due w p now = false -> last_time q = last_time p).
Proof.
  intros S PM M E. unfold direct_set_value in E. cbv zeta in E. destruct (eval w (with_set p v) _ _ _) as [(q' & o)|] eqn:EV; [|discriminate].
  unfold eval in EV. change (state (with_set p v)) with (state p) in EV. rewrite S in EV. change (1 =? S_OFF) with false in EV. cbv iota in EV.
  destruct (recalc w (with_set p v) _ _ now) as [r|] eqn:R; [|discriminate]. cbv zeta in EV. inversion EV; subst. clear EV.
  destruct (recalc_par _ _ _ _ _ _ R) as (RP & RS & RM & _).
  rewrite left_finish in E by (rewrite ?RM, ?RP; assumption). change (state (left_manual r now)) with (state r) in E. rewrite RS in E.
  change (state (with_set p v)) with (state p) in E. rewrite S in E. change (1 =? S_OFF) with false in E. cbv iota in E. inversion E; subst. clear E.
  unfold left_manual. cbv zeta. cbn [out_value with_out start_time Uk par last_time]. unfold reset. cbn [par last_time Uk].
  change (P_U_manual =? P_is_manual_mode) with false. cbv iota. rewrite RP. change (par (with_set p v)) with (par p).
  split; [reflexivity|]. split; [|split; [reflexivity|split; [reflexivity|split]]].
  - unfold working. cbn [state prev_manual par]. split; [rewrite RS; exact S|]. split; [reflexivity|]. exact zero_eq0.
  - intros i I. destruct (Z.eqb_spec i P_is_manual_mode); [contradiction|reflexivity].
  - intros D. rewrite not_due in R by exact D. inversion R; reflexivity.
Qed.
Theorem C71_leave w p v c t q a : state p = 1 -> prev_manual p = true -> f_eq (par p 8) (f_of_Z 0) = true ->
  step w p (PCmdValue v c t) = Some (q, a) -> a = AValue (par p 9).
Proof. intros S PM M E. cbn [step] in E. apply (left_value w p v c t q a S PM M E). Qed.
(** It does not stay there: until a recalculation is due the next values are the end of the
    scale the regulator starts from, inside the limits. *)
Theorem C71_jump_refuted w p v c t q a v' c' t' r a' : (0 <= w <= 64) -> reached w p -> state p = 1 -> prev_manual p = true -> f_eq (par p 8) (f_of_Z 0) = true ->
  (f_val (par p 4) <= Qpower 2 20)%Q -> last_time p <= t <= t' -> t' <= last_time p + 2 ^ 64 -> (inject_Z (t' - last_time p) <= interval_ms p - 1)%Q ->
  step w p (PCmdValue v c t) = Some (q, a) -> step w q (PCmdValue v' c' t') = Some (r, a') ->
  a' = AValue (limit (par p 14) (par p 13) (if f_true (par p 16) then f_of_Z 0 else f_of_Z 100)).
Proof.
  intros W RE S PM M L20 T T' D E1 E2. cbn [step] in E1, E2. destruct (reached_sound w p W RE) as (SO & TN).
  assert (D1 : due w p t = false).
  { apply (proj2 (past_due w p t W TN L20 ltac:(lia))). eapply Qle_trans; [|exact D]. rewrite <- Zle_Qle. lia. }
  destruct (left_value w p v c t q a S PM M E1) as (_ & WO & _ & UQ & PQ & LT). specialize (LT D1).
  destruct (value_auto w q v' c' t' r a' (working_auto q WO) E2) as (x & R & A & _).
  assert (D2 : due w (with_set q v') t' = false).
  { change (due w (with_set q v') t') with (due w q t'). unfold due, interval. rewrite LT, PQ by discriminate.
    apply (proj2 (past_due w p t' W TN L20 ltac:(lia))). exact D. }
  rewrite not_due in R by exact D2. inversion R; subst x. rewrite A. change (Uk (with_set q v')) with (Uk q). rewrite UQ, !PQ by discriminate. reflexivity.
Qed.

(** Only the value one is manual mode: with any other the manual value is lost and the
    regulator goes on. *)
Theorem C71_other_refuted w p v c t q a : state p <> 0 -> prev_manual p = false -> f_eq (par p 8) (f_of_Z 0) = false -> f_eq (f_of_Z 1) (par p 8) = false ->
  step w p (PCmdValue v c t) = Some (q, a) ->
  par q 9 = out_value p /\ exists y, a = AValue (limit (par p 14) (par p 13) y).
Proof.
  intros S PM M0 M1 E. cbn [step] in E. unfold direct_set_value in E. cbv zeta in E. destruct (eval w (with_set p v) _ _ _) as [(q' & o)|] eqn:EV; [|discriminate].
  unfold eval in EV. change (state (with_set p v)) with (state p) in EV. destruct (Z.eqb_spec (state p) S_OFF); [contradiction|].
  destruct (recalc w (with_set p v) _ _ t) as [r|] eqn:R; [|discriminate]. cbv zeta in EV. inversion EV; subst. clear EV.
  destruct (recalc_par _ _ _ _ _ _ R) as (RP & RS & RM & _).
  assert (RO : out_value r = out_value p).
  { revert R. unfold recalc. destruct (gains (with_set p v)) as ((K & TI) & TD). cbv zeta. destruct (f_lt _ _); [destruct (accelerated _ _ _ _); [|discriminate]|]; intros E'; inversion E'; reflexivity. }
  change (par (with_set p v)) with (par p) in RP. change (prev_manual (with_set p v)) with (prev_manual p) in RM. change (state (with_set p v)) with (state p) in RS.
  revert E. unfold finish, entered. change P_is_manual_mode with 8. change P_U_manual with 9. unfold f_true. rewrite RP, M0, RM, PM. cbn [negb andb par prev_manual].
  change (8 =? 9) with false. cbv iota. rewrite ?RP, M0. cbn [andb]. cbn [par state]. change (8 =? 9) with false. cbv iota. rewrite ?RP, M1. cbn [state]. rewrite RS.
  destruct (Z.eqb_spec (state p) S_OFF); [contradiction|]. intros E. inversion E; subst. cbn [with_out par]. change (9 =? 9) with true. cbv iota.
  split; [exact RO|]. change (P_out_min =? 9) with false. change (P_out_max =? 9) with false. cbv iota. rewrite ?RP. eexists. reflexivity.
Qed.
(** The manual value is not kept inside the limits. *)
Theorem C71_limits_refuted : exists p l,
  run 64 (init (ex_par 0 0) 0) [POn None 0; PValue (f_of_Z 50) (f_of_Z 45) 1500; PPar 8 (f_of_Z 1); PValue (f_of_Z 50) (f_of_Z 45) 2000;
    PPar 9 (f_of_Z 150); PValue (f_of_Z 50) (f_of_Z 45) 2600] = Some (p, l) /\ In (AValue (f_of_Z 150)) l.
Proof. eexists. eexists. split; [vm_compute; reflexivity|]. vm_compute. auto 10. Qed.
(** Switched off in manual mode and on again, the regulator starts from the old manual value. *)
Theorem C71_restart_refuted : exists p l,
  run 64 (init (ex_par 0 0) 0) [POn None 0; PPar 8 (f_of_Z 1); PValue (f_of_Z 50) (f_of_Z 45) 2000; PPar 9 (f_of_Z 77); PValue (f_of_Z 50) (f_of_Z 45) 2600;
    POff 3000; POff 3000; POn None 90000; PValue (f_of_Z 50) (f_of_Z 50) 90001; PValue (f_of_Z 50) (f_of_Z 50) 90002] = Some (p, l) /\
  l = [ANone; ANone; AValue (f_of_Z 0); ANone; AValue (f_of_Z 77); ANone; AOff; ANone; AValue (f_of_Z 77); AValue (f_of_Z 10)].
Proof. eexists. eexists. split; [vm_compute; reflexivity|]. vm_compute. reflexivity. Qed.
Print Assumptions C71_enter.
Print Assumptions C71_hold.
Print Assumptions C71_jump_refuted.
Example C71_example :
  outs (run 64 (init (ex_par 0 0) 0) [POn None 0; PValue (f_of_Z 50) (f_of_Z 40) 1500; PPar 8 (f_of_Z 1); PValue (f_of_Z 50) (f_of_Z 30) 3000;
    PPar 9 (f_of_Z 33); PValue (f_of_Z 50) (f_of_Z 30) 3100; PPar 8 (f_of_Z 0); PValue (f_of_Z 50) (f_of_Z 30) 3200; PValue (f_of_Z 50) (f_of_Z 30) 3300])
  = Some [20; 20; 33; 33; 10]%Q.
Proof. vm_compute. reflexivity. Qed.
Example C71_other_example : exists p l,
  run 64 (init (ex_par 0 0) 0) [POn None 0; PValue (f_of_Z 50) (f_of_Z 40) 1500; PPar 8 (f_of_Z 2); PPar 9 (f_of_Z 33); PValue (f_of_Z 50) (f_of_Z 40) 2700] = Some (p, l) /\
  par p 9 = f_of_Z 20 /\ In (AValue (f_of_Z 24)) l.
Proof. eexists. eexists. split; [vm_compute; reflexivity|]. vm_compute. auto 10. Qed.
