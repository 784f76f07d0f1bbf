(** Properties of the regulator: start and switching (C72, C73). *)
From Coq Require Import ZArith List Bool Lia QArith Qround Qpower Qabs Qminmax Lqa.
From Verif Require Import Base FTextModel FTextProofs FloatModel FloatProofs FloatProofs2 FloatProofs3 AioProofs TimeModel PidModel PidSpec.
From Verif Require Import PidProofs PidProofs2 PidProofs3 PidProofs4 PidProofs5 PidProofs6 PidProofs7 PidProps PidProps2.
Import ListNotations.
Open Scope Z_scope.

(** * C72: the start *)

Lemma run_app w h2 : forall h1 p, run w p (h1 ++ h2) =
  match run w p h1 with None => None | Some (q, l) => match run w q h2 with None => None | Some (r, l') => Some (r, l ++ l') end end.
Proof.
  induction h1 as [|e h1 IH]; intros p; cbn [run app]; [destruct (run w p h2) as [(r & l)|]; reflexivity|].
  destruct (step w p e) as [(p1 & a)|]; [|reflexivity]. rewrite IH. destruct (run w p1 h1) as [(q & l)|]; [|reflexivity].
  destruct (run w q h2) as [(r & l')|]; reflexivity.
Qed.
(** The parameter of the start after switching on. *)
Definition start_kind (p : pid) (z : option bool) : bool :=
  match z with Some b => negb b | None => f_true (par p 16) end.
Lemma on_started w p z t0 : 0 <= t0 -> state p = 0 -> held p = false -> prev_manual p = false -> sound p -> tuned (par p) ->
  exists p1 s, step w p (POn z t0) = Some (p1, ANone) /\ s = {| PidProofs7.t0 := t0; a7 := par p 7; z16 := par p1 16; lo14 := par p 14; hi13 := par p 13 |} /\
    zs s = start_kind p z /\ started w s t0 p1 /\ sound p1 /\ settled p1 (par p).
Proof.
  intros T0 S HE PM SO TU. set (p' := match z with Some b => set_par p P_is_zero_start (f_of_Z (if b then 0 else 1)) | None => p end).
  assert (F : state p' = 0 /\ held p' = false /\ prev_manual p' = false /\ (forall i, i <> 16 -> par p' i = par p i)).
  { unfold p'. destruct z as [b|]; [|auto]. cbn [set_par state held prev_manual par]. repeat (split; [assumption|]). intros i I. destruct (Z.eqb_spec i P_is_zero_start); [contradiction|reflexivity]. }
  destruct F as (F1 & F2 & F3 & F4).
  assert (SO' : sound p'). { unfold p'. destruct z as [b|]; [|exact SO]. exact SO. }
  set (p1 := with_state (reset (with_times p' t0) t0) S_ON).
  exists p1. eexists. split; [|split; [reflexivity|]].
  { cbn [step]. fold p'. rewrite F2. unfold direct_on. rewrite F1. reflexivity. }
  assert (P1 : forall i, i <> 8 -> par p1 i = par p' i).
  { intros i I. unfold p1, reset. cbn [with_state par with_times]. destruct (Z.eqb_spec i P_is_manual_mode); [contradiction|reflexivity]. }
  assert (ED : Uk p1 = (if f_true (par p1 16) then MIN_OUT else MAX_OUT) /\ start_value p1 = (if f_true (par p1 16) then MIN_OUT else MAX_OUT)) by (split; reflexivity).
  destruct ED as (ED1 & ED2).
  split; [|split; [|split]].
  - unfold zs, start_kind. cbn [z16]. rewrite P1 by discriminate. unfold p'. destruct z as [b|]; [|reflexivity]. cbn [set_par par]. destruct b; vm_compute; reflexivity.
  - unfold started, edge, zs, len. cbn [PidProofs7.t0 a7 z16 lo14 hi13]. split.
    { split; [discriminate|]. split; [exact F3|exact zero_eq0]. }
    split; [reflexivity|]. split; [rewrite P1, F4 by discriminate; reflexivity|]. split; [reflexivity|].
    split; [rewrite P1, F4 by discriminate; reflexivity|]. split; [rewrite P1, F4 by discriminate; reflexivity|]. split; [reflexivity|]. split; [exact ED2|]. split; [lia|].
    intros _. rewrite ED1. unfold follows. cbv zeta. destruct min_val as (_ & V0), max_val as (_ & V1).
    rewrite Z.sub_diag. assert (LN : (100 * inject_Z 0 / inject_Z (1000 * Qfloor (f_val (par p 7))) == 0)%Q) by (change (inject_Z 0) with 0%Q; unfold Qdiv; ring).
    destruct (f_true (par p1 16)); right; rewrite ?V0, ?V1, LN; lra.
  - apply (on_sound p' t0) in SO'. destruct SO' as (X & _). unfold direct_on in X. rewrite F1 in X. exact X.
  - split; [|destruct TU as (_ & X & Y); rewrite !P1, !F4 by discriminate; auto]. intros i I. rewrite P1, F4 by lia. reflexivity.
Qed.

(** During the start the value sent does not run ahead of the line from the end of the scale. *)
Theorem C72_start w p z t0 h v c t q l x : 0 <= w <= 64 -> reached w p -> state p = 0 -> held p = false -> prev_manual p = false -> 0 <= t0 ->
  let len := 1000 * Qfloor (f_val (par p 7)) in
  (f_val (par p 14) <= f_val (par p 13))%Q -> len < 2 ^ w -> Forall starting h -> sensible_history (par p) h -> small 30 v -> small 30 c ->
  ordered t0 h -> last_event t0 h <= t < 2 ^ w ->
  run w p (POn z t0 :: h ++ [PCmdValue v c t]) = Some (q, l ++ [AValue x]) -> t - t0 < len ->
  follows (start_kind p z) (f_val (par p 14)) (f_val (par p 13)) len (t - t0) (f_val x).
Proof.
  intros W RE S HE PM T0 len LE LEN FS SH SV SC OR LT R L. destruct (reached_sound w p W RE) as (SO & TU).
  destruct (on_started w p z t0 T0 S HE PM SO TU) as (p1 & s & E1 & SE & ZS & ST & SO1 & SET). pose proof TU as (SG & _).
  change (POn z t0 :: h ++ [PCmdValue v c t]) with ([POn z t0] ++ (h ++ [PCmdValue v c t])) in R.
  cbn [app run] in R. rewrite E1 in R. destruct (run w p1 (h ++ [PCmdValue v c t])) as [(q' & l')|] eqn:R1; [|discriminate]. rewrite run_app in R1.
  destruct (run w p1 h) as [(p2 & l2)|] eqn:R2; [|discriminate].
  destruct (started_run w s h W) with (t := t0) (p := p1) (ps := par p) (q := p2) (l := l2) as (S2 & SO2 & TU2); try assumption.
  { rewrite SE. exact LE. } { rewrite SE. exact LEN. } { lia. }
  cbn [run step] in R1. destruct (direct_set_value w p2 v c t) as [(p3 & a3)|] eqn:E3; [|discriminate].
  destruct (started_value w s (last_event t0 h) p2 v c t p3 a3 W TU2 SO2 SV SC) as (_ & FO); try assumption.
  { rewrite SE. exact LE. } { rewrite SE. exact LEN. }
  assert (A : a3 = AValue x).
  { inversion R1; subst q' l'. inversion R. assert (X : last (ANone :: l2 ++ [a3]) ANone = last (l ++ [AValue x]) ANone) by congruence.
    change (ANone :: l2 ++ [a3]) with ((ANone :: l2) ++ [a3]) in X. rewrite !last_last in X. exact X. }
  specialize (FO x A). rewrite <- ZS. rewrite SE in *. unfold PidProofs7.len in FO. cbn [PidProofs7.t0 a7 lo14 hi13] in *. apply FO. exact L.
Qed.
(** An acceleration time that is no [unsigned int] is undefined behaviour at the first recalculation. *)
Theorem C72_undefined_refuted w p v c t : 0 <= w <= 64 -> sensible_interval (par p 4) -> (f_val (par p 4) <= Qpower 2 20)%Q -> state p = 1 ->
  f_finite (par p 7) = false \/ (f_val (par p 7) <= -1)%Q \/ (Qpower 2 32 <= f_val (par p 7))%Q ->
  last_time p <= t <= last_time p + 2 ^ 64 -> (interval_ms p + 1 <= inject_Z (t - last_time p))%Q ->
  step w p (PCmdValue v c t) = None.
Proof.
  intros W SI L20 S BAD T D.
  assert (DU : due w p t = true).
  { destruct (due_spec w p t W SI L20) as (D1 & _). cbv zeta in D1.
    assert (DL : get_delta_millisec w t (last_time p) = (t - last_time p)%Z).
    { unfold get_delta_millisec. cbv zeta. destruct (Z.ltb_spec t (last_time p)); [lia|]. destruct (Z.leb_spec (last_time p) t); [reflexivity|lia]. }
    rewrite DL in D1. apply D1; [lia|exact D]. }
  assert (U : f_to_u32 (par p 7) = None).
  { unfold f_to_u32. destruct (f_finite (par p 7)); [|reflexivity]. cbv zeta. destruct BAD as [X|X]; [discriminate X|].
    set (y := f_val (par p 7)) in *. assert (N : Z.quot (Qnum y) (Z.pos (Qden y)) < 0 \/ 2 ^ 32 <= Z.quot (Qnum y) (Z.pos (Qden y))).
    { destruct X as [X|X]; unfold Qle in X; cbn [Qnum Qden] in X.
      - left. change (Qnum (-1)) with (-1) in X. change (Z.pos (Qden (-1))) with 1 in X.
        assert (Q : Z.quot (Qnum y) (Z.pos (Qden y)) = - Z.quot (- Qnum y) (Z.pos (Qden y))) by (rewrite Z.quot_opp_l by lia; lia).
        rewrite Q. assert (0 < Z.quot (- Qnum y) (Z.pos (Qden y))); [|lia]. apply Z.quot_str_pos. lia.
      - right. change (Qnum (Qpower 2 32)) with (2 ^ 32) in X. change (Z.pos (Qden (Qpower 2 32))) with 1 in X. apply Z.quot_le_lower_bound; lia. }
    destruct (Z.leb_spec 0 (Z.quot (Qnum y) (Z.pos (Qden y)))); destruct (Z.ltb_spec (Z.quot (Qnum y) (Z.pos (Qden y))) (2 ^ 32)); cbn [andb]; try reflexivity; lia. }
  cbn [step]. unfold direct_set_value. cbv zeta. unfold eval. change (state (with_set p v)) with (state p). rewrite S. change (1 =? S_OFF) with false. cbv iota.
  unfold recalc. destruct (gains (with_set p v)) as ((K & TI) & TD). change (due w (with_set p v) t) with (due w p t) in *. fold (due w (with_set p v) t).
  change (due w (with_set p v) t) with (due w p t). rewrite DU. cbv zeta. unfold accelerated. change (par (with_set p v) P_acceleration_time) with (par p 7). rewrite U. reflexivity.
Qed.
Print Assumptions C72_start.
Print Assumptions C72_undefined_refuted.
(** 20 s: with a large error the output climbs 5% a second, and 10% at once because of the lower limit. *)
Example C72_example :
  outs (run 64 (init (ex_par 20 0) 0) [POn None 0; PValue (f_of_Z 100) (f_of_Z 0) 1500; PValue (f_of_Z 100) (f_of_Z 0) 4000; PValue (f_of_Z 100) (f_of_Z 0) 10000;
     PValue (f_of_Z 100) (f_of_Z 0) 25000])
  = Some [10; 20; 50; 90]%Q.
Proof. vm_compute. reflexivity. Qed.
(** From the upper end it falls by 5% a second. *)
Example C72_example_down :
  outs (run 64 (init (ex_par 20 0) 0) [POn (Some true) 0; PValue (f_of_Z 0) (f_of_Z 100) 1500; PValue (f_of_Z 0) (f_of_Z 100) 4000; PValue (f_of_Z 0) (f_of_Z 100) 10000;
     PValue (f_of_Z 0) (f_of_Z 100) 25000])
  = Some [90; 80; 50; 10]%Q.
Proof. vm_compute. reflexivity. Qed.
Example C72_undefined_example : run 64 (init (ex_par (-5) 0) 0) [POn None 0; PValue (f_of_Z 50) (f_of_Z 45) 1500] = None.
Proof. vm_compute. reflexivity. Qed.

(** * C73: switching *)

(** Off is given twice, or once and the regulator is looked after: the actuator is switched off. *)
Theorem C73_off w p t t' : state p = 1 -> held p = false ->
  (exists q, run w p [POff t; POff t'] = Some (q, [ANone; AOff]) /\ state q = 0) /\
  (exists q, run w p [POff t; PIo t'] = Some (q, [ANone; AOff]) /\ state q = 0).
Proof.
  intros S HE. destruct p as [pr u1 e1 e2 uk st lt pm s o sv up stv he]. cbn [state held] in *. subst.
  split; eexists; split; reflexivity.
Qed.
(** Between the two it still regulates. *)
Theorem C73_between w p v c t : state p = 1 -> held p = false ->
  match step w p (POff t) with
  | Some (q, ANone) => forall t', step w q (PValue v c t') =
      match step w p (PValue v c t') with Some (r, a) => Some (with_state r 10, a) | None => None end
  | _ => False
  end.
Proof.
  intros S HE. cbn [step]. rewrite HE. unfold direct_off. rewrite S. change (1 =? S_STOPPING) with false. change (1 =? S_ON) with true. cbv iota.
  intros t'. cbn [with_state held]. rewrite HE. unfold direct_set_value. cbv zeta. unfold eval.
  change (state (with_set p v)) with (state p). rewrite S. change (1 =? S_OFF) with false.
  change (state (with_set (with_state p S_STOPPING) v) =? S_OFF) with false. cbv iota.
  set (sg := if f_lt (f_of_Z 0) (par (with_set p v) P_is_reverse) then -1 else 1).
  change (if f_lt (f_of_Z 0) (par (with_set (with_state p S_STOPPING) v) P_is_reverse) then -1 else 1) with sg. clearbody sg.
  assert (R : recalc w (with_set (with_state p S_STOPPING) v) c sg t' =
    match recalc w (with_set p v) c sg t' with Some r => Some (with_state r 10) | None => None end).
  { unfold recalc. change (gains (with_set (with_state p S_STOPPING) v)) with (gains (with_set p v)). destruct (gains (with_set p v)) as ((K & TI) & TD). cbv zeta.
    change (interval (with_set (with_state p S_STOPPING) v)) with (interval (with_set p v)).
    change (last_time (with_set (with_state p S_STOPPING) v)) with (last_time (with_set p v)).
    change (error (with_set (with_state p S_STOPPING) v) c sg) with (error (with_set p v) c sg).
    change (uk_1 (with_set (with_state p S_STOPPING) v)) with (uk_1 (with_set p v)).
    change (ek_1 (with_set (with_state p S_STOPPING) v)) with (ek_1 (with_set p v)).
    change (ek_2 (with_set (with_state p S_STOPPING) v)) with (ek_2 (with_set p v)).
    change (accelerated w (with_set (with_state p S_STOPPING) v)) with (accelerated w (with_set p v)).
    destruct (f_lt _ _); [|reflexivity]. destruct (accelerated _ _ _ _); reflexivity. }
  rewrite R. destruct (recalc w (with_set p v) c sg t') as [r|] eqn:RR; [|reflexivity].
  destruct (recalc_par _ _ _ _ _ _ RR) as (_ & RS & _). change (state (with_set p v)) with (state p) in RS.
  assert (F : finish (with_state r 10) t' = with_state (finish r t') 10).
  { unfold finish, entered. change (par (with_state r 10)) with (par r). change (prev_manual (with_state r 10)) with (prev_manual r).
    destruct (f_true (par r P_is_manual_mode) && negb (prev_manual r)); cbn [par prev_manual].
    - change (P_is_manual_mode =? P_U_manual) with false. cbv iota. destruct (_ && _); reflexivity.
    - change (par (with_state r 10)) with (par r). change (prev_manual (with_state r 10)) with (prev_manual r). destruct (_ && _); reflexivity. }
  rewrite F. assert (FS : state (finish r t') = state r).
  { unfold finish, entered. destruct (f_true (par r P_is_manual_mode) && negb (prev_manual r)); destruct (_ && _); reflexivity. }
  cbn [with_state state]. rewrite FS, RS, S. reflexivity.
Qed.
(** Off stays off until the regulator is switched on: the actuator gets no value. *)
Theorem C73_stays w h : Forall not_on h -> forall p q l, state p = 0 -> run w p h = Some (q, l) ->
  state q = 0 /\ forall a, In a l -> match a with AValue _ => False | AResult v => v = f_of_Z 0 \/ v = f_of_Z 100 | _ => True end.
Proof.
  intros F p q l S R. destruct (run_off w h F p q l S R) as (H & FA). split; [exact H|]. rewrite Forall_forall in FA. intros a I. exact (FA a I).
Qed.
(** On from the off state forgets the past. *)
Theorem C73_fresh w p t q a : state p = 0 -> held p = false -> step w p (POn None t) = Some (q, a) ->
  state q = 1 /\ f_val (uk_1 q) == 0 /\ f_val (ek_1 q) == 0 /\ f_val (ek_2 q) == 0 /\ start_time q = t /\ last_time q = t /\
  f_val (Uk q) == (if f_true (par p 16) then 0 else 100) /\ f_val (par q 8) == 0 /\ (forall i, i <> 8 -> par q i = par p i).
Proof.
  intros S HE E. cbn [step] in E. rewrite HE in E. unfold direct_on in E. rewrite S in E. change (0 =? S_ON) with false in E. change (0 =? S_OFF) with true in E. cbv iota in E.
  inversion E; subst. clear E. assert (V0 : f_val (f_of_Z 0) == 0) by (vm_compute; reflexivity). assert (V1 : f_val (f_of_Z 100) == 100) by (vm_compute; reflexivity).
  cbn [with_state state]. split; [reflexivity|]. do 3 (split; [exact V0|]). split; [reflexivity|]. split; [reflexivity|].
  split; [|split; [exact V0|]].
  - change (Uk (with_state (reset (with_times p t) t) S_ON)) with (if f_true (par p 16) then MIN_OUT else MAX_OUT). destruct (f_true (par p 16)); [exact V0|exact V1].
  - intros i I. unfold reset. cbn [with_state par with_times]. destruct (Z.eqb_spec i P_is_manual_mode); [contradiction|reflexivity].
Qed.
(** On after a single off continues as if nothing had happened. *)
Theorem C73_resume w p t t' : state p = 1 -> held p = false -> run w p [POff t; POn None t'] = Some (p, [ANone; ANone]).
Proof.
  intros S HE. destruct p as [pr u1 e1 e2 uk st lt pm s o sv up stv he]. cbn [state held] in *. subst. reflexivity.
Qed.
(** A regulator held by hand obeys neither the program nor the cycle. *)
Theorem C73_held w p t v c : held p = true ->
  step w p (POn None t) = Some (p, ANone) /\ step w p (POff t) = Some (p, ANone) /\ step w p (PIo t) = Some (p, ANone) /\
  step w p (PValue v c t) = Some (p, ANone).
Proof. intros HE. cbn [step]. rewrite HE. rewrite andb_false_r. auto 10. Qed.
Print Assumptions C73_between.
Print Assumptions C73_stays.
Example C73_example : exists p l,
  run 64 (init (ex_par 0 0) 0) [POn None 0; PValue (f_of_Z 50) (f_of_Z 40) 1500; POff 1600; PValue (f_of_Z 50) (f_of_Z 40) 1700; PIo 1800; PValue (f_of_Z 50) (f_of_Z 40) 1900;
    PEval (f_of_Z 40) 1 3000; POff 3100; POn None 4000; PValue (f_of_Z 50) (f_of_Z 40) 4001] = Some (p, l) /\
  l = [ANone; AValue (f_of_Z 20); ANone; AValue (f_of_Z 20); AOff; AOff; AResult (f_of_Z 0); ANone; ANone; AValue (f_of_Z 10)].
Proof. eexists. eexists. split; [vm_compute; reflexivity|]. vm_compute. reflexivity. Qed.
