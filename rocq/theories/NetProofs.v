(** Lemmas about the network part. *)
From Coq Require Import ZArith List Bool Lia.
From Verif Require Import Base TimeModel NetModel NetSpec.
Import ListNotations.
Open Scope Z_scope.

(** * Waiting times *)

Definition quiet_ev (e : ev) : Prop := match e with ESend _ _ | EClose _ _ => True | _ => False end.

(** Nothing of importance for the waiting times happened. *)
Definition calm (w w' : world) : Prop :=
  (forall i, tmo (cl w' i) = tmo (cl w i) /\ wait (cl w' i) = wait (cl w i) /\ tried (cl w' i) = tried (cl w i)) /\
  exists l, tr w' = l ++ tr w /\ Forall quiet_ev l.

Lemma calm_refl w : calm w w.
Proof. split; [auto|]. exists []. auto. Qed.
Lemma calm_trans a b c : calm a b -> calm b c -> calm a c.
Proof.
  intros [A1 (l1 & A2 & A3)] [B1 (l2 & B2 & B3)]. split.
  - intros i. destruct (A1 i) as (? & ? & ?), (B1 i) as (? & ? & ?). repeat split; congruence.
  - exists (l2 ++ l1). rewrite B2, A2, app_assoc. split; [reflexivity|]. apply Forall_app. auto.
Qed.
Lemma calm_upc i f w : (forall c, tmo (f c) = tmo c /\ wait (f c) = wait c /\ tried (f c) = tried c) -> calm w (upc i f w).
Proof.
  intros F. split; [|exists []; auto]. intros j. cbn. destruct (Z.eqb_spec j i) as [->|]; [apply F|auto].
Qed.
Lemma calm_open fd b w : calm w (set_open fd b w).
Proof. split; [auto|]. exists []. auto. Qed.
Lemma calm_reg l w : calm w (set_reg l w).
Proof. split; [auto|]. exists []. auto. Qed.
Lemma calm_note e w : quiet_ev e -> calm w (note e w).
Proof. intros Q. split; [auto|]. exists [e]. auto. Qed.
Lemma calm_close i fd w : calm w (close_fd i fd w).
Proof. eapply calm_trans; [apply calm_open|]. apply calm_note. exact I. Qed.
Ltac calm1 := eapply calm_trans; [|apply calm_upc; intros; cbn; auto].
Lemma calm_disconnect i w : calm w (disconnect i w).
Proof. unfold disconnect. calm1. apply calm_close. Qed.

Section W.
Context (W : Z).

Lemma calm_finish i o w : calm w (fst (finish_connect W i o w)).
Proof.
  unfold finish_connect. destruct (_ =? _); [|apply calm_upc; auto].
  destruct (o_sel o) as [| |[]]; try apply calm_disconnect; try (apply calm_upc; auto).
  destruct (_ >? _); [apply calm_disconnect|apply calm_upc; auto].
Qed.
Lemma calm_connect i o w : calm w (fst (async_connect W i o w)).
Proof.
  unfold async_connect. destruct (_ =? CONNECTED); [apply calm_refl|]. destruct (_ =? DISCONNECTED); [|apply calm_finish].
  destruct (o_open o); cbn [fst].
  - apply calm_upc. auto.
  - calm1. eapply calm_trans; [apply calm_open|apply calm_close].
  - calm1. eapply calm_trans; [apply calm_open|apply calm_close].
  - eapply calm_trans; [|apply calm_finish]. eapply calm_trans; [|apply calm_disconnect]. calm1. apply calm_open.
  - eapply calm_trans; [|apply calm_finish]. calm1. apply calm_open.
Qed.
Lemma calm_sync i o w : calm w (fst (connect i o w)).
Proof.
  unfold connect. destruct (negb _); [apply calm_refl|].
  assert (P : forall fd, calm w (fst (let w1 := upc i (set_sock fd) (set_open fd true w) in
        match o_sel o with SReady false => (upc i (set_cst 1) w1, true) | _ => (upc i (set_sock 0) (close_fd i fd w1), false) end))).
  { intros fd. cbv zeta. destruct (o_sel o) as [| |[]]; cbn [fst]; calm1.
    1-3: eapply calm_trans; [|apply calm_close]; calm1; apply calm_open. calm1. apply calm_open. }
  destruct (o_open o); [apply calm_upc; auto| | |apply P|apply P]; cbn [fst].
  - eapply calm_trans; [|apply calm_close]. calm1. apply calm_open.
  - calm1. eapply calm_trans; [apply calm_open|apply calm_close].
Qed.
Lemma calm_communicate i o w : calm w (fst (communicate i o w)).
Proof.
  unfold communicate.
  assert (C : calm w (fst (if cst (cl w i) =? 0 then connect i o w else (w, true)))).
  { destruct (_ =? 0); [apply calm_sync|apply calm_refl]. }
  destruct (if cst (cl w i) =? 0 then connect i o w else (w, true)) as [w1 ok]. cbn [fst] in C.
  destruct ok; cbn [negb]; [|exact C].
  assert (C2 : calm w (note (ESend i (sock (cl w1 i))) w1)) by (eapply calm_trans; [exact C|apply calm_note; exact I]).
  destruct (_ <? 0); cbn [fst]; [eapply calm_trans; [exact C2|apply calm_disconnect]|].
  destruct (_ <? 0); cbn [fst]; [eapply calm_trans; [exact C2|apply calm_disconnect]|exact C2].
Qed.

(** The state of the waiting time of client [i]. *)
Definition timed (T : Z -> Z) (t0 : Z) (w : world) : Prop := forall i,
  tmo (cl w i) = T i /\
  wait (cl w i) = waiting (T i) (failures i (tr w)) /\
  tried (cl w i) = last_try i t0 (tr w) /\
  forall l1 t l2, tr w = l1 ++ ETry i t :: l2 ->
    get_delta_millisec W t (last_try i t0 l2) > waiting (T i) (failures i l2).

Lemma quiet_fail i l r : Forall quiet_ev l -> failures i (l ++ r) = failures i r.
Proof. induction 1 as [|e l Q F IH]; [reflexivity|]. destruct e; cbn in *; tauto || exact IH. Qed.
Lemma quiet_last i t0 l r : Forall quiet_ev l -> last_try i t0 (l ++ r) = last_try i t0 r.
Proof. induction 1 as [|e l Q F IH]; [reflexivity|]. destruct e; cbn in *; tauto || exact IH. Qed.
Lemma quiet_split i t l r l1 l2 : Forall quiet_ev l -> l ++ r = l1 ++ ETry i t :: l2 -> exists l3, r = l3 ++ ETry i t :: l2.
Proof.
  intros Q. revert l1. induction Q as [|e l Q F IH]; intros l1 E; [exists l1; exact E|].
  destruct l1 as [|e' l1]; cbn in E; inversion E; subst; [destruct Q|]. eapply IH. eassumption.
Qed.
Lemma timed_calm T t0 w w' : timed T t0 w -> calm w w' -> timed T t0 w'.
Proof.
  intros H [A (l & E & Q)] i. destruct (H i) as (H1 & H2 & H3 & H4). destruct (A i) as (A1 & A2 & A3).
  rewrite E, quiet_fail, quiet_last, A1, A2, A3 by exact Q. repeat split; auto.
  intros l1 t l2 S. destruct (quiet_split _ _ _ _ _ _ Q S) as [l3 R]. exact (H4 _ _ _ R).
Qed.

Definition sized (T : Z -> Z) : Prop := forall i, 0 <= T i /\ 40 * T i < 2 ^ W.

Lemma timed_result T t0 w w' i r (f : client -> client) : sized T -> 0 <= W -> timed T t0 w ->
  w' = upc i f (note (EResult i r) w) -> r = 0 \/ r = 1 \/ r = -1 ->
  tmo (f (cl w i)) = tmo (cl w i) -> tried (f (cl w i)) = tried (cl w i) ->
  wait (f (cl w i)) = (if r =? 0 then (if wait (cl w i) >? ul W (tmo (cl w i) * 30) then wait (cl w i) else ul W (wait (cl w i) * 2))
               else if r =? 1 then ul W (tmo (cl w i) * 5) else wait (cl w i)) ->
  timed T t0 w'.
Proof.
  intros S HW H -> R F1 F2 F3 j. destruct (S i) as [S1 S2]. destruct (H i) as (G1 & G2 & _).
  cbn [upc note cl tr]. destruct (H j) as (H1 & H2 & H3 & H4).
  assert (X : forall l1 t l2, EResult i r :: tr w = l1 ++ ETry j t :: l2 ->
    get_delta_millisec W t (last_try j t0 l2) > waiting (T j) (failures j l2)).
  { intros [|e l1] t l2 E; inversion E; subst. apply (H4 l1 t l2). assumption. }
  cbn [last_try failures]. destruct (Z.eqb_spec j i) as [->|N].
  - rewrite Z.eqb_refl, F1, F2, F3. repeat split; auto. clear X F1 F2 F3 H1 H2 H3 H4.
    unfold ul in *. rewrite G1, G2.
    rewrite (Z.mod_small (T i * 30)) by lia. rewrite (Z.mod_small (T i * 5)) by lia.
    destruct R as [->|[->| ->]].
    + change (0 =? 0) with true. change (0 =? 1) with false. cbv iota.
      destruct (failures i (tr w)) as [|[|[|n]]]; cbn [waiting].
      * replace (5 * T i >? T i * 30) with false by lia. rewrite Z.mod_small by lia. lia.
      * replace (10 * T i >? T i * 30) with false by lia. rewrite Z.mod_small by lia. lia.
      * replace (20 * T i >? T i * 30) with false by lia. rewrite Z.mod_small by lia. lia.
      * destruct (Z.gtb_spec (40 * T i) (T i * 30)); [reflexivity|]. rewrite Z.mod_small by lia. lia.
    + change (1 =? 1) with true. change (1 =? 0) with false. cbn [waiting]. lia.
    + change (-1 =? 1) with false. change (-1 =? 0) with false. reflexivity.
  - replace (i =? j) with false by lia. repeat split; auto.
Qed.

Lemma finish_result i o w : let r := snd (finish_connect W i o w) in r = 0 \/ r = 1 \/ r = -1.
Proof.
  unfold finish_connect. destruct (_ =? _); [|cbn; auto]. destruct (o_sel o) as [| |[]]; cbn; auto. destruct (_ >? _); cbn; auto.
Qed.
Lemma async_result i o w : let r := snd (async_connect W i o w) in r = 0 \/ r = 1 \/ r = -1.
Proof.
  unfold async_connect. destruct (_ =? CONNECTED); [cbn; auto|]. destruct (_ =? DISCONNECTED); [|apply finish_result].
  destruct (o_open o); cbn [snd]; auto; apply finish_result.
Qed.

Lemma timed_check T t0 i o w : sized T -> 0 <= W -> timed T t0 w -> timed T t0 (fst (check_connection W i o w)).
Proof.
  intros S HW H. unfold check_connection. cbv zeta.
  destruct (negb (cst (cl w i) =? CONNECTED)); [|exact H].
  destruct (_ || _) eqn:D; [|cbn [fst]; eapply timed_calm; [exact H|apply calm_upc; auto]].
  set (w1 := if cst (cl w i) =? DISCONNECTED then _ else w).
  assert (T1 : timed T t0 w1).
  { unfold w1. destruct (Z.eqb_spec (cst (cl w i)) DISCONNECTED) as [E|]; [|exact H].
    rewrite E in D. change (DISCONNECTED =? CONNECTING) with false in D. rewrite orb_false_r in D.
    intros j. destruct (H j) as (H1 & H2 & H3 & H4). destruct (H i) as (G1 & G2 & G3 & G4).
    cbn [note upc tr cl last_try failures].
    assert (X : forall l1 t l2, ETry i (o_now o) :: tr w = l1 ++ ETry j t :: l2 ->
      get_delta_millisec W t (last_try j t0 l2) > waiting (T j) (failures j l2)).
    { intros [|e l1] t l2 E2; inversion E2; subst; [|apply (H4 l1 t l2); assumption].
      rewrite <- G2, <- G3. apply Z.gtb_lt in D. lia. }
    destruct (Z.eqb_spec j i) as [->|N].
    - rewrite Z.eqb_refl. cbn. repeat split; auto.
    - replace (i =? j) with false by lia. repeat split; auto. }
  clearbody w1. clear D.
  pose proof (async_result i o w1) as R. pose proof (calm_connect i o w1) as C.
  destruct (async_connect W i o w1) as [w2 r]. cbn [fst snd] in *.
  assert (T2 : timed T t0 w2) by (eapply timed_calm; eassumption). clear T1 C.
  assert (U : forall f, tmo (f (cl w2 i)) = tmo (cl w2 i) -> tried (f (cl w2 i)) = tried (cl w2 i) ->
    wait (f (cl w2 i)) = (if r =? 0 then (if wait (cl w2 i) >? ul W (tmo (cl w2 i) * 30) then wait (cl w2 i) else ul W (wait (cl w2 i) * 2))
               else if r =? 1 then ul W (tmo (cl w2 i) * 5) else wait (cl w2 i)) ->
    timed T t0 (upc i f (note (EResult i r) w2))).
  { intros f. apply (timed_result T t0 w2 _ i r f S HW T2 eq_refl R). }
  destruct R as [->|[->| ->]].
  - change (0 =? DISCONNECTED) with true. cbv iota. cbn [fst]. apply U.
    + destruct (_ >? _); reflexivity.
    + destruct (_ >? _); reflexivity.
    + change (0 =? 0) with true. destruct (_ >? _); reflexivity.
  - change (1 =? DISCONNECTED) with false. change (1 =? CONNECTING) with false. change (1 =? CONNECTED) with true.
    cbn [fst]. apply U; reflexivity.
  - change (-1 =? DISCONNECTED) with false. change (-1 =? CONNECTING) with true. cbn [fst]. apply U; reflexivity.
Qed.

Lemma timed_send T t0 i n o w : sized T -> 0 <= W -> timed T t0 w -> timed T t0 (async_send W i n o w).
Proof.
  intros S HW H. unfold async_send. cbv zeta.
  assert (T1 : timed T t0 (upc i (fun c => set_tosend n (set_ares AR_BUSY c)) w)) by (eapply timed_calm; [exact H|apply calm_upc; auto]).
  pose proof (timed_check T t0 i o _ S HW T1) as T2.
  destruct (check_connection W i o _) as [w2 ok]. cbn [fst] in T2. destruct ok; cbn [negb]; [|exact T2].
  eapply timed_calm; [exact T2|].
  destruct (_ <? 0); [eapply calm_trans; [|apply calm_disconnect]|]; calm1.
  - apply calm_note. exact I.
  - eapply calm_trans; [|apply calm_reg]. apply calm_note. exact I.
Qed.
Lemma timed_get T t0 i o w : sized T -> 0 <= W -> timed T t0 w -> timed T t0 (fst (get_async_result W i o w)).
Proof. intros S HW H. unfold get_async_result. destruct (_ =? _); cbn [fst]; auto using timed_send. Qed.
Lemma timed_receive T t0 i o w : sized T -> 0 <= W -> timed T t0 w -> timed T t0 (fst (async_receive W i o w)).
Proof.
  intros S HW H. unfold async_receive. cbv zeta.
  assert (T1 : timed T t0 (upc i (set_ares AR_BUSY) w)) by (eapply timed_calm; [exact H|apply calm_upc; auto]).
  pose proof (timed_check T t0 i o _ S HW T1) as T2.
  destruct (check_connection W i o _) as [w2 ok]. cbn [fst] in T2. destruct ok; cbn [negb fst]; [|exact T2].
  set (w3 := if o_avail o && _ then _ else w2).
  assert (T3 : timed T t0 w3) by (unfold w3; destruct (_ && _); [eapply timed_calm; [exact T2|apply calm_upc; auto]|exact T2]).
  set (due := _ && newdata (cl w3 i)).
  assert (T4 : timed T t0 (if due then upc i (fun c => set_rec (rtime c) false c) w3 else w3)).
  { destruct due; [eapply timed_calm; [exact T3|apply calm_upc; auto]|exact T3]. }
  destruct (_ <? 0); cbn [fst]; [|exact T4].
  eapply timed_calm; [exact T4|]. eapply calm_trans; [|apply calm_disconnect]. apply calm_upc. auto.
Qed.
Lemma calm_clients now rd rc l : forall w, calm w (snd (eval_clients W now rd rc l w)).
Proof.
  induction l as [|[k i] l IH]; intros w; cbn [eval_clients]; [apply calm_refl|]. cbv zeta.
  destruct (rd _).
  - eapply calm_trans; [|apply IH]. destruct (_ <=? 0); [calm1; apply calm_disconnect|apply calm_upc; auto].
  - destruct (_ >? _).
    + eapply calm_trans; [|apply IH]. calm1. apply calm_disconnect.
    + specialize (IH w). destruct (eval_clients W now rd rc l w). exact IH.
Qed.
Lemma calm_evaluate l : forall w, calm w (evaluate_clients W l w).
Proof.
  induction l as [|c l IH]; intros w; cbn [evaluate_clients]; [apply calm_refl|]. destruct c; [apply calm_refl|apply IH|].
  pose proof (calm_clients now rd rc (reg w) w) as C. destruct (eval_clients W now rd rc (reg w) w) as [g w']. cbn [snd] in C.
  eapply calm_trans; [exact C|]. eapply calm_trans; [|apply IH]. apply calm_reg.
Qed.

Lemma timed_do T t0 x w : sized T -> 0 <= W -> timed T t0 w -> timed T t0 (do_call W x w).
Proof.
  intros S HW H. destruct x as [[o o2] c]. destruct c; cbn [do_call]; auto using timed_send, timed_get, timed_receive.
  - eapply timed_calm; [exact H|apply calm_communicate].
  - unfold modbus_poll. pose proof (timed_get T t0 i o w S HW H) as G.
    destruct (get_async_result W i o w) as [w1 ar]. cbn [fst] in G. destruct (_ =? AR_BUSY); [exact G|].
    destruct (_ && _); cbn [fst]; [eapply timed_calm; [exact G|apply calm_upc; auto]|apply timed_send; auto].
  - eapply timed_calm; [exact H|apply calm_disconnect].
  - eapply timed_calm; [exact H|apply calm_evaluate].
Qed.
Lemma timed_run T t0 h : forall w, sized T -> 0 <= W -> timed T t0 w -> timed T t0 (run W h w).
Proof.
  induction h as [|x h IH]; intros w S HW H; [exact H|]. cbn [run fold_left]. apply IH; auto using timed_do.
Qed.
Lemma timed_start T t0 base g : sized T -> timed T t0 (start W T t0 base g).
Proof.
  intros S i. destruct (S i). cbn [start cl tr new_client tmo wait tried failures last_try waiting].
  split; [reflexivity|]. split; [|split; [reflexivity|]].
  - unfold ul. rewrite Z.mod_small by lia. lia.
  - intros [|e l1] t l2 E; discriminate.
Qed.

End W.
