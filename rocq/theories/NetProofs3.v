(** Lemmas about attempts, outstanding requests, frames, sending. *)
From Coq Require Import ZArith List Bool Lia.
From Verif Require Import Base TimeModel NetModel NetSpec NetProofs NetProofs2.
Import ListNotations.
Open Scope Z_scope.

Section W.
Context (W : Z).

(** * Attempts *)

Definition no_try (i : Z) (l : list ev) : Prop := forall t, ~ In (ETry i t) l.

Lemma calm_no_try i w w' : calm w w' -> exists l, tr w' = l ++ tr w /\ no_try i l.
Proof.
  intros [_ (l & E & Q)]. exists l. split; [exact E|]. intros t H. rewrite Forall_forall in Q. exact (Q _ H).
Qed.

Lemma check_attempt i o w : cst (cl w i) = DISCONNECTED ->
  let x := check_connection W i o w in
  if get_delta_millisec W (o_now o) (tried (cl w i)) >? wait (cl w i)
  then exists l, tr (fst x) = l ++ ETry i (o_now o) :: tr w /\ no_try i l
  else tr (fst x) = tr w /\ ares (cl (fst x) i) = AR_SOCKETERROR /\ snd x = false.
Proof.
  intros C. cbv zeta. unfold check_connection. cbv zeta. rewrite C. change (DISCONNECTED =? CONNECTED) with false.
  change (DISCONNECTED =? CONNECTING) with false. rewrite orb_false_r. cbn [negb].
  destruct (_ >? _).
  - change (DISCONNECTED =? DISCONNECTED) with true. cbv iota. set (w1 := note _ _).
    destruct (calm_no_try i w1 _ (calm_connect W i o w1)) as (l & L1 & L2).
    destruct (async_connect W i o w1) as [w2 r]. cbn [fst] in L1.
    exists (EResult i r :: l). split.
    + destruct (r =? DISCONNECTED); [|destruct (r =? CONNECTING); [|destruct (r =? CONNECTED)]]; cbn [fst upc note tr]; rewrite L1; reflexivity.
    + intros t [E|E]; [discriminate|exact (L2 t E)].
  - cbn [fst snd]. split; [reflexivity|]. split; [|reflexivity]. rewrite upc_self. reflexivity.
Qed.

Lemma send_attempt i n o w : cst (cl w i) = DISCONNECTED ->
  let w' := async_send W i n o w in
  if get_delta_millisec W (o_now o) (tried (cl w i)) >? wait (cl w i)
  then exists l, tr w' = l ++ ETry i (o_now o) :: tr w /\ no_try i l
  else tr w' = tr w /\ ares (cl w' i) = AR_SOCKETERROR.
Proof.
  intros C. cbv zeta. unfold async_send. cbv zeta.
  set (w1 := upc i _ w).
  assert (C1 : cst (cl w1 i) = DISCONNECTED) by (unfold w1; rewrite upc_self; exact C).
  pose proof (check_attempt i o w1 C1) as X. cbv zeta in X.
  assert (E1 : tried (cl w1 i) = tried (cl w i) /\ wait (cl w1 i) = wait (cl w i)) by (unfold w1; rewrite upc_self; auto).
  destruct E1 as [E1 E2]. rewrite E1, E2 in X. change (tr w1) with (tr w) in X. clearbody w1.
  destruct (_ >? _).
  - destruct X as (l & L1 & L2). destruct (check_connection W i o w1) as [w2 ok]. cbn [fst] in L1.
    destruct ok; cbn [negb]; [|exists l; auto].
    destruct (_ <? 0).
    + exists (EClose i (sock (cl w2 i)) :: ESend i (sock (cl w2 i)) :: l). split.
      * unfold disconnect. cbn [upc close_fd note set_open tr cl]. rewrite L1. rewrite Z.eqb_refl. reflexivity.
      * intros t [E|[E|E]]; try discriminate. exact (L2 t E).
    + exists (ESend i (sock (cl w2 i)) :: l). split; [cbn [upc set_reg note tr]; rewrite L1; reflexivity|].
      intros t [E|E]; try discriminate. exact (L2 t E).
  - destruct X as (X1 & X2 & X3). destruct (check_connection W i o w1) as [w2 ok]. cbn [fst snd] in *. subst ok. cbn [negb]. auto.
Qed.

(** * Outstanding requests *)

(** What becomes of the request of a client in one pass. *)
Definition settled (now : Z) (rd : Z -> bool) (rc : Z -> Z) (i : Z) (c : client) (w' : world) (g : list (Z * Z)) : Prop :=
  if rd (sock c) then
    ~ In i (map snd g) /\
    (if 0 <? rc (sock c)
     then cl w' i = set_ares (rc (sock c)) c
     else ares (cl w' i) = AR_SOCKETERROR /\ cst (cl w' i) = DISCONNECTED)
  else if (tmo c * 2) mod 2 ^ W <? get_delta_millisec W now (queued c) then
    ~ In i (map snd g) /\ ares (cl w' i) = AR_TIMEOUT /\ cst (cl w' i) = DISCONNECTED
  else cl w' i = c /\ In i (map snd g).

Lemma eval_other now rd rc r : forall w j, ~ In j (map snd r) ->
  cl (snd (eval_clients W now rd rc r w)) j = cl w j /\ ~ In j (map snd (fst (eval_clients W now rd rc r w))).
Proof.
  induction r as [|[k i] r IH]; intros w j H; cbn [eval_clients]; [auto|]. cbv zeta. cbn [map snd In] in H.
  assert (N : j <> i) by (intros ->; apply H; auto). assert (H2 : ~ In j (map snd r)) by tauto.
  assert (DC : forall v, cl (upc i (set_ares v) (disconnect i w)) j = cl w j).
  { intros v. unfold disconnect. rewrite !upc_other by exact N. reflexivity. }
  destruct (rd _).
  - destruct (IH (if rc (sock (cl w i)) <=? 0 then upc i (set_ares AR_SOCKETERROR) (disconnect i w) else upc i (set_ares (rc (sock (cl w i)))) w) j H2) as [I1 I2].
    split; [|exact I2]. rewrite I1. destruct (_ <=? 0); [apply DC|apply upc_other; exact N].
  - destruct (_ >? _).
    + destruct (IH (upc i (set_ares AR_TIMEOUT) (disconnect i w)) j H2) as [I1 I2]. split; [|exact I2]. rewrite I1. apply DC.
    + destruct (IH w j H2) as [I1 I2]. destruct (eval_clients W now rd rc r w) as [l' w']. cbn [fst snd map In] in *. split; [exact I1|]. intros [E|E]; auto.
Qed.

Lemma eval_settled now rd rc r : forall w i, NoDup (map snd r) -> In i (map snd r) ->
  settled now rd rc i (cl w i) (snd (eval_clients W now rd rc r w)) (fst (eval_clients W now rd rc r w)).
Proof.
  induction r as [|[k i0] r IH]; intros w i D H; [destruct H|]. cbn [map snd] in D, H. inversion D as [|? ? D1 D2]; subst.
  cbn [eval_clients]. cbv zeta. destruct (Z.eq_dec i i0) as [->|N].
  - unfold settled, ul. destruct (rd _).
    + destruct (eval_other now rd rc r (if rc (sock (cl w i0)) <=? 0 then upc i0 (set_ares AR_SOCKETERROR) (disconnect i0 w) else upc i0 (set_ares (rc (sock (cl w i0)))) w) i0 D1) as [I1 I2].
      split; [exact I2|]. rewrite I1. clear I1 I2. destruct (Z.ltb_spec 0 (rc (sock (cl w i0)))).
      * replace (rc (sock (cl w i0)) <=? 0) with false by lia. apply upc_self.
      * replace (rc (sock (cl w i0)) <=? 0) with true by lia. unfold disconnect. rewrite !upc_self. cbn. auto.
    + rewrite Z.gtb_ltb. destruct (_ <? _).
      * destruct (eval_other now rd rc r (upc i0 (set_ares AR_TIMEOUT) (disconnect i0 w)) i0 D1) as [I1 I2].
        split; [exact I2|]. rewrite I1. unfold disconnect. rewrite !upc_self. cbn. auto.
      * destruct (eval_other now rd rc r w i0 D1) as [I1 I2]. destruct (eval_clients W now rd rc r w) as [l' w']. cbn [fst snd map In] in *. auto.
  - destruct H as [H|H]; [congruence|].
    assert (X : forall w1, cl w1 i = cl w i ->
      settled now rd rc i (cl w i) (snd (eval_clients W now rd rc r w1)) (fst (eval_clients W now rd rc r w1))).
    { intros w1 <-. apply IH; auto. }
    destruct (rd (sock (cl w i0))).
    + apply X. destruct (_ <=? 0); [unfold disconnect; rewrite !upc_other by exact N; reflexivity|apply upc_other; exact N].
    + destruct (_ >? _); [apply X; unfold disconnect; rewrite !upc_other by exact N; reflexivity|].
      specialize (X w eq_refl). destruct (eval_clients W now rd rc r w) as [l' w']. cbn [fst snd] in *.
      unfold settled in *. cbn [map In snd]. destruct (rd _); [|destruct (_ <? _)].
      * destruct X as [X1 X2]. split; [|exact X2]. intros [E|E]; [congruence|auto].
      * destruct X as [X1 X2]. split; [|exact X2]. intros [E|E]; [congruence|auto].
      * tauto.
Qed.

Lemma inv_clients base w : inv base w -> NoDup (map snd (reg w)).
Proof.
  intros (_ & _ & _ & G & D). revert G D. generalize (reg w). intros l.
  induction l as [|[k i] l IH]; intros G D; [constructor|]. cbn [map fst snd] in *. inversion D as [|? ? D1 D2]; subst.
  constructor; [|apply IH; auto; intros k' i' H; apply G; cbn; auto].
  intros H. apply in_map_iff in H as ([k' i'] & E & H). cbn in E. subst i'.
  destruct (G k i ltac:(cbn; auto)) as (_ & G1 & _). destruct (G k' i ltac:(cbn; auto)) as (_ & G2 & _).
  apply D1. apply in_map_iff. exists (k', i). cbn. split; [congruence|exact H].
Qed.

(** Waiting for an answer that never comes while no descriptor is ready. *)
Lemma patient_do base i x w : inv base w -> registered w i ->
  match snd x with Eval [CyNothing] => True | Poll j _ _ | Result j => j = i | _ => False end ->
  do_call W x w = w.
Proof.
  intros (_ & _ & _ & G & _) [k H] P. destruct (G k i H) as (G1 & _ & G3). destruct x as [[o o2] c]. cbn [snd] in P.
  assert (E : get_async_result W i o w = (w, AR_BUSY)).
  { unfold get_async_result. rewrite G1. change (1 =? CONNECTING) with false. cbv iota zeta. rewrite G3. reflexivity. }
  destruct c; try contradiction; cbn [do_call].
  - subst. rewrite E. reflexivity.
  - subst. unfold modbus_poll. rewrite E. change (AR_BUSY =? AR_BUSY) with true. reflexivity.
  - destruct l as [|c [|? ?]]; try contradiction; destruct c; try contradiction. reflexivity.
Qed.
End W.

(** * Frames *)

Lemma cells_map m n : map (fun k => m (Z.of_nat k)) (seq 0 (Z.to_nat n)) = cells m 0 n.
Proof. unfold cells. apply map_ext. intros k. f_equal. Qed.

Lemma cells_app m a n k : 0 <= n -> 0 <= k -> cells m a (n + k) = cells m a n ++ cells m (a + n) k.
Proof.
  intros. unfold cells. rewrite Z2Nat.inj_add, seq_app, map_app by lia. f_equal.
  cbn [plus]. generalize (Z.to_nat k). intros q.
  cut (forall s, map (fun x => m (a + Z.of_nat x)) (seq (s + Z.to_nat n) q) = map (fun x => m (a + n + Z.of_nat x)) (seq s q)).
  { intros X. apply (X 0%nat). }
  induction q as [|q IH]; intros s; [reflexivity|]. cbn [seq map]. f_equal; [f_equal; lia|]. apply (IH (S s)).
Qed.
Lemma cells_ext m m' a n : (forall x, a <= x < a + n -> m x = m' x) -> cells m a n = cells m' a n.
Proof. intros H. unfold cells. apply map_ext_in. intros k I. apply in_seq in I. apply H. lia. Qed.
Lemma cells_length m a n : 0 <= n -> Z.of_nat (length (cells m a n)) = n.
Proof. intros. unfold cells. rewrite map_length, seq_length. lia. Qed.

Lemma put_other m a v x : x <> a -> put m a v x = m x.
Proof. intros. unfold put. replace (x =? a) with false by lia. reflexivity. Qed.
Lemma puts5 m p0 p1 p2 p3 p4 n : 0 <= n ->
  cells (put (put (put (put (put m 0 p0) 1 p1) 2 p2) 3 p3) 4 p4) 0 (5 + n) = [p0; p1; p2; p3; p4] ++ cells m 5 n.
Proof.
  intros. rewrite cells_app by lia. f_equal. apply cells_ext. intros x Hx. rewrite !put_other by lia. reflexivity.
Qed.

Lemma byte_hi x : 0 <= x < 65536 -> Z.land (Z.shiftr x 8) 0xFF = x / 256.
Proof.
  intros. change 0xFF with (Z.ones 8). rewrite Z.land_ones, Z.shiftr_div_pow2 by lia. change (2 ^ 8) with 256.
  apply Z.mod_small. split; [apply Z.div_pos; lia|]. apply Z.div_lt_upper_bound; lia.
Qed.
Lemma byte_hi_mod x : Z.land (Z.shiftr x 8) 0xFF = (x mod 65536) / 256.
Proof.
  change 0xFF with (Z.ones 8). rewrite Z.land_ones, Z.shiftr_div_pow2 by lia. change (2 ^ 8) with 256.
  change 65536 with (256 * 256). rewrite Z.rem_mul_r by lia.
  rewrite Z.mul_comm, Z.div_add by lia. rewrite (Z.div_small (x mod 256)) by (apply Z.mod_pos_bound; lia). reflexivity.
Qed.
Lemma byte_lo x : Z.land x 0xFF = x mod 256.
Proof. change 0xFF with (Z.ones 8). rewrite Z.land_ones by lia. reflexivity. Qed.

Lemma s32_small x : - 2 ^ 31 <= x < 2 ^ 31 -> s32 x = x.
Proof. intros. unfold s32. rewrite Z.mod_small; lia. Qed.

Lemma akn_data_bytes net p len m : 0 <= len < 2 ^ 31 - 5 ->
  answer_bytes (akn_data net p len m) = [net; AKN_OK; p; (len mod 65536) / 256; len mod 256] ++ cells m 5 len.
Proof.
  intros H. unfold answer_bytes, akn_data. cbn [fst snd]. rewrite s32_small by lia. rewrite cells_map, byte_hi_mod, byte_lo.
  rewrite Z.add_comm. apply puts5. lia.
Qed.
Lemma akn_ok_bytes net p m : answer_bytes (akn_ok net p m) = [net; AKN_OK; p; 0; 0].
Proof. reflexivity. Qed.
Lemma error_bytes net p e m : answer_bytes (error_akn net p e m) = [net; AKN_ERR; p; 0; 1; e].
Proof. reflexivity. Qed.

(** * Sending *)

Lemma sendall_prefix os : forall buf res, exists r, buf = snd (sendall os buf res) ++ r.
Proof.
  induction os as [|[s n] os IH]; intros [|b buf] res; cbn [sendall]; try (eexists; reflexivity).
  destruct (s =? 0); [eexists; reflexivity|]. destruct (s =? -1); [eexists; reflexivity|].
  destruct (n <? 0); [eexists; reflexivity|].
  destruct (IH (skipn (Z.to_nat n) (b :: buf)) s) as [r R].
  destruct (sendall os (skipn (Z.to_nat n) (b :: buf)) s) as [x l]. cbn [snd] in *. exists r.
  rewrite <- app_assoc, <- R. symmetry. apply firstn_skipn.
Qed.

Lemma sendall_all os : forall buf res v, Forall select_ok os -> 0 <= res ->
  fst (sendall os buf res) = Some v -> 0 <= v -> snd (sendall os buf res) = buf.
Proof.
  induction os as [|[s n] os IH]; intros [|b buf] res v F R E V; cbn [sendall] in *; try reflexivity; try discriminate.
  inversion F as [|? ? F1 F2]; subst. unfold select_ok in F1. cbn [fst] in F1.
  destruct (Z.eqb_spec s 0); [cbn in E; congruence || (inversion E; lia)|].
  destruct (Z.eqb_spec s (-1)); [inversion E; lia|]. destruct (n <? 0); [inversion E; lia|].
  specialize (IH (skipn (Z.to_nat n) (b :: buf)) s v F2 ltac:(lia)).
  destruct (sendall os (skipn (Z.to_nat n) (b :: buf)) s) as [x l]. cbn [fst snd] in *.
  rewrite IH by assumption. apply firstn_skipn.
Qed.

Lemma sendall_fail os : forall buf res v, Forall select_ok os -> 0 <= res ->
  fst (sendall os buf res) = Some v -> v < 0 -> v = -1 \/ v = -2 \/ v = -3.
Proof.
  induction os as [|[s n] os IH]; intros [|b buf] res v F R E V; cbn [sendall] in *; try discriminate; try (inversion E; lia).
  inversion F as [|? ? F1 F2]; subst. unfold select_ok in F1. cbn [fst] in F1.
  destruct (Z.eqb_spec s 0); [inversion E; lia|].
  destruct (Z.eqb_spec s (-1)); [inversion E; lia|]. destruct (n <? 0); [inversion E; lia|].
  specialize (IH (skipn (Z.to_nat n) (b :: buf)) s v F2 ltac:(lia)).
  destruct (sendall os (skipn (Z.to_nat n) (b :: buf)) s) as [x l]. cbn [fst snd] in *. auto.
Qed.

(** Ready at every pass and at least a byte taken: everything is sent. *)
Lemma sendall_live os : forall buf res, Forall (fun x => 0 < fst x /\ 0 < snd x) os -> 0 <= res ->
  (length buf <= length os)%nat -> exists v, 0 <= v /\ sendall os buf res = (Some v, buf).
Proof.
  induction os as [|[s n] os IH]; intros [|b buf] res F R L; cbn [sendall length] in *; try lia; try (exists res; auto; fail).
  inversion F as [|? ? F1 F2]; subst. cbn [fst snd] in F1. destruct F1 as [F1 F1'].
  replace (s =? 0) with false by lia. replace (s =? -1) with false by lia. replace (n <? 0) with false by lia.
  destruct (IH (skipn (Z.to_nat n) (b :: buf)) s F2 ltac:(lia)) as (v & V1 & V2).
  - rewrite skipn_length. cbn [length]. lia.
  - rewrite V2. exists v. split; [exact V1|]. f_equal. apply firstn_skipn.
Qed.

(** * The link *)

Lemma link_inv W l : forall ok alarm, alarm = negb ok ->
  let x := link_state W l ok alarm in snd x = negb (fst x).
Proof.
  induction l as [|[now last] l IH]; intros ok alarm H; cbn [link_state]; [exact H|].
  unfold watch_link. destruct (_ >? _); apply IH; destruct ok; auto.
Qed.
Lemma link_last W l now last ok alarm : alarm = negb ok ->
  snd (link_state W (l ++ [(now, last)]) ok alarm) = (5000 <? get_delta_millisec W now last).
Proof.
  revert ok alarm. induction l as [|[n0 l0] l IH]; intros ok alarm H; cbn [link_state app].
  - unfold watch_link. rewrite Z.gtb_ltb. destruct (_ <? _); destruct ok; cbn; auto.
  - unfold watch_link. destruct (_ >? _); apply IH; destruct ok; auto.
Qed.
