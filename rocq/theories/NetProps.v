(** Properties C32, C33, C34, C61, C62 and C63: the network. *)
From Coq Require Import ZArith List Bool Lia.
From Verif Require Import Base TimeModel NetModel NetSpec NetProofs NetProofs2 NetProofs3.
Import ListNotations.
Open Scope Z_scope.

(** * C32: waiting before the next attempt to connect *)

(** After any history the waiting time is 5, 10, 20 or 40 timeouts, by the number
    of failures since the last success. *)
Theorem C32_waiting_time W T t0 base g h i : 0 <= W -> sized W T ->
  wait (cl (run W h (start W T t0 base g)) i) = waiting (T i) (failures i (tr (run W h (start W T t0 base g)))).
Proof. intros HW S. apply (timed_run W T t0 h _ S HW (timed_start W T t0 base g S) i). Qed.

(** Two attempts are never closer than the waiting time of that moment. *)
Theorem C32_attempts_apart W T t0 base g h i l1 t l2 : 0 <= W -> sized W T ->
  tr (run W h (start W T t0 base g)) = l1 ++ ETry i t :: l2 ->
  get_delta_millisec W t (last_try i t0 l2) > waiting (T i) (failures i l2).
Proof. intros HW S. apply (timed_run W T t0 h _ S HW (timed_start W T t0 base g S) i). Qed.

(** A request to a device that is not connected leads to exactly one attempt if
    the waiting time is over; if not, it fails at once. *)
Theorem C32_attempt_made W T t0 base g h i n o : 0 <= W -> sized W T ->
  let w := run W h (start W T t0 base g) in
  cst (cl w i) = DISCONNECTED ->
  let w' := async_send W i n o w in
  if waiting (T i) (failures i (tr w)) <? get_delta_millisec W (o_now o) (last_try i t0 (tr w))
  then exists l, tr w' = l ++ ETry i (o_now o) :: tr w /\ forall t, ~ In (ETry i t) l
  else tr w' = tr w /\ ares (cl w' i) = AR_SOCKETERROR.
Proof.
  intros HW S w C w'. destruct (timed_run W T t0 h _ S HW (timed_start W T t0 base g S) i) as (_ & E1 & E2 & _).
  fold w in E1, E2. pose proof (send_attempt W i n o w C) as X. cbv zeta in X. fold w' in X.
  rewrite E1, E2, Z.gtb_ltb in X. exact X.
Qed.

Definition o_at (now : Z) (op : opening) (s : selres) (send : Z) : os :=
  {| o_now := now; o_open := op; o_sel := s; o_send := send; o_avail := false; o_recv := 0 |}.
Definition base3 (fd : Z) : bool := (0 <=? fd) && (fd <=? 2).
Definition world0 : world := start 32 (fun _ => 300) 0 base3 (fun _ => (0, 0, false)).
Definition sends (i : Z) (l : list os) : list item := map (fun o => (o, o, Send i 5)) l.

(** The declared maximum, 30 timeouts, is exceeded. *)
Theorem C32_declared_maximum_refuted : exists h,
  wait (cl (run 32 h world0) 1) = 40 * 300 /\ 40 * 300 > 30 * tmo (cl (run 32 h world0) 1).
Proof.
  exists (sends 1 [o_at 10000 NoSocket SNothing 0; o_at 20000 NoSocket SNothing 0; o_at 30000 NoSocket SNothing 0]).
  vm_compute. auto.
Qed.

Example C32_example :
  let h := sends 1 [o_at 1500 (Pending 3) (SReady true) 0; o_at 1501 (Pending 3) (SReady true) 0;
                    o_at 4501 (Pending 3) (SReady true) 0; o_at 4502 (Pending 3) (SReady false) 5;
                    o_at 9000 (Pending 3) (SReady false) 5] in
  tr (run 32 h world0) =
    [ESend 1 3; ESend 1 3; EResult 1 1; ETry 1 4502; EResult 1 0; EClose 1 3; ETry 1 1501].
Proof. vm_compute. auto. Qed.

(** * C33: a connected device has an open connection of its own *)

(** After every proper history in which no attempt is refused at once: the
    descriptors that are open are those that were open before and the sockets of
    the clients that are connected or connecting, each of one client only. *)
Theorem C33_descriptors W T t0 base g h : proper_run W h (start W T t0 base g) ->
  owned base (run W h (start W T t0 base g)).
Proof. intros P. apply (run_inv W base h _ (inv_start W T t0 base g) P). Qed.

Theorem C33_connected_open W T t0 base g h i : proper_run W h (start W T t0 base g) ->
  let w := run W h (start W T t0 base g) in
  cst (cl w i) = CONNECTED -> 0 <= sock (cl w i) /\ opn w (sock (cl w i)) = true /\ base (sock (cl w i)) = false.
Proof.
  intros P w C. destruct (run_inv W base h _ (inv_start W T t0 base g) P) as ((O1 & O2 & O3) & _ & N & _). fold w in O1, O2, N.
  assert (A : alive w i) by (unfold alive; rewrite C; discriminate).
  split; [apply N; exact A|]. split; [apply O1; right; exists i; auto|apply O2; exact A].
Qed.

(** Every byte goes to a connection of the client that sends it, to none that
    belongs to another client or to the rest of the program. *)
Theorem C33_own_connection W T t0 base g h x : proper_run W (h ++ [x]) (start W T t0 base g) ->
  let w := run W h (start W T t0 base g) in
  exists l, tr (do_call W x w) = l ++ tr w /\
    forall j fd, In (ESend j fd) l ->
      j = subject (snd x) /\ base fd = false /\ forall k, k <> j -> alive w k -> sock (cl w k) <> fd.
Proof.
  intros P w. assert (Q : forall h v, proper_run W (h ++ [x]) v -> proper_run W h v /\ proper W (run W h v) x).
  { clear. induction h as [|y h IH]; intros v H; cbn in H |- *; [tauto|]. destruct H as [H1 H2]. destruct (IH _ H2). auto. }
  destruct (Q h _ P) as [P1 P2]. pose proof (run_inv W base h _ (inv_start W T t0 base g) P1) as I.
  destruct (do_inv W base x _ I P2) as [_ (l & L1 & L2)]. exists l. split; [exact L1|].
  intros j fd H. destruct (L2 j fd H) as (-> & A & B). auto.
Qed.

(** A blocking exchange reports bytes only if the request was sent and that many
    bytes came back; if sending or receiving fails, the connection is given up. *)
Theorem C33_exchange i o w : cst (cl w i) = 0 \/ cst (cl w i) = 1 ->
  let w1 := fst (communicate i o w) in
  let r := snd (communicate i o w) in
  (r <> 0 -> r = o_recv o /\ 0 < r /\ 0 <= o_send o /\ cst (cl w1 i) = 1 /\ In (ESend i (sock (cl w1 i))) (tr w1)) /\
  (o_send o < 0 \/ o_recv o < 0 -> r = 0 /\ cst (cl w1 i) = 0).
Proof.
  intros C w1 r. subst w1 r. unfold communicate.
  assert (K : forall w0 ok, (if cst (cl w i) =? 0 then connect i o w else (w, true)) = (w0, ok) -> cst (cl w0 i) = if ok then 1 else 0).
  { intros w0 ok E. destruct (Z.eqb_spec (cst (cl w i)) 0) as [Z|NZ].
    - unfold connect in E. rewrite Z in E. cbn [Z.eqb negb] in E.
      destruct (o_open o); try destruct (o_sel o) as [| |[|]]; injection E as <- <-; cbn; rewrite ?Z.eqb_refl; cbn; rewrite ?Z.eqb_refl; try exact Z; reflexivity.
    - injection E as <- <-. lia. }
  destruct (if cst (cl w i) =? 0 then connect i o w else (w, true)) as [w0 ok] eqn:E. specialize (K w0 ok eq_refl).
  destruct ok; cbn [negb].
  - destruct (Z.ltb_spec (o_send o) 0); [|destruct (Z.ltb_spec (o_recv o) 0)]; cbn [fst snd].
    + split; [congruence|]. intros _. split; [reflexivity|]. cbn. rewrite Z.eqb_refl. reflexivity.
    + split; [congruence|]. intros _. split; [reflexivity|]. cbn. rewrite Z.eqb_refl. reflexivity.
    + split; [|lia]. intros N. repeat split; try lia; [exact K|]. left. reflexivity.
  - cbn [fst snd]. split; [congruence|]. intros _. split; [reflexivity|exact K].
Qed.
Print Assumptions C33_exchange.

(** If an attempt is refused at once, the device is reported connected with
    descriptor 0, whatever that is, and gets the data of the request. *)
Theorem C33_refused_refuted W i n o w fd :
  cst (cl w i) = DISCONNECTED -> get_delta_millisec W (o_now o) (tried (cl w i)) > wait (cl w i) ->
  o_open o = Refused fd -> 0 <= o_send o ->
  let w' := async_send W i n o w in
  cst (cl w' i) = CONNECTED /\ sock (cl w' i) = 0 /\ (opn w 0 = false -> fd <> 0 -> opn w' 0 = false) /\
  exists l, tr w' = ESend i 0 :: l.
Proof.
  intros C D O S. cbv zeta. unfold async_send, check_connection. cbv zeta.
  rewrite !upc_self. cbn [set_tosend set_ares cst tried wait]. rewrite C.
  change (DISCONNECTED =? CONNECTED) with false. cbn [negb]. apply Z.gt_lt, Z.gtb_lt in D. rewrite D. cbn [orb].
  change (DISCONNECTED =? DISCONNECTED) with true. cbv iota.
  unfold async_connect. set (w1 := note _ _).
  assert (C1 : cst (cl w1 i) = DISCONNECTED) by (unfold w1; cbn [note cl]; rewrite !upc_self; exact C).
  rewrite C1. change (DISCONNECTED =? CONNECTED) with false. change (DISCONNECTED =? DISCONNECTED) with true. cbv iota.
  rewrite O. unfold finish_connect. set (w2 := disconnect _ _).
  assert (C2 : cst (cl w2 i) = 0 /\ sock (cl w2 i) = 0) by (unfold w2, disconnect; rewrite upc_self; auto).
  assert (O2 : forall x, opn w2 x = if x =? fd then false else opn w x).
  { intros x. unfold w2, disconnect. rewrite upc_self. cbn. destruct (x =? fd); reflexivity. }
  destruct C2 as [C2 C2']. rewrite C2. change (0 =? CONNECTING) with false. cbv iota. clearbody w2.
  change (CONNECTED =? DISCONNECTED) with false. change (CONNECTED =? CONNECTING) with false. change (CONNECTED =? CONNECTED) with true.
  cbv iota. cbn [negb]. replace (o_send o <? 0) with false by lia.
  assert (E : sock (cl (upc i (fun c => set_wait (ul W (tmo c * 5)) c) (note (EResult i CONNECTED) (upc i (set_cst CONNECTED) w2))) i) = 0).
  { rewrite upc_self. cbn [note cl]. rewrite upc_self. exact C2'. }
  split; [rewrite upc_self; cbn [set_reg note cl]; rewrite upc_self; cbn [note cl]; rewrite upc_self; reflexivity|].
  split; [rewrite upc_self; cbn [set_queued set_ares sock set_reg note cl]; exact E|].
  split; [intros X Y; cbn [upc set_reg note opn]; rewrite O2; destruct (0 =? fd) eqn:?; auto|].
  eexists. cbn [upc set_reg note tr]. f_equal. f_equal. exact E.
Qed.

(** If then the data cannot be sent, descriptor 0 of the program is closed; the
    next device to connect can get it, and its connection is used for the data
    of the first device: the request of the second is never finished. *)
Definition h_refused : list item :=
  [(o_at 10000 (Refused 3) SNothing (-3), o_at 0 NoSocket SNothing 0, Send 1 5);
   (o_at 20000 (Pending 0) (SReady false) 5, o_at 0 NoSocket SNothing 0, Send 2 5);
   (o_at 30000 (Refused 3) SNothing 5, o_at 0 NoSocket SNothing 0, Send 1 5)].
Theorem C33_foreign_descriptor_refuted :
  let w1 := run 32 (firstn 1 h_refused) world0 in
  let w3 := run 32 h_refused world0 in
  base3 0 = true /\ opn w1 0 = false /\
  cst (cl w3 2) = CONNECTED /\ sock (cl w3 2) = 0 /\ hd_error (tr w3) = Some (ESend 1 0) /\
  ares (cl w3 2) = AR_BUSY /\ ~ registered w3 2.
Proof.
  cbv zeta. repeat (split; [vm_compute; reflexivity|]).
  intros [k H]. vm_compute in H. destruct H as [H|[]]. discriminate.
Qed.

Example C33_example :
  let h := [(o_at 10000 (Pending 3) SNothing 0, o_at 0 NoSocket SNothing 0, Send 1 5);
            (o_at 10001 (Pending 4) (SReady false) 5, o_at 0 NoSocket SNothing 0, Send 2 5);
            (o_at 10100 NoSocket (SReady false) 5, o_at 0 NoSocket SNothing 0, Result 1);
            (o_at 0 NoSocket SNothing 0, o_at 0 NoSocket SNothing 0,
               Eval [CyReady 10200 (fun fd => fd =? 4) (fun _ => 12)])] in
  proper_run 32 h world0 /\
  let w := run 32 h world0 in
  cst (cl w 1) = CONNECTED /\ sock (cl w 1) = 3 /\ cst (cl w 2) = CONNECTED /\ sock (cl w 2) = 4 /\
  ares (cl w 1) = AR_BUSY /\ ares (cl w 2) = 12 /\ reg w = [(3, 1)].
Proof.
  cbv zeta. split; [|vm_compute; repeat split; reflexivity].
  cbn [proper_run proper allowed fresh o_at o_open o_now refused]. unfold registered.
  repeat split; auto; try discriminate; vm_compute; try reflexivity; try (intros [k []]).
Qed.

(** * C34: frames of the server *)

Theorem C34_data services msg f res m : let b := load msg in
  b 0 = 115 -> b 1 < 16 -> b 2 = 1 -> 0 <= b 3 -> services (b 1) = Some f ->
  f (b 4 * 256 + b 5) b = (res, m) -> 0 <= res < 65536 ->
  answer_bytes (answer services msg) = frame 115 12 (b 3) (cells m 5 res).
Proof.
  intros b N K C P S F R. unfold answer. fold b. cbv zeta. rewrite N, S, C.
  replace (b 1 <? 16) with true by lia. replace (1 + b 3 =? 0) with false by lia.
  change (115 =? 115) with true. change (1 =? 1) with true. cbn [andb negb]. rewrite F.
  unfold frame. cbv zeta. rewrite cells_length by lia. destruct (Z.eqb_spec res 0) as [->|Z].
  - rewrite akn_ok_bytes. reflexivity.
  - rewrite akn_data_bytes by lia. rewrite Z.mod_small by lia. reflexivity.
Qed.

Theorem C34_wrong_command services msg f : let b := load msg in
  b 0 = 115 -> b 1 < 16 -> b 2 <> 1 -> b 2 + b 3 <> 0 -> services (b 1) = Some f ->
  answer_bytes (answer services msg) = frame 115 7 (b 3) [5].
Proof.
  intros b N K C P S. unfold answer. fold b. cbv zeta. rewrite N, S.
  replace (b 1 <? 16) with true by lia. replace (b 2 + b 3 =? 0) with false by lia. replace (b 2 =? 1) with false by lia.
  reflexivity.
Qed.

Theorem C34_unknown_service services msg : let b := load msg in
  b 2 + b 3 <> 0 -> b 0 <> 115 \/ 16 <= b 1 \/ services (b 1) = None ->
  answer_bytes (answer services msg) = frame (b 0) 7 (b 3) [3].
Proof.
  intros b P H. unfold answer. fold b. cbv zeta. replace (b 2 + b 3 =? 0) with false by lia. cbn [negb].
  rewrite andb_true_r.
  assert (E : (if (b 0 =? 115) && (b 1 <? 16) then services (b 1) else None) = None).
  { destruct H as [H|[H|H]].
    - replace (b 0 =? 115) with false by lia. reflexivity.
    - replace (b 1 <? 16) with false by lia. rewrite andb_false_r. reflexivity.
    - rewrite H. destruct (_ && _); reflexivity. }
  rewrite E. reflexivity.
Qed.

(** Modbus: the length of what follows in bytes 4 and 5. *)
Theorem C34_modbus services msg f res m : let b := load msg in
  b 2 + b 3 = 0 -> services 15 = Some f -> f (b 4 * 256 + b 5) b = (res, m) -> 0 < res < 65536 ->
  answer_bytes (answer services msg) = cells m 0 4 ++ [res / 256; res mod 256] ++ cells m 6 res.
Proof.
  intros b P S F R. unfold answer. fold b. cbv zeta. rewrite P. change (0 =? 0) with true. cbn [negb]. rewrite andb_false_r.
  rewrite S, F. replace (res >? 0) with true by lia. unfold answer_bytes. cbn [fst snd].
  rewrite s32_small by lia. rewrite cells_map, byte_hi, byte_lo by lia.
  replace (res + 6) with (4 + (2 + res)) by lia. rewrite (cells_app _ 0 4) by lia. apply f_equal2.
  - apply cells_ext. intros x Hx. rewrite !put_other by lia. reflexivity.
  - rewrite cells_app by lia. f_equal. apply cells_ext. intros x Hx. rewrite !put_other by lia. reflexivity.
Qed.

(** Without an answer of the service as many bytes go back as have come. *)
Theorem C34_modbus_silent services msg f res m : let b := load msg in
  b 2 + b 3 = 0 -> services 15 = Some f -> f (b 4 * 256 + b 5) b = (res, m) -> res <= 0 ->
  answer_bytes (answer services msg) = cells m 0 (Z.of_nat (length msg)).
Proof.
  intros b P S F R. unfold answer. fold b. cbv zeta. rewrite P. change (0 =? 0) with true. cbn [negb]. rewrite andb_false_r.
  rewrite S, F. replace (res >? 0) with false by lia. unfold answer_bytes. cbn [fst snd]. apply cells_map.
Qed.

(** More than 65535 bytes of data: the announced length is too small. *)
Theorem C34_long_data_refuted services msg f res m : let b := load msg in
  b 0 = 115 -> b 1 < 16 -> b 2 = 1 -> 0 <= b 3 -> services (b 1) = Some f ->
  f (b 4 * 256 + b 5) b = (res, m) -> 65536 <= res < 2 ^ 31 - 5 ->
  exists hi lo, answer_bytes (answer services msg) = [115; 12; b 3; hi; lo] ++ cells m 5 res /\
    hi * 256 + lo = res mod 65536 /\ hi * 256 + lo < Z.of_nat (length (cells m 5 res)).
Proof.
  intros b N K C P S F R. unfold answer. fold b. cbv zeta. rewrite N, S, C.
  replace (b 1 <? 16) with true by lia. replace (1 + b 3 =? 0) with false by lia.
  change (115 =? 115) with true. change (1 =? 1) with true. cbn [andb negb]. rewrite F.
  replace (res =? 0) with false by lia. rewrite akn_data_bytes by lia.
  exists ((res mod 65536) / 256), (res mod 256). split; [reflexivity|]. rewrite cells_length by lia.
  assert (E : res mod 256 = (res mod 65536) mod 256).
  { change 65536 with (256 * 256). rewrite Z.rem_mul_r by lia. rewrite Z.mul_comm, Z.mod_add by lia. rewrite Z.mod_mod by lia. reflexivity. }
  assert (E2 : res mod 65536 / 256 * 256 + res mod 256 = res mod 65536).
  { rewrite E, Z.mul_comm. symmetry. apply Z.div_mod. lia. }
  rewrite E2. split; [reflexivity|]. pose proof (Z.mod_pos_bound res 65536 ltac:(lia)). lia.
Qed.

(** A service that fails with -4..-1 makes an incomplete header go out. *)
Theorem C34_failed_service_refuted services msg f res m : let b := load msg in
  b 0 = 115 -> b 1 < 16 -> b 2 = 1 -> 0 <= b 3 -> services (b 1) = Some f ->
  f (b 4 * 256 + b 5) b = (res, m) -> -5 <= res < 0 ->
  answer_bytes (answer services msg) = firstn (Z.to_nat (res + 5)) [115; 12; b 3; 255; res mod 256].
Proof.
  intros b N K C P S F R. unfold answer. fold b. cbv zeta. rewrite N, S, C.
  replace (b 1 <? 16) with true by lia. replace (1 + b 3 =? 0) with false by lia.
  change (115 =? 115) with true. change (1 =? 1) with true. cbn [andb negb]. rewrite F.
  replace (res =? 0) with false by lia.
  assert (res = -5 \/ res = -4 \/ res = -3 \/ res = -2 \/ res = -1) as [->|[->|[->|[->| ->]]]] by lia; reflexivity.
Qed.

Example C34_example :
  let echo : service := fun n m => (n, fun a => m (a + 1)) in
  answer_bytes (answer (fun k => if k =? 1 then Some echo else None) [115; 1; 1; 9; 0; 3; 65; 66; 67])
    = [115; 12; 9; 0; 3; 65; 66; 67] /\
  answer_bytes (answer (fun k => if k =? 1 then Some echo else None) [115; 2; 1; 9; 0; 3; 65; 66; 67])
    = [115; 7; 9; 0; 1; 3] /\
  answer_bytes (answer (fun k => if k =? 15 then Some (fun _ m => (3, put (put (put m 6 1) 7 3) 8 0)) else None)
     [0; 1; 0; 0; 0; 6; 1; 3; 0; 0; 0; 1]) = [0; 1; 0; 0; 0; 3; 1; 3; 0].
Proof. vm_compute. auto. Qed.

(** * C61: all bytes are sent, or a failure is reported *)

Theorem C61_in_order os buf : exists rest, buf = snd (sendall os buf 0) ++ rest.
Proof. apply sendall_prefix. Qed.

Theorem C61_success_means_all os buf v : Forall select_ok os ->
  fst (sendall os buf 0) = Some v -> 0 <= v -> snd (sendall os buf 0) = buf.
Proof. intros F E V. apply (sendall_all os buf 0 v F); auto. lia. Qed.

Theorem C61_failure_codes os buf v : Forall select_ok os ->
  fst (sendall os buf 0) = Some v -> v < 0 -> v = -1 \/ v = -2 \/ v = -3.
Proof. intros F E V. apply (sendall_fail os buf 0 v F); auto. lia. Qed.

(** If the connection takes at least a byte each time, everything is sent in at
    most as many passes as there are bytes. *)
Theorem C61_everything_sent os buf : Forall (fun x => 0 < fst x /\ 0 < snd x) os ->
  (length buf <= length os)%nat -> exists v, 0 <= v /\ sendall os buf 0 = (Some v, buf).
Proof. intros F L. apply sendall_live; auto. lia. Qed.

(** A descriptor that is ready but takes nothing keeps the caller in the loop. *)
Theorem C61_endless_refuted n b buf : sendall (repeat (1, 0) n) (b :: buf) 0 = (None, []).
Proof.
  cut (forall r, sendall (repeat (1, 0) n) (b :: buf) r = (None, [])); [auto|].
  induction n as [|n IH]; intros r; [reflexivity|]. cbn [repeat sendall].
  change (1 =? 0) with false. change (1 =? -1) with false. change (0 <? 0) with false. cbv iota zeta.
  change (skipn (Z.to_nat 0) (b :: buf)) with (b :: buf). rewrite IH. reflexivity.
Qed.

Example C61_example :
  sendall [(1, 2); (1, 1); (1, 2)] [1; 2; 3; 4; 5] 0 = (Some 1, [1; 2; 3; 4; 5]) /\
  sendall [(1, 2); (0, 0)] [1; 2; 3; 4; 5] 0 = (Some (-2), [1; 2]) /\
  sendall [(1, 2); (1, -1)] [1; 2; 3; 4; 5] 0 = (Some (-3), [1; 2]).
Proof. vm_compute. auto. Qed.

(** * C62: an outstanding request is finished *)

(** One pass in which something is ready: the request of every waiting client is
    answered (data), failed (closed connection), timed out, or still waits. *)
Theorem C62_pass W T t0 base g h i now rd rc : proper_run W h (start W T t0 base g) ->
  let w := run W h (start W T t0 base g) in
  registered w i ->
  let c := cl w i in
  let w' := evaluate_clients W [CyReady now rd rc] w in
  ares c = AR_BUSY /\
  if rd (sock c) then
    ~ registered w' i /\
    (if 0 <? rc (sock c) then cl w' i = set_ares (rc (sock c)) c
     else ares (cl w' i) = AR_SOCKETERROR /\ cst (cl w' i) = DISCONNECTED)
  else if (tmo c * 2) mod 2 ^ W <? get_delta_millisec W now (queued c) then
    ~ registered w' i /\ ares (cl w' i) = AR_TIMEOUT /\ cst (cl w' i) = DISCONNECTED
  else registered w' i /\ cl w' i = c.
Proof.
  intros P w [k H] c w'. pose proof (run_inv W base h _ (inv_start W T t0 base g) P) as I. fold w in I.
  assert (B : ares c = AR_BUSY) by (apply I in H; apply H). split; [exact B|].
  assert (M : In i (map snd (reg w))) by (apply in_map_iff; exists (k, i); auto).
  pose proof (eval_settled W now rd rc (reg w) w i (inv_clients base w I) M) as X. unfold settled in X. fold c in X.
  unfold w'. cbn [evaluate_clients]. destruct (eval_clients W now rd rc (reg w) w) as [l' v]. cbn [fst snd] in X.
  assert (R : registered (set_reg l' v) i <-> In i (map snd l')).
  { unfold registered. cbn [set_reg reg]. rewrite in_map_iff. split.
    - intros [k' H']. exists (k', i). auto.
    - intros ([k' i'] & E & H'). cbn in E. subst. exists k'. exact H'. }
  cbn [set_reg cl]. destruct (rd (sock c)); [tauto|]. destruct (_ <? _); tauto.
Qed.

(** As long as no descriptor of the program is ready, a request stays outstanding
    whatever time has passed: time is looked at only in a pass with something ready. *)
Theorem C62_timeout_refuted W T t0 base g h i h' : proper_run W h (start W T t0 base g) ->
  let w := run W h (start W T t0 base g) in
  registered w i ->
  Forall (fun x => match snd x with Eval [CyNothing] => True | Poll j _ _ | Result j => j = i | _ => False end) h' ->
  run W h' w = w /\ ares (cl (run W h' w) i) = AR_BUSY.
Proof.
  intros P w R F. pose proof (run_inv W base h _ (inv_start W T t0 base g) P) as I. fold w in I.
  assert (E : run W h' w = w).
  { induction F as [|x h' F1 F2 IH]; [reflexivity|]. cbn [run fold_left].
    rewrite (patient_do W base i x w I R F1). exact IH. }
  rewrite E. split; [reflexivity|]. destruct R as [k H]. apply I in H. apply H.
Qed.

Example C62_example :
  let z := o_at 0 NoSocket SNothing 0 in
  let h := [(o_at 10000 (Pending 3) (SReady false) 5, z, Send 1 5); (o_at 10001 (Pending 4) (SReady false) 5, z, Send 2 5)] in
  let w := run 32 h world0 in
  reg w = [(3, 1); (4, 2)] /\
  (let w' := evaluate_clients 32 [CyReady 10601 (fun fd => fd =? 9) (fun _ => 0)] w in
   ares (cl w' 1) = AR_TIMEOUT /\ ares (cl w' 2) = AR_BUSY /\ opn w' 3 = false /\ opn w' 4 = true) /\
  (let w' := evaluate_clients 32 [CyReady 10100 (fun fd => fd =? 4) (fun _ => 0)] w in
   ares (cl w' 1) = AR_BUSY /\ ares (cl w' 2) = AR_SOCKETERROR /\ cst (cl w' 2) = 0).
Proof. vm_compute. repeat split; reflexivity. Qed.

(** * C63: the alarm "no connection to the server" *)

(** After any sequence of evaluations the alarm is raised exactly if at the last
    of them more than five seconds had passed since the last transfer. *)
Theorem C63_alarm W l now last :
  snd (link_state W (l ++ [(now, last)]) true false) = (5000 <? get_delta_millisec W now last).
Proof. apply link_last. reflexivity. Qed.

(** It is raised only when it is not raised and cleared only when it is. *)
Theorem C63_changes W l now last b :
  let '(ok, alarm) := link_state W l true false in
  snd (watch_link W now last ok) = Some b -> alarm = negb b.
Proof.
  pose proof (link_inv W l true false eq_refl) as X. cbv zeta in X. destruct (link_state W l true false) as [ok alarm].
  cbn [fst snd] in X. subst. unfold watch_link. destruct (_ >? _); destruct ok; cbn; intros E; inversion E; reflexivity.
Qed.

Example C63_example :
  map (fun n => snd (link_state 32 (firstn n [(1000, 900); (5900, 900); (5901, 900); (7000, 900); (7001, 7000)]) true false)) (seq 0 6)
  = [false; false; false; true; true; false].
Proof. vm_compute. reflexivity. Qed.

Print Assumptions C32_waiting_time.
Print Assumptions C32_attempts_apart.
Print Assumptions C32_attempt_made.
Print Assumptions C32_declared_maximum_refuted.
Print Assumptions C33_descriptors.
Print Assumptions C33_connected_open.
Print Assumptions C33_own_connection.
Print Assumptions C33_refused_refuted.
Print Assumptions C33_foreign_descriptor_refuted.
Print Assumptions C34_data.
Print Assumptions C34_wrong_command.
Print Assumptions C34_unknown_service.
Print Assumptions C34_modbus.
Print Assumptions C34_modbus_silent.
Print Assumptions C34_long_data_refuted.
Print Assumptions C34_failed_service_refuted.
Print Assumptions C61_in_order.
Print Assumptions C61_success_means_all.
Print Assumptions C61_failure_codes.
Print Assumptions C61_everything_sent.
Print Assumptions C61_endless_refuted.
Print Assumptions C62_pass.
Print Assumptions C62_timeout_refuted.
Print Assumptions C63_alarm.
Print Assumptions C63_changes.
