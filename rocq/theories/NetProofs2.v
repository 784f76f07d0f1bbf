(** Ownership of descriptors. *)
From Coq Require Import ZArith List Bool Lia Permutation.
From Verif Require Import Base TimeModel NetModel NetSpec NetProofs.
Import ListNotations.
Open Scope Z_scope.

Definition inv (base : Z -> bool) (w : world) : Prop :=
  owned base w /\
  (forall i, cst (cl w i) = 0 \/ cst (cl w i) = 1 \/ cst (cl w i) = -1) /\
  (forall i, alive w i -> 0 <= sock (cl w i)) /\
  (forall k i, In (k, i) (reg w) -> cst (cl w i) = 1 /\ sock (cl w i) = k /\ ares (cl w i) = AR_BUSY) /\
  NoDup (map fst (reg w)).

Lemma inv_same base w w' : inv base w ->
  (forall j, (alive w j -> sock (cl w' j) = sock (cl w j)) /\
             (alive w' j <-> alive w j) /\
             (cst (cl w' j) = 0 \/ cst (cl w' j) = 1 \/ cst (cl w' j) = -1) /\
             (registered w j -> cst (cl w' j) = cst (cl w j) /\ ares (cl w' j) = ares (cl w j))) ->
  reg w' = reg w -> (forall fd, opn w' fd = opn w fd) -> inv base w'.
Proof.
  intros ((O1 & O2 & O3) & R & N & G & D) C E P. unfold alive in *.
  assert (A : forall j, cst (cl w' j) <> 0 <-> cst (cl w j) <> 0) by (intros j; apply (C j)).
  assert (K : forall j, cst (cl w j) <> 0 -> sock (cl w' j) = sock (cl w j)) by (intros j; apply (C j)).
  unfold inv, owned, alive. split; [split; [|split]|split; [|split; [|split]]].
  - intros fd. rewrite P, O1. split; intros [H|(i & Hi & Hs)]; auto; right; exists i.
    + split; [apply A; auto|]. rewrite K; auto.
    + apply A in Hi. split; [auto|]. rewrite K in Hs; auto.
  - intros i Hi. apply A in Hi. rewrite K; auto.
  - intros i j Hi Hj Hs. apply A in Hi, Hj. rewrite !K in Hs by auto. auto.
  - intros i. apply (C i).
  - intros i Hi. apply A in Hi. rewrite K; auto.
  - rewrite E. intros k i Hk. destruct (G k i Hk) as (G1 & G2 & G3).
    destruct (C i) as (_ & _ & _ & C4). destruct C4 as [C4 C5]; [exists k; exact Hk|].
    rewrite C4, C5, K by lia. auto.
  - rewrite E. exact D.
Qed.

Lemma inv_upc base i f w : inv base w ->
  (forall c, cst (f c) = cst c /\ sock (f c) = sock c) -> (registered w i -> ares (f (cl w i)) = ares (cl w i)) ->
  inv base (upc i f w).
Proof.
  intros I F A. apply (inv_same base w); auto. destruct I as (_ & R & _).
  intros j. unfold alive. cbn. destruct (Z.eqb_spec j i) as [->|]; [|split; [auto|]; split; [tauto|auto]].
  destruct (F (cl w i)) as [-> ->]. split; [auto|]. split; [tauto|]. auto.
Qed.

Lemma inv_note base e w : inv base w -> inv base (note e w).
Proof.
  intros I. apply (inv_same base w); auto. destruct I as (_ & R & _). intros j. split; [auto|]. split; [tauto|].
  split; [apply (R j)|auto].
Qed.

Lemma not_reg base w i : inv base w -> ~ alive w i -> ~ registered w i.
Proof. intros (_ & _ & _ & G & _) A [k H]. apply A. destruct (G k i H) as (E & _). unfold alive. lia. Qed.

(** A client opens a descriptor. *)
Lemma inv_open base i fd f w : inv base w -> ~ alive w i -> 0 <= fd -> opn w fd = false ->
  (forall c, sock (f c) = fd /\ (cst (f c) = 1 \/ cst (f c) = -1)) ->
  inv base (upc i f (set_open fd true w)).
Proof.
  intros I A F P Q. pose proof (not_reg base w i I A) as NR. destruct I as ((O1 & O2 & O3) & R & N & G & D).
  destruct (Q (cl w i)) as [Q1 Q2]. unfold alive in *.
  assert (B : forall j, j <> i -> cst (cl w j) <> 0 -> sock (cl w j) <> fd).
  { intros j Hj Hc E. assert (opn w fd = true) by (apply O1; right; exists j; auto). congruence. }
  unfold inv, owned, alive. cbn [upc set_open cl opn reg]. split; [split; [|split]|split; [|split; [|split]]].
  - intros x. destruct (Z.eqb_spec x fd) as [->|Hx].
    + split; [intros _; right; exists i|reflexivity]. rewrite Z.eqb_refl. split; [destruct Q2; lia|exact Q1].
    + rewrite O1. split; intros [H|(j & Hj & Hs)]; auto; right.
      * exists j. destruct (Z.eqb_spec j i) as [D1|D1]; [subst j; tauto|auto].
      * destruct (Z.eqb_spec j i) as [D1|D1]; [congruence|]. exists j. auto.
  - intros j. destruct (Z.eqb_spec j i) as [->|Hj]; [|apply O2].
    intros _. rewrite Q1. destruct (base fd) eqn:B2; [|reflexivity].
    assert (opn w fd = true) by (apply O1; auto). congruence.
  - intros j k. destruct (Z.eqb_spec j i) as [->|Hj], (Z.eqb_spec k i) as [->|Hk]; auto.
    + rewrite Q1. intros _ H E. symmetry in E. destruct (B k Hk H E).
    + rewrite Q1. intros H _ E. destruct (B j Hj H E).
  - intros j. destruct (Z.eqb_spec j i); [tauto|apply R].
  - intros j. destruct (Z.eqb_spec j i); [rewrite Q1; auto|apply N].
  - intros k j H. destruct (Z.eqb_spec j i) as [->|]; [destruct NR; exists k; exact H|apply G; exact H].
  - exact D.
Qed.

(** A client closes its descriptor. *)
Lemma inv_close base i w : inv base w -> alive w i -> ~ registered w i -> inv base (disconnect i w).
Proof.
  intros I A NR. destruct I as ((O1 & O2 & O3) & R & N & G & D). unfold alive in *.
  unfold inv, owned, alive, disconnect, close_fd. cbn [upc set_open note cl opn reg].
  split; [split; [|split]|split; [|split; [|split]]].
  - intros x. destruct (Z.eqb_spec x (sock (cl w i))) as [->|Hx].
    + split; [discriminate|]. intros [H|(j & Hj & Hs)].
      * rewrite O2 in H by auto. discriminate.
      * destruct (Z.eqb_spec j i) as [D1|Hji]; [cbn in Hj; unfold DISCONNECTED in Hj; lia|].
        destruct (Hji (O3 j i Hj A Hs)).
    + rewrite O1. split; intros [H|(j & Hj & Hs)]; auto; right.
      * exists j. destruct (Z.eqb_spec j i) as [D1|D1]; [subst j; congruence|auto].
      * destruct (Z.eqb_spec j i) as [D1|D1]; [cbn in Hj; unfold DISCONNECTED in Hj; lia|]. exists j. auto.
  - intros j. destruct (Z.eqb_spec j i) as [->|]; [cbn; unfold DISCONNECTED; lia|apply O2].
  - intros j k. destruct (Z.eqb_spec j i) as [->|], (Z.eqb_spec k i) as [->|]; auto; cbn; unfold DISCONNECTED; try lia.
  - intros j. destruct (Z.eqb_spec j i); [cbn; auto|apply R].
  - intros j. destruct (Z.eqb_spec j i); [cbn; lia|apply N].
  - intros k j H. destruct (Z.eqb_spec j i) as [->|]; [destruct NR; exists k; exact H|apply G; exact H].
  - exact D.
Qed.

(** A descriptor opened and closed again by a client without one. *)
Lemma inv_brief base i fd s w w' : inv base w -> ~ alive w i -> opn w fd = false ->
  cl w' = (fun j => if j =? i then set_sock s (cl w i) else cl w j) -> reg w' = reg w ->
  (forall x, opn w' x = if x =? fd then false else opn w x) -> inv base w'.
Proof.
  intros I A P C E O. apply (inv_same base w); auto.
  - intros j. pose proof (not_reg base w i I A) as NR. destruct I as (_ & R & _). unfold alive in *. rewrite C.
    destruct (Z.eqb_spec j i) as [->|]; [|split; [auto|]; split; [tauto|auto]].
    cbn [set_sock cst sock ares]. split; [tauto|]. split; [tauto|]. split; [apply R|tauto].
  - intros x. rewrite O. destruct (Z.eqb_spec x fd) as [->|]; auto.
Qed.

(** A call concerning client [i]. *)
Definition own_sends (base : Z -> bool) (i : Z) (w : world) (l : list ev) : Prop :=
  forall j fd, In (ESend j fd) l ->
    j = i /\ base fd = false /\ forall k, k <> i -> alive w k -> sock (cl w k) <> fd.
Definition fine (base : Z -> bool) (i : Z) (w w' : world) : Prop :=
  inv base w' /\ (forall j, j <> i -> cl w' j = cl w j) /\
  exists l, tr w' = l ++ tr w /\ own_sends base i w l.

Lemma fine_trans base i a b c : fine base i a b -> fine base i b c -> fine base i a c.
Proof.
  intros (A1 & A2 & l & A3 & A4) (B1 & B2 & m & B3 & B4). split; [exact B1|]. split.
  - intros j Hj. rewrite B2, A2; auto.
  - exists (m ++ l). rewrite B3, A3, app_assoc. split; [reflexivity|]. intros j fd H.
    apply in_app_or in H as [H|H]; [|apply A4; exact H].
    destruct (B4 j fd H) as (X & Y & Z1). split; [exact X|]. split; [exact Y|].
    intros k Hk Ha. specialize (Z1 k Hk). unfold alive in *. rewrite A2 in Z1 by auto. auto.
Qed.
(** A step that sends nothing. *)
Lemma fine_mute base i w w' l : inv base w' -> (forall j, j <> i -> cl w' j = cl w j) ->
  tr w' = l ++ tr w -> (forall j fd, ~ In (ESend j fd) l) -> fine base i w w'.
Proof. intros A B C D. split; [exact A|]. split; [exact B|]. exists l. split; [exact C|]. intros j fd H. destruct (D j fd H). Qed.
Lemma upc_other i f w j : j <> i -> cl (upc i f w) j = cl w j.
Proof. intros H. cbn. replace (j =? i) with false by lia. reflexivity. Qed.
Lemma upc_self i f w : cl (upc i f w) i = f (cl w i).
Proof. cbn. rewrite Z.eqb_refl. reflexivity. Qed.

Lemma fine_upc base i f w : inv base w -> (forall c, cst (f c) = cst c /\ sock (f c) = sock c) ->
  (registered w i -> ares (f (cl w i)) = ares (cl w i)) -> fine base i w (upc i f w).
Proof.
  intros. apply (fine_mute base i w _ []); [apply inv_upc; auto|apply upc_other|reflexivity|intros j fd []].
Qed.
Lemma fine_note base i e w : inv base w -> (forall j fd, e <> ESend j fd) -> fine base i w (note e w).
Proof.
  intros I H. apply (fine_mute base i w _ [e]); [apply inv_note; auto|auto|reflexivity|].
  intros j fd [E|[]]. exact (H j fd E).
Qed.
Lemma fine_disconnect base i w : inv base w -> alive w i -> ~ registered w i -> fine base i w (disconnect i w).
Proof.
  intros. apply (fine_mute base i w _ [EClose i (sock (cl w i))]); [apply inv_close; auto| |reflexivity|].
  - intros j Hj. unfold disconnect. rewrite upc_other by auto. reflexivity.
  - intros j fd [E|[]]. discriminate.
Qed.
Lemma fine_refl base i w : inv base w -> fine base i w w.
Proof. intros I. apply (fine_mute base i w w []); auto. Qed.
(** A client that is alive changes its state. *)
Lemma fine_cst base i s w : inv base w -> alive w i -> s = 1 \/ s = -1 -> ~ registered w i -> fine base i w (upc i (set_cst s) w).
Proof.
  intros I A S NR. apply (fine_mute base i w _ []); [|apply upc_other|reflexivity|intros j fd []].
  apply (inv_same base w); auto. destruct I as (_ & R & _). unfold alive in *.
  intros j. cbn. destruct (Z.eqb_spec j i) as [->|]; [|split; [auto|]; split; [tauto|auto]].
  cbn [set_cst cst sock ares]. split; [auto|]. split; [destruct S; split; intros; lia|]. split; [tauto|tauto].
Qed.

Section W.
Context (W : Z).

Lemma reg_finish i o w : reg (fst (finish_connect W i o w)) = reg w.
Proof.
  unfold finish_connect. destruct (_ =? _); [|reflexivity]. destruct (o_sel o) as [| |[]]; try reflexivity.
  destruct (_ >? _); reflexivity.
Qed.
Lemma reg_connect i o w : reg (fst (async_connect W i o w)) = reg w.
Proof.
  unfold async_connect. destruct (_ =? CONNECTED); [reflexivity|]. destruct (_ =? DISCONNECTED); [|apply reg_finish].
  destruct (o_open o); try reflexivity; rewrite reg_finish; reflexivity.
Qed.
Lemma reg_check i o w : reg (fst (check_connection W i o w)) = reg w.
Proof.
  unfold check_connection. cbv zeta. destruct (negb _); [|reflexivity]. destruct (_ || _); [|reflexivity].
  set (w1 := if cst (cl w i) =? DISCONNECTED then _ else w).
  assert (E : reg w1 = reg w) by (unfold w1; destruct (_ =? DISCONNECTED); reflexivity). rewrite <- E. clearbody w1.
  pose proof (reg_connect i o w1) as C. destruct (async_connect W i o w1) as [w2 r]. cbn [fst] in C.
  destruct (r =? DISCONNECTED); [exact C|]. destruct (r =? CONNECTING); [exact C|]. destruct (r =? CONNECTED); exact C.
Qed.

Lemma reg_eq w w' i : reg w' = reg w -> ~ registered w i -> ~ registered w' i.
Proof. unfold registered. intros -> H. exact H. Qed.

(** The result says what the state is. *)
Definition told (i : Z) (x : world * Z) : Prop := cst (cl (fst x) i) = snd x.

Lemma fine_finish base i o w : inv base w -> alive w i -> ~ registered w i ->
  fine base i w (fst (finish_connect W i o w)) /\ told i (finish_connect W i o w).
Proof.
  intros I A NR. unfold finish_connect, told.
  assert (D : fine base i w (disconnect i w) /\ cst (cl (disconnect i w) i) = 0).
  { split; [apply fine_disconnect; auto|]. unfold disconnect. rewrite upc_self. reflexivity. }
  assert (U : forall s, s = 1 \/ s = -1 -> fine base i w (upc i (set_cst s) w) /\ cst (cl (upc i (set_cst s) w) i) = s).
  { intros s S. split; [apply fine_cst; auto|]. rewrite upc_self. reflexivity. }
  destruct (_ =? _); [|apply U; auto]. destruct (o_sel o) as [| |[]]; try exact D; try (apply U; auto).
  destruct (_ >? _); [exact D|apply U; auto].
Qed.

Lemma fine_connect base i o w : inv base w -> ~ registered w i -> fresh w o -> refused o = false ->
  fine base i w (fst (async_connect W i o w)) /\ told i (async_connect W i o w).
Proof.
  intros I NR F RF. unfold async_connect, told.
  destruct (Z.eqb_spec (cst (cl w i)) CONNECTED) as [C|C]; [cbn [fst snd]; split; [apply fine_refl; auto|exact C]|].
  destruct (Z.eqb_spec (cst (cl w i)) DISCONNECTED) as [C2|C2].
  2: { apply fine_finish; auto. }
  assert (A : ~ alive w i) by (unfold alive; rewrite C2; unfold DISCONNECTED; lia).
  unfold fresh, refused in *. destruct (o_open o) as [|fd|fd|fd|fd]; [| | |discriminate|].
  - cbn [fst snd]. split; [|rewrite upc_self; exact C2].
    apply (fine_mute base i w _ []); [|apply upc_other|reflexivity|intros j fd []].
    apply (inv_same base w); auto. destruct I as (_ & R & _). unfold alive in *.
    intros j. cbn. destruct (Z.eqb_spec j i) as [->|]; [|split; [auto|]; split; [tauto|auto]].
    cbn [set_sock cst sock ares]. split; [tauto|]. split; [tauto|]. split; [apply R|tauto].
  - destruct F as [F1 F2]. cbn [fst snd]. split; [|rewrite upc_self; exact C2].
    apply (fine_mute base i w _ [EClose i fd]); [|intros j Hj; rewrite upc_other by auto; reflexivity|reflexivity|intros j x [E|[]]; discriminate].
    apply (inv_brief base i fd 0 w); auto. intros x. cbn. destruct (x =? fd); reflexivity.
  - destruct F as [F1 F2]. cbn [fst snd]. split; [|rewrite upc_self; exact C2].
    apply (fine_mute base i w _ [EClose i fd]); [|intros j Hj; rewrite upc_other by auto; reflexivity|reflexivity|intros j x [E|[]]; discriminate].
    apply (inv_brief base i fd 0 w); auto. intros x. cbn. destruct (x =? fd); reflexivity.
  - destruct F as [F1 F2].
    set (w1 := upc i _ (set_open fd true w)).
    assert (I1 : inv base w1) by (apply inv_open; auto; intros c; cbn; auto).
    assert (A1 : alive w1 i) by (unfold alive, w1; rewrite upc_self; cbn; unfold CONNECTING; lia).
    assert (N1 : ~ registered w1 i) by (apply (reg_eq w); auto).
    destruct (fine_finish base i o w1 I1 A1 N1) as [X Y]. split; [|exact Y].
    eapply fine_trans; [|exact X]. apply (fine_mute base i w _ []); [exact I1| |reflexivity|intros j x []].
    intros j Hj. unfold w1. rewrite upc_other by auto. reflexivity.
Qed.

Lemma fine_check base i o w : inv base w -> ~ registered w i -> fresh w o -> refused o = false ->
  let x := check_connection W i o w in
  fine base i w (fst x) /\ (snd x = true -> cst (cl (fst x) i) = CONNECTED).
Proof.
  intros I NR F RF. cbv zeta. unfold check_connection. cbv zeta.
  destruct (Z.eqb_spec (cst (cl w i)) CONNECTED) as [C|C]; cbn [negb fst snd].
  { split; [apply fine_refl; auto|auto]. }
  destruct (_ || _); cbn [fst snd].
  2: { split; [|discriminate]. apply fine_upc; auto. tauto. }
  set (w1 := if cst (cl w i) =? DISCONNECTED then _ else w).
  assert (X : fine base i w w1 /\ reg w1 = reg w /\ opn w1 = opn w).
  { unfold w1. destruct (_ =? DISCONNECTED); [|auto using fine_refl]. split; [|auto].
    eapply fine_trans; [apply (fine_upc base i (set_tried (o_now o))); auto; tauto|].
    apply fine_note; [apply inv_upc; auto; tauto|discriminate]. }
  destruct X as (F1 & R1 & O1). clearbody w1.
  assert (N1 : ~ registered w1 i) by (apply (reg_eq w); auto).
  assert (FR : fresh w1 o) by (unfold fresh in *; rewrite O1; exact F).
  destruct (fine_connect base i o w1 (proj1 F1) N1 FR RF) as [F2 T2].
  pose proof (reg_connect i o w1) as R2. unfold told in T2.
  destruct (async_connect W i o w1) as [w2 r]. cbn [fst snd] in *.
  assert (N2 : ~ registered w2 i) by (apply (reg_eq w1); auto).
  assert (F3 : fine base i w (note (EResult i r) w2)).
  { eapply fine_trans; [exact F1|]. eapply fine_trans; [exact F2|]. apply fine_note; [apply F2|discriminate]. }
  assert (N3 : ~ registered (note (EResult i r) w2) i) by exact N2.
  destruct (Z.eqb_spec r DISCONNECTED) as [E0|E0]; cbn [fst snd].
  { split; [|discriminate]. eapply fine_trans; [exact F3|]. apply fine_upc; [apply F3| |tauto].
    intros c. destruct (_ >? _); auto. }
  destruct (Z.eqb_spec r CONNECTING) as [E|E]; cbn [fst snd].
  { split; [|discriminate]. eapply fine_trans; [exact F3|]. apply fine_cst; auto; [apply F3|].
    unfold alive. cbn [note cl]. rewrite T2, E. unfold CONNECTING. lia. }
  destruct (Z.eqb_spec r CONNECTED) as [E2|E2]; cbn [fst snd].
  - split; [|intros _; rewrite upc_self; cbn [note cl set_wait cst]; congruence].
    eapply fine_trans; [exact F3|]. apply fine_upc; [apply F3|auto|tauto].
  - split; [exact F3|]. intros _. exfalso.
    destruct F2 as ((_ & R & _) & _). destruct (R i) as [R'|[R'|R']]; rewrite T2 in R'; subst r; unfold CONNECTED, CONNECTING, DISCONNECTED in *; lia.
Qed.

Lemma reg_put_perm k i l : ~ In k (map fst l) -> Permutation (reg_put k i l) ((k, i) :: l).
Proof.
  induction l as [|[k' i'] l IH]; intros H; cbn [reg_put]; [reflexivity|].
  destruct (k <? k'); [reflexivity|]. destruct (Z.eqb_spec k k') as [->|]; [destruct H; cbn; auto|].
  rewrite IH by (intros X; apply H; cbn; auto). apply perm_swap.
Qed.

(** A connected client is entered into the registry. *)
Lemma inv_register base i f w : inv base w -> cst (cl w i) = CONNECTED -> ~ registered w i ->
  (forall c, cst (f c) = cst c /\ sock (f c) = sock c /\ ares (f c) = AR_BUSY) ->
  inv base (upc i f (set_reg (reg_put (sock (cl w i)) i (reg w)) w)).
Proof.
  intros (O & R & N & G & D) C NR F.
  assert (K : ~ In (sock (cl w i)) (map fst (reg w))).
  { intros H. apply in_map_iff in H as ([k j] & E & H). cbn in E. subst k. destruct (G _ _ H) as (G1 & G2 & G3).
    destruct O as (_ & _ & O3). assert (j = i) as ->.
    { apply O3; unfold alive; [lia|rewrite C; unfold CONNECTED; lia|exact G2]. }
    apply NR. eexists. exact H. }
  pose proof (reg_put_perm _ i _ K) as P. destruct (F (cl w i)) as (F1 & F2 & F3).
  assert (X : forall j, cst (cl (upc i f w) j) = cst (cl w j) /\ sock (cl (upc i f w) j) = sock (cl w j)).
  { intros j. cbn. destruct (Z.eqb_spec j i) as [Dj|Dj]; [rewrite Dj in *|]; auto. }
  cbn [upc cl] in X. unfold inv, owned, alive in *. cbn [upc set_reg cl opn reg].
  split; [split; [|split]|split; [|split; [|split]]].
  - intros fd. destruct O as (-> & _). split; intros [H|(j & H & H2)]; auto; right; exists j; destruct (X j) as [X1 X2].
    + rewrite X1, X2. auto.
    + rewrite X1 in H. rewrite X2 in H2. auto.
  - intros j H. destruct (X j) as [X1 X2]. rewrite X1 in H. rewrite X2. apply O. exact H.
  - intros j j' H H2 E. destruct (X j) as [X1 X2]. destruct (X j') as [X3 X4].
    rewrite X1 in H. rewrite X3 in H2. rewrite X2, X4 in E. apply O; auto.
  - intros j. destruct (X j) as [-> _]. apply R.
  - intros j H. destruct (X j) as [X1 X2]. rewrite X1 in H. rewrite X2. apply N. exact H.
  - intros k j H. apply (Permutation_in _ P) in H. destruct H as [H|H].
    + inversion H; subst. rewrite Z.eqb_refl, F1, F2, F3. auto.
    + destruct (Z.eqb_spec j i) as [Dj|Dj]; [rewrite Dj in *|]; [destruct NR; exists k; exact H|]. apply G. exact H.
  - apply (Permutation_map fst) in P. apply (Permutation_NoDup (Permutation_sym P)). cbn. constructor; assumption.
Qed.

Lemma fine_send base i n o w : inv base w -> ~ registered w i -> fresh w o -> refused o = false ->
  fine base i w (async_send W i n o w).
Proof.
  intros I NR F RF. unfold async_send. cbv zeta.
  set (w1 := upc i _ w). assert (F1 : fine base i w w1) by (apply fine_upc; auto; tauto).
  assert (N1 : ~ registered w1 i) by exact NR. assert (FR : fresh w1 o) by exact F. clearbody w1.
  destruct (fine_check base i o w1 (proj1 F1) N1 FR RF) as [F2 C2]. pose proof (reg_check i o w1) as R2.
  destruct (check_connection W i o w1) as [w2 ok]. cbn [fst snd] in *.
  destruct ok; cbn [negb]; [|eapply fine_trans; eassumption]. specialize (C2 eq_refl).
  assert (N2 : ~ registered w2 i) by (apply (reg_eq w1); auto).
  pose proof (fine_trans base i w w1 w2 F1 F2) as F12. destruct (proj1 F2) as ((O1 & O2 & O3) & _).
  assert (A2 : alive w2 i) by (unfold alive; rewrite C2; unfold CONNECTED; lia).
  set (w3 := note (ESend i (sock (cl w2 i))) w2).
  assert (F3 : fine base i w2 w3).
  { split; [apply inv_note; apply F2|]. split; [auto|]. exists [ESend i (sock (cl w2 i))]. split; [reflexivity|].
    intros j fd [E|[]]. inversion E; subst. split; [reflexivity|]. split; [apply O2; exact A2|].
    intros k Hk Ha E2. apply Hk. apply O3; auto. }
  eapply fine_trans; [exact F12|]. eapply fine_trans; [exact F3|].
  assert (N3 : ~ registered w3 i) by exact N2.
  destruct (o_send o <? 0).
  - assert (FX : fine base i w3 (upc i (set_ares AR_SOCKETERROR) w3)) by (apply fine_upc; [apply F3|auto|tauto]).
    eapply fine_trans; [exact FX|]. apply fine_disconnect; [apply FX| |exact N3].
    unfold alive. rewrite upc_self. exact A2.
  - apply (fine_mute base i w3 _ []); [|intros j Hj; rewrite upc_other by auto; reflexivity|reflexivity|intros j fd []].
    apply inv_register; [apply F3|exact C2|exact N3|auto].
Qed.

Lemma fine_get base i o w : inv base w -> fresh w o -> refused o = false ->
  fine base i w (fst (get_async_result W i o w)) /\
  (snd (get_async_result W i o w) <> AR_BUSY -> ~ registered (fst (get_async_result W i o w)) i).
Proof.
  intros I F RF. unfold get_async_result. cbv zeta. destruct (Z.eqb_spec (cst (cl w i)) CONNECTING) as [E|E]; cbn [fst snd].
  - assert (NR : ~ registered w i).
    { intros [k H]. destruct I as (_ & _ & _ & G & _). destruct (G k i H) as (G1 & _). rewrite E in G1. discriminate. }
    pose proof (fine_send base i (tosend (cl w i)) o w I NR F RF) as S. split; [exact S|].
    intros B [k H]. destruct S as ((_ & _ & _ & G & _) & _). destruct (G k i H) as (_ & _ & G3). congruence.
  - split; [apply fine_refl; auto|]. intros B [k H]. destruct I as (_ & _ & _ & G & _). destruct (G k i H) as (_ & _ & G3). congruence.
Qed.

Lemma fine_receive base i o w : inv base w -> ~ registered w i -> fresh w o -> refused o = false ->
  fine base i w (fst (async_receive W i o w)).
Proof.
  intros I NR F RF. unfold async_receive. cbv zeta.
  set (w1 := upc i _ w). assert (F1 : fine base i w w1) by (apply fine_upc; auto; tauto).
  assert (N1 : ~ registered w1 i) by exact NR. assert (FR : fresh w1 o) by exact F. clearbody w1.
  destruct (fine_check base i o w1 (proj1 F1) N1 FR RF) as [F2 C2]. pose proof (reg_check i o w1) as R2.
  destruct (check_connection W i o w1) as [w2 ok]. cbn [fst snd] in *.
  destruct ok; cbn [negb fst]; [|eapply fine_trans; eassumption]. specialize (C2 eq_refl).
  assert (N2 : ~ registered w2 i) by (apply (reg_eq w1); auto).
  pose proof (fine_trans base i w w1 w2 F1 F2) as F12.
  set (w3 := if o_avail o && _ then _ else w2).
  assert (X3 : fine base i w2 w3 /\ ~ registered w3 i /\ alive w3 i).
  { assert (A : alive w2 i) by (unfold alive; rewrite C2; unfold CONNECTED; lia).
    unfold w3. destruct (_ && _); [|split; [apply fine_refl; apply F2|auto]].
    split; [apply fine_upc; [apply F2|auto|tauto]|]. split; [exact N2|]. unfold alive. rewrite upc_self. exact A. }
  clearbody w3. destruct X3 as (F3 & N3 & A3). set (due := _ && newdata (cl w3 i)). clearbody due.
  set (w4 := if due then _ else w3).
  assert (X4 : fine base i w3 w4 /\ ~ registered w4 i /\ alive w4 i).
  { unfold w4. destruct due; [|split; [apply fine_refl; apply F3|auto]].
    split; [apply fine_upc; [apply F3|auto|tauto]|]. split; [exact N3|]. unfold alive. rewrite upc_self. exact A3. }
  clearbody w4. destruct X4 as (F4 & N4 & A4).
  eapply fine_trans; [exact F12|]. eapply fine_trans; [exact F3|]. destruct (_ <? 0); cbn [fst]; [|exact F4].
  eapply fine_trans; [exact F4|].
  assert (FX : fine base i w4 (upc i (set_ares AR_SOCKETERROR) w4)) by (apply fine_upc; [apply F4|auto|tauto]).
  eapply fine_trans; [exact FX|]. apply fine_disconnect; [apply FX| |exact N4].
  unfold alive. rewrite upc_self. exact A4.
Qed.

Lemma fine_sync base i o w : inv base w -> ~ registered w i -> fresh w o ->
  let x := connect i o w in fine base i w (fst x) /\ reg (fst x) = reg w /\ (snd x = true -> alive (fst x) i).
Proof.
  intros I NR F. cbv zeta. unfold connect.
  destruct (Z.eqb_spec (cst (cl w i)) 0) as [C|C]; cbn [negb fst snd]; [|auto using fine_refl].
  assert (A : ~ alive w i) by (unfold alive; lia).
  assert (P : forall fd, 0 <= fd /\ opn w fd = false ->
    let x := match o_sel o with
             | SReady false => (upc i (set_cst 1) (upc i (set_sock fd) (set_open fd true w)), true)
             | _ => (upc i (set_sock 0) (close_fd i fd (upc i (set_sock fd) (set_open fd true w))), false) end in
    fine base i w (fst x) /\ reg (fst x) = reg w /\ (snd x = true -> alive (fst x) i)).
  { intros fd [F1 F2]. cbv zeta.
    assert (Q : fine base i w (upc i (set_sock 0) (close_fd i fd (upc i (set_sock fd) (set_open fd true w))))).
    { apply (fine_mute base i w _ [EClose i fd]); [| |reflexivity|intros j x [E|[]]; discriminate].
      - set (w' := upc _ _ _). apply (inv_same base w); auto.
        + pose proof (not_reg base w i I A). destruct I as (_ & R & _). unfold alive, w' in *. intros j. cbn.
          destruct (Z.eqb_spec j i) as [Dj|Dj]; [rewrite Dj in *|]; [|split; [auto|]; split; [tauto|auto]]. rewrite Z.eqb_refl.
          cbn [set_sock cst sock ares]. split; [tauto|]. split; [tauto|]. split; [apply R|tauto].
        + intros x. cbn. destruct (Z.eqb_spec x fd) as [->|]; auto.
      - intros j Hj. rewrite upc_other by auto. cbn. replace (j =? i) with false by lia. reflexivity. }
    destruct (o_sel o) as [| |[]]; cbn [fst snd]; try (split; [exact Q|split; [reflexivity|discriminate]]).
    split; [|split; [reflexivity|]].
    - apply (fine_mute base i w _ []); [| |reflexivity|intros j x []].
      + pose proof (inv_open base i fd (fun c => set_cst 1 (set_sock fd c)) w I A F1 F2 ltac:(intros c; cbn; auto)) as X.
        eapply inv_same; [exact X| |reflexivity|reflexivity]. destruct X as (_ & R & _).
        intros j. specialize (R j). unfold alive. cbn in R |- *. destruct (Z.eqb_spec j i) as [Dj|Dj]; [rewrite Dj in *|].
        * rewrite Z.eqb_refl. cbn. split; [auto|]. split; [tauto|]. auto.
        * split; [auto|]. split; [tauto|]. auto.
      + intros j Hj. rewrite !upc_other by auto. reflexivity.
    - intros _. unfold alive. rewrite upc_self. cbn. lia. }
  unfold fresh in F. destruct (o_open o) as [|fd|fd|fd|fd]; [| | |apply P; exact F|apply P; exact F]; cbn [fst snd].
  - split; [|split; [reflexivity|discriminate]].
    apply (fine_mute base i w _ []); [|apply upc_other|reflexivity|intros j fd []].
    apply (inv_same base w); auto. destruct I as (_ & R & _). unfold alive in *.
    intros j. cbn. destruct (Z.eqb_spec j i) as [Dj|Dj]; [rewrite Dj in *|]; [|split; [auto|]; split; [tauto|auto]].
    cbn [set_sock cst sock ares]. split; [tauto|]. split; [tauto|]. split; [apply R|tauto].
  - destruct F as [F1 F2]. split; [|split; [reflexivity|discriminate]].
    apply (fine_mute base i w _ [EClose i fd]); [| |reflexivity|intros j x [E|[]]; discriminate].
    + apply (inv_brief base i fd fd w); auto. intros x. cbn. destruct (x =? fd); reflexivity.
    + intros j Hj. cbn. replace (j =? i) with false by lia. reflexivity.
  - destruct F as [F1 F2]. split; [|split; [reflexivity|discriminate]].
    apply (fine_mute base i w _ [EClose i fd]); [| |reflexivity|intros j x [E|[]]; discriminate].
    + apply (inv_brief base i fd 0 w); auto. intros x. cbn. destruct (x =? fd); reflexivity.
    + intros j Hj. cbn. replace (j =? i) with false by lia. reflexivity.
Qed.

Lemma fine_communicate base i o w : inv base w -> ~ registered w i -> fresh w o -> fine base i w (fst (communicate i o w)).
Proof.
  intros I NR F. unfold communicate.
  assert (X : let x := if cst (cl w i) =? 0 then connect i o w else (w, true) in
    fine base i w (fst x) /\ reg (fst x) = reg w /\ (snd x = true -> alive (fst x) i)).
  { cbv zeta. destruct (Z.eqb_spec (cst (cl w i)) 0); [apply fine_sync; auto|]. cbn [fst snd]. auto using fine_refl. }
  cbv zeta in X. destruct (if cst (cl w i) =? 0 then connect i o w else (w, true)) as [w1 ok]. cbn [fst snd] in X.
  destruct X as (F1 & R1 & A1). destruct ok; cbn [negb fst]; [|exact F1]. specialize (A1 eq_refl).
  assert (N1 : ~ registered w1 i) by (apply (reg_eq w); auto).
  set (w2 := note (ESend i (sock (cl w1 i))) w1). destruct (proj1 F1) as ((O1 & O2 & O3) & _).
  assert (F2 : fine base i w1 w2).
  { split; [apply inv_note; apply F1|]. split; [auto|]. exists [ESend i (sock (cl w1 i))]. split; [reflexivity|].
    intros j fd [E|[]]. inversion E; subst. split; [reflexivity|]. split; [apply O2; exact A1|].
    intros k Hk Ha E2. apply Hk. apply O3; auto. }
  assert (FD : fine base i w2 (disconnect i w2)) by (apply fine_disconnect; [apply F2|exact A1|exact N1]).
  eapply fine_trans; [exact F1|]. destruct (_ <? 0); cbn [fst]; [eapply fine_trans; eassumption|].
  destruct (_ <? 0); cbn [fst]; [eapply fine_trans; eassumption|exact F2].
Qed.

(** ** Evaluation *)

Lemma inv_sub base w p k i r : inv base (set_reg (p ++ (k, i) :: r) w) ->
  inv base (set_reg (p ++ r) w) /\ ~ registered (set_reg (p ++ r) w) i /\ alive w i.
Proof.
  intros (O & R & N & G & D). cbn [set_reg reg cl] in *.
  assert (X : In (k, i) (p ++ (k, i) :: r)) by (apply in_or_app; cbn; auto).
  destruct (G k i X) as (G1 & G2 & G3). rewrite map_app in D. cbn [map] in D. apply NoDup_remove in D as [D1 D2].
  rewrite <- map_app in D1, D2. split; [|split].
  - split; [exact O|]. split; [exact R|]. split; [exact N|]. split; [|exact D1].
    intros k0 i0 H. apply G. cbn [set_reg reg] in H. apply in_app_or in H. apply in_or_app. cbn. tauto.
  - intros [k' H]. cbn [set_reg reg] in H.
    assert (Y : In (k', i) (p ++ (k, i) :: r)) by (apply in_app_or in H; apply in_or_app; cbn; tauto).
    destruct (G k' i Y) as (_ & G2' & _). assert (k' = k) as -> by congruence.
    apply D2. apply in_map_iff. exists (k, i). auto.
  - unfold alive. lia.
Qed.

Lemma eval_inv base now rd rc r : forall p w, inv base (set_reg (p ++ r) w) ->
  let x := eval_clients W now rd rc r w in inv base (set_reg (p ++ fst x) (snd x)).
Proof.
  induction r as [|[k i] r IH]; intros p w I; cbn [eval_clients]; [exact I|]. cbv zeta.
  destruct (inv_sub base w p k i r I) as (I1 & N1 & A1).
  assert (DC : forall v, inv base (set_reg (p ++ r) (upc i (set_ares v) (disconnect i w)))).
  { intros v. pose proof (inv_close base i (set_reg (p ++ r) w) I1 A1 N1) as X.
    change (set_reg (p ++ r) (upc i (set_ares v) (disconnect i w)))
      with (upc i (set_ares v) (disconnect i (set_reg (p ++ r) w))).
    apply inv_upc; [exact X|auto|]. intros H. destruct N1. exact H. }
  destruct (rd _).
  - apply IH. destruct (_ <=? 0); [apply DC|].
    change (inv base (upc i (set_ares (rc (sock (cl w i)))) (set_reg (p ++ r) w))). apply inv_upc; [exact I1|auto|tauto].
  - destruct (_ >? _); [apply IH; apply DC|].
    specialize (IH (p ++ [(k, i)]) w). rewrite <- app_assoc in IH. specialize (IH I). cbv zeta in IH.
    destruct (eval_clients W now rd rc r w) as [l' w']. cbn [fst snd] in *. rewrite <- app_assoc in IH. exact IH.
Qed.

Lemma inv_evaluate base l : forall w, inv base w -> inv base (evaluate_clients W l w).
Proof.
  induction l as [|c l IH]; intros w I; cbn [evaluate_clients]; [exact I|]. destruct c; [exact I|apply IH; exact I|].
  pose proof (eval_inv base now rd rc (reg w) [] w) as X. cbv zeta in X.
  destruct (eval_clients W now rd rc (reg w) w) as [g w']. cbn [fst snd app] in X. apply IH. apply X.
  destruct w. exact I.
Qed.

Lemma eval_tr now rd rc r : forall w, exists l,
  tr (snd (eval_clients W now rd rc r w)) = l ++ tr w /\ forall j fd, ~ In (ESend j fd) l.
Proof.
  induction r as [|[k i] r IH]; intros w; cbn [eval_clients]; [exists []; auto|]. cbv zeta.
  assert (X : forall w1 m, tr w1 = m ++ tr w -> (forall j fd, ~ In (ESend j fd) m) -> exists l,
     tr (snd (eval_clients W now rd rc r w1)) = l ++ tr w /\ forall j fd, ~ In (ESend j fd) l).
  { intros w1 m E N. destruct (IH w1) as (l & L1 & L2). exists (l ++ m). rewrite L1, E, app_assoc. split; [reflexivity|].
    intros j fd H. apply in_app_or in H as [H|H]; [exact (L2 j fd H)|exact (N j fd H)]. }
  destruct (rd _).
  - destruct (_ <=? 0).
    + apply (X _ [EClose i (sock (cl w i))]); [reflexivity|]. intros j fd [E|[]]. discriminate.
    + apply (X _ []); [reflexivity|]. intros j fd [].
  - destruct (_ >? _).
    + apply (X _ [EClose i (sock (cl w i))]); [reflexivity|]. intros j fd [E|[]]. discriminate.
    + destruct (IH w) as (l & L1 & L2). destruct (eval_clients W now rd rc r w) as [l' w']. cbn [snd] in *. exists l. auto.
Qed.
Lemma evaluate_tr l : forall w, exists m, tr (evaluate_clients W l w) = m ++ tr w /\ forall j fd, ~ In (ESend j fd) m.
Proof.
  induction l as [|c l IH]; intros w; cbn [evaluate_clients]; [exists []; auto|].
  destruct c; [exists []; auto|apply IH|].
  destruct (eval_tr now rd rc (reg w) w) as (m & M1 & M2). destruct (eval_clients W now rd rc (reg w) w) as [g w'].
  cbn [snd] in M1. destruct (IH (set_reg g w')) as (m2 & M3 & M4). exists (m2 ++ m). rewrite M3. cbn [set_reg tr].
  rewrite M1, app_assoc. split; [reflexivity|]. intros j fd H. apply in_app_or in H as [H|H]; [exact (M4 j fd H)|exact (M2 j fd H)].
Qed.

(** ** All calls *)

Definition subject (c : call) : Z :=
  match c with Send i _ | Result i | Receive i | Exchange i | Poll i _ _ | Drop i => i | Eval _ => 0 end.

Lemma do_inv base x w : inv base w -> proper W w x ->
  inv base (do_call W x w) /\ exists l, tr (do_call W x w) = l ++ tr w /\ own_sends base (subject (snd x)) w l.
Proof.
  intros I P. destruct x as [[o o2] c]. cbn [snd].
  assert (X : forall i w', fine base i w w' -> subject c = i -> inv base w' /\ exists l, tr w' = l ++ tr w /\ own_sends base (subject c) w l).
  { intros i w' (F1 & F2 & F3) <-. auto. }
  destruct c; cbn [proper allowed do_call] in *.
  - destruct P as (P1 & P2 & P3). apply (X i); [apply fine_send; auto|reflexivity].
  - destruct P as (_ & P2 & P3). apply (X i); [apply fine_get; auto|reflexivity].
  - destruct P as (P1 & P2 & P3). apply (X i); [apply fine_receive; auto|reflexivity].
  - destruct P as (P1 & P2). apply (X i); [apply fine_communicate; auto|reflexivity].
  - destruct P as (_ & (P2 & P3) & P4 & P5). apply (X i); [|reflexivity].
    unfold modbus_poll. destruct (fine_get base i o w I P2 P3) as [F G].
    destruct (get_async_result W i o w) as [w1 ar]. cbn [fst snd] in *.
    destruct (Z.eqb_spec ar AR_BUSY) as [E|E]; [exact F|]. specialize (G E).
    eapply fine_trans; [exact F|]. destruct (_ && _); cbn [fst].
    + apply fine_upc; [apply F|auto|tauto].
    + apply fine_send; auto. apply F.
  - destruct P as (P1 & P2). apply (X i); [apply fine_disconnect; auto|reflexivity].
  - split; [apply inv_evaluate; exact I|]. destruct (evaluate_tr l w) as (m & M1 & M2). exists m. split; [exact M1|].
    intros j fd H. destruct (M2 j fd H).
Qed.

Lemma run_inv base h : forall w, inv base w -> proper_run W h w -> inv base (run W h w).
Proof.
  induction h as [|x h IH]; intros w I P; [exact I|]. destruct P as [P1 P2]. cbn [run fold_left].
  apply IH; [|exact P2]. apply (do_inv base x w I P1).
Qed.
Lemma inv_start T t0 base g : inv base (start W T t0 base g).
Proof.
  unfold inv, owned, alive. cbn.
  split; [split; [|split]; intros; try lia; split; [auto|intros [H|(i & H & _)]; [exact H|lia]]|].
  split; [auto|]. split; [intros; lia|]. split; [intros k i []|constructor].
Qed.
End W.
