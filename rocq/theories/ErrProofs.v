From Coq Require Import ZArith List Bool Lia Sorted.
From Verif Require Import Base TimeModel ErrModel ErrSpec.
Import ListNotations.
Open Scope Z_scope.

(** * C07 *)

Lemma ce_eqb_spec a b : reflect (a = b) (ce_eqb a b).
Proof.
  destruct a as [a1 a2 a3], b as [b1 b2 b3]. unfold ce_eqb; cbn [ce_class ce_sub ce_param].
  destruct (Z.eqb_spec a1 b1), (Z.eqb_spec a2 b2), (Z.eqb_spec a3 b3); cbn [andb];
    constructor; congruence.
Qed.

Lemma key_eqb_spec a b : reflect (a = b) (key_eqb a b).
Proof.
  destruct a as [[a1 a2] a3], b as [[b1 b2] b3]. unfold key_eqb.
  destruct (Z.eqb_spec a1 b1), (Z.eqb_spec a2 b2), (Z.eqb_spec a3 b3); cbn [andb];
    constructor; congruence.
Qed.

Lemma key_of_inj a b : key_of a = key_of b -> a = b.
Proof. destruct a, b; unfold key_of; cbn; congruence. Qed.

Definition op_err (o : crit_op) : crit_error :=
  match o with CRaise c s p | CClear c s p => ce_of c s p end.

Lemma op_err_key o : key_of (op_err o) = op_key o.
Proof. destruct o; reflexivity. Qed.

Lemma existsb_ce e l : existsb (ce_eqb e) l = true <-> In e l.
Proof.
  rewrite existsb_exists. split.
  - intros (x & H & E). destruct (ce_eqb_spec e x); congruence.
  - intros H. exists e. split; auto. destruct (ce_eqb_spec e e); congruence.
Qed.

Lemma erase_first_filter e l : NoDup l ->
  erase_first e l = filter (fun x => negb (ce_eqb e x)) l.
Proof.
  induction 1 as [|x l Hn Hd IH]; cbn [erase_first filter]; auto.
  destruct (ce_eqb_spec e x) as [->|]; cbn [negb].
  - clear - Hn. symmetry. induction l as [|y l IH]; cbn [filter]; auto.
    destruct (ce_eqb_spec x y) as [->|]; cbn [negb].
    + exfalso. apply Hn. left. auto.
    + f_equal. apply IH. intros H. apply Hn. right. auto.
  - f_equal. auto.
Qed.

Lemma StronglySorted_filter {A} (R : A -> A -> Prop) p l :
  StronglySorted R l -> StronglySorted R (filter p l).
Proof.
  induction 1 as [|x l Hs IH Hf]; cbn [filter]; [constructor|].
  destruct (p x); auto. constructor; auto.
  rewrite Forall_forall in *. intros y Hy. apply filter_In in Hy. apply Hf. tauto.
Qed.

Lemma StronglySorted_snoc {A} (R : A -> A -> Prop) l x :
  StronglySorted R l -> Forall (fun y => R y x) l -> StronglySorted R (l ++ [x]).
Proof.
  induction 1 as [|y l Hs IH Hf]; cbn [app]; intros HF.
  - repeat constructor.
  - inversion_clear HF. constructor; auto.
    apply Forall_app. split; auto.
Qed.

Lemma StronglySorted_ext {A} (R R' : A -> A -> Prop) l :
  (forall x y, In x l -> In y l -> R x y -> R' x y) ->
  StronglySorted R l -> StronglySorted R' l.
Proof.
  intros HR Hs. induction Hs as [|x l Hs IH Hf]; constructor.
  - apply IH. intros; apply HR; cbn; auto.
  - rewrite Forall_forall in *. intros y Hy. apply HR; cbn; auto.
Qed.

Lemma raised_at_le h k : (raised_at h k <= length h)%nat.
Proof. induction h as [|o h IH]; cbn [raised_at length]; auto. destruct (_ && _); lia. Qed.

Definition by_time (h : list crit_op) (a b : crit_error) : Prop :=
  (raised_at h (key_of a) < raised_at h (key_of b))%nat.

Definition crit_inv (h : list crit_op) (m : crit_mgr) : Prop :=
  (forall e, In e (cm_errors m) <-> raised h (key_of e) = true) /\
  NoDup (cm_errors m) /\
  StronglySorted (by_time h) (cm_errors m) /\
  cm_id m = changes h mod 65536.

Lemma u16_changes a b : a = b mod 65536 -> u16 (a + 1) = (b + 1) mod 65536.
Proof.
  intros ->. unfold u16. change (2 ^ 16) with 65536.
  rewrite Zplus_mod_idemp_l. reflexivity.
Qed.

Lemma crit_inv_step h m o : crit_inv h m -> crit_inv (o :: h) (crit_step m o).
Proof.
  intros (HI & HN & HS & HC). unfold crit_inv.
  set (e := op_err o).
  assert (Hke : key_of e = op_key o) by apply op_err_key.
  assert (Hx : existsb (ce_eqb e) (cm_errors m) = raised h (op_key o)).
  { rewrite <- Hke. destruct (raised h (key_of e)) eqn:R.
    - apply existsb_ce, HI, R.
    - apply not_true_is_false. rewrite existsb_ce, HI. congruence. }
  assert (Hother : forall x, x <> e -> key_eqb (op_key o) (key_of x) = false).
  { intros x Hxe. destruct (key_eqb_spec (op_key o) (key_of x)); auto.
    exfalso. apply Hxe. apply key_of_inj. congruence. }
  assert (Hself : key_eqb (op_key o) (key_of e) = true).
  { rewrite Hke. destruct (key_eqb_spec (op_key o) (op_key o)); congruence. }
  assert (Hord : forall x, x <> e \/ raised h (op_key o) = true ->
            raised_at (o :: h) (key_of x) = raised_at h (key_of x)).
  { intros x Hx'. cbn [raised_at].
    destruct (key_eqb_spec (op_key o) (key_of x)) as [E|]; cbn [andb]; auto.
    destruct Hx' as [Hx'|Hx'].
    - exfalso. apply Hx'. apply key_of_inj. congruence.
    - rewrite <- E, Hx'. reflexivity. }
  destruct o as [c s p|c s p]; cbn [crit_step op_err] in *; cbn [changes is_raise];
    unfold set_global_error, reset_global_error; fold e; rewrite Hx.
  - destruct (raised h (op_key (CRaise c s p))) eqn:Hr; cbn [eqb].
    + (* already there *)
      rewrite Z.add_0_r. split; [|split; [|split]]; auto.
      * intros x. cbn [raised].
        destruct (key_eqb_spec (op_key (CRaise c s p)) (key_of x)) as [E|E].
        -- cbn [is_raise]. rewrite HI, <- E, Hr. tauto.
        -- apply HI.
      * eapply StronglySorted_ext; [|exact HS]. unfold by_time.
        intros x y _ _ L. rewrite !Hord by auto. exact L.
    + cbn [cm_errors cm_id]. split; [|split; [|split]].
      * intros x. rewrite in_app_iff. cbn [In raised is_raise].
        destruct (ce_eqb_spec x e) as [->|Hne].
        -- rewrite Hself. tauto.
        -- rewrite (Hother x Hne), HI. split; [intros [|[|[]]]; congruence|auto].
      * assert (Hni : ~ In e (cm_errors m)) by (rewrite HI, Hke; congruence).
        clear - HN Hni. induction HN as [|y l Hy Hd IH]; cbn [app].
        -- repeat constructor; auto.
        -- constructor.
           ++ rewrite in_app_iff. cbn [In]. intros [|[->|[]]]; auto. apply Hni. left; auto.
           ++ apply IH. intros H. apply Hni. right; auto.
      * assert (Hni : ~ In e (cm_errors m)) by (rewrite HI, Hke; congruence).
        apply StronglySorted_snoc.
        -- eapply StronglySorted_ext; [|exact HS]. unfold by_time.
           intros x y Hxi Hyi L. rewrite !Hord; auto; left; congruence.
        -- apply Forall_forall. intros x Hxi. unfold by_time.
           rewrite Hord by (left; congruence).
           cbn [raised_at]. rewrite Hself, Hke, Hr. cbn [andb negb].
           pose proof (raised_at_le h (key_of x)). lia.
      * apply u16_changes. exact HC.
  - destruct (raised h (op_key (CClear c s p))) eqn:Hr; cbn [eqb].
    + cbn [cm_errors cm_id]. rewrite erase_first_filter by auto.
      split; [|split; [|split]].
      * intros x. rewrite filter_In. cbn [raised is_raise].
        destruct (ce_eqb_spec e x) as [->|Hne]; cbn [negb].
        -- rewrite Hself. split; [tauto|discriminate].
        -- rewrite (Hother x) by congruence. rewrite HI. tauto.
      * apply NoDup_filter. auto.
      * apply StronglySorted_filter. eapply StronglySorted_ext; [|exact HS].
        unfold by_time. intros x y _ _ L. rewrite !Hord by auto. exact L.
      * apply u16_changes. exact HC.
    + rewrite Z.add_0_r. split; [|split; [|split]]; auto.
      * intros x. cbn [raised is_raise].
        destruct (key_eqb_spec (op_key (CClear c s p)) (key_of x)) as [E|E].
        -- rewrite HI, <- E, Hr. split; discriminate.
        -- apply HI.
      * eapply StronglySorted_ext; [|exact HS]. unfold by_time.
        intros x y Hxi Hyi L.
        assert (Hni : ~ In e (cm_errors m)) by (rewrite HI, Hke; congruence).
        rewrite !Hord; auto; left; congruence.
Qed.

Lemma crit_inv_run ops : crit_inv (rev ops) (crit_run ops).
Proof.
  unfold crit_run. induction ops as [|o ops IH] using rev_ind.
  - repeat split; cbn; try tauto; try discriminate; constructor.
  - rewrite fold_left_app, rev_app_distr. cbn [fold_left rev app].
    apply crit_inv_step. exact IH.
Qed.

(** * Entries keep their identity *)

Lemma dev_evaluate_flags b d f ns :
  dev_evaluate b d f ns =
  (fst (fst (dev_evaluate b d f ns)), snd (fst (dev_evaluate b d f ns)),
   snd (dev_evaluate b d f ns)).
Proof. destruct (dev_evaluate b d f ns) as [[? ?] ?]. reflexivity. Qed.

(** The next state of a device entry does not depend on flags. *)
Definition dev_next (b : bool) (d : dev_err) : dev_err :=
  if b then match de_state d with
            | AS_NORMAL | AS_RETURN => set_state d AS_ALARM
            | _ => d end
  else match de_state d with
       | AS_ACCEPT => set_state d AS_NORMAL
       | AS_ALARM => set_state d AS_RETURN
       | _ => d end.
Definition obj_next (o : obj_err) : obj_err :=
  {| oe_type := oe_type o; oe_n := oe_n o; oe_msgs := oe_msgs o;
     oe_prev := Z.of_nat (length (oe_msgs o)); oe_cmd := false |}.
Definition entry_next (b : bool) (e : entry) : entry :=
  match e with EDev d => EDev (dev_next b d) | EObj o => EObj (obj_next o) end.

(** "Something changed" of one entry. *)
Definition entry_changed (b : bool) (e : entry) : bool :=
  match e with
  | EDev d => match b, de_state d with
              | true, AS_NORMAL | true, AS_RETURN => true
              | false, AS_ACCEPT | false, AS_ALARM => true
              | _, _ => false
              end
  | EObj o => negb (Z.of_nat (length (oe_msgs o)) =? oe_prev o) || oe_cmd o
  end.

(** Flag transformer of one entry. *)
Definition entry_flags (b : bool) (e : entry) (f : flags) : flags :=
  match e with
  | EDev d =>
      if b then
        if suppressed d then {| f_any := false; f_noack := false; f_new := false; f_msg := f_msg f |}
        else {| f_any := true;
                f_noack := match de_state d with AS_ACCEPT => f_noack f | _ => true end;
                f_new := match de_state d with AS_NORMAL | AS_RETURN => true | _ => f_new f end;
                f_msg := f_msg f |}
      else f
  | EObj o =>
      match oe_msgs o with
      | [] => f
      | _ => {| f_any := f_any f; f_noack := f_noack f; f_new := f_new f; f_msg := true |}
      end
  end.

Lemma dev_evaluate_eq b d f ns :
  dev_evaluate b d f ns =
  (dev_next b d, entry_flags b (EDev d) f, entry_changed b (EDev d) || ns).
Proof.
  unfold dev_evaluate, dev_next, entry_flags, entry_changed.
  destruct b, d as [ty n st p]; cbn [de_state]; destruct st; cbn [set_state de_state orb];
    unfold suppressed; cbn [set_state de_par de_state];
    try destruct (negb (Z.land p P_IS_SUPPRESS =? 0)); reflexivity.
Qed.

Lemma obj_evaluate_eq o f ns :
  obj_evaluate o f ns =
  (obj_next o, entry_flags true (EObj o) f, entry_changed true (EObj o) || ns).
Proof.
  unfold obj_evaluate, obj_next, entry_flags, entry_changed.
  destruct o as [ty n ms pv cm]; cbn [oe_type oe_n oe_msgs oe_prev oe_cmd].
  destruct (Z.eqb_spec (Z.of_nat (length ms)) pv) as [E|E]; cbn [negb orb].
  - destruct cm; cbn [orb]; [|rewrite E]; reflexivity.
  - reflexivity.
Qed.

Fixpoint next_entries (fl : nat -> bool) (i : nat) (es : list entry) : list entry :=
  match es with [] => [] | e :: r => entry_next (fl i) e :: next_entries fl (S i) r end.
Fixpoint flags_entries (fl : nat -> bool) (i : nat) (es : list entry) (f : flags) : flags :=
  match es with [] => f | e :: r => flags_entries fl (S i) r (entry_flags (fl i) e f) end.
Fixpoint changed_entries (fl : nat -> bool) (i : nat) (es : list entry) : bool :=
  match es with [] => false | e :: r => entry_changed (fl i) e || changed_entries fl (S i) r end.

Lemma eval_entries_eq fl es : forall i f ns,
  eval_entries fl i es f ns =
  (next_entries fl i es, flags_entries fl i es f, changed_entries fl i es || ns).
Proof.
  induction es as [|e es IH]; intros i f ns.
  - reflexivity.
  - destruct e as [d|o]; cbn [eval_entries next_entries flags_entries changed_entries].
    + rewrite dev_evaluate_eq, IH. cbn [entry_next]. f_equal.
      rewrite (orb_comm (entry_changed _ _) ns), orb_assoc.
      destruct (changed_entries fl (S i) es), ns, (entry_changed (fl i) (EDev d)); reflexivity.
    + rewrite obj_evaluate_eq, IH. cbn [entry_next]. f_equal.
      change (entry_changed (fl i) (EObj o)) with (entry_changed true (EObj o)).
      destruct (changed_entries fl (S i) es), ns, (entry_changed true (EObj o)); reflexivity.
Qed.

Lemma nth_next_entries fl es : forall i j,
  nth_error (next_entries fl i es) j = option_map (entry_next (fl (i + j)%nat)) (nth_error es j).
Proof.
  induction es as [|e es IH]; intros i [|j]; cbn [next_entries nth_error option_map]; auto.
  - rewrite Nat.add_0_r. reflexivity.
  - rewrite IH. replace (S i + j)%nat with (i + S j)%nat by lia. reflexivity.
Qed.

Lemma em_evaluate_eq fl m :
  em_evaluate fl m =
  {| em_entries := next_entries fl 0 (em_entries m);
     em_id := if changed_entries fl 0 (em_entries m) then u16 (em_id m + 1) else em_id m;
     em_flags := flags_entries fl 0 (em_entries m) no_flags;
     em_counter := em_counter m |}.
Proof.
  unfold em_evaluate. rewrite eval_entries_eq, orb_false_r. reflexivity.
Qed.

(** Commands: the entry reached. *)
Definition entry_cmd (cmd an : Z) (e : entry) : entry :=
  match e with EDev d => EDev (fst (dev_set_cmd cmd d)) | EObj o => EObj (fst (obj_set_cmd an o)) end.
Definition entry_cmd_res (cmd an : Z) (e : entry) : Z :=
  match e with EDev d => snd (dev_set_cmd cmd d) | EObj o => snd (obj_set_cmd an o) end.
Definition addr (ty n : Z) (e : entry) : bool := (entry_type e =? ty) && (entry_n e =? n).

Lemma entry_next_addr ty n b e : addr ty n (entry_next b e) = addr ty n e.
Proof.
  destruct e as [[ty' n' st p]|]; cbn [entry_next]; auto.
  unfold dev_next; cbn [de_state]. destruct b, st; reflexivity.
Qed.
Lemma entry_cmd_addr ty n c a e : addr ty n (entry_cmd c a e) = addr ty n e.
Proof.
  destruct e as [[ty' n' st p]|o]; cbn [entry_cmd].
  - unfold dev_set_cmd. cbn [de_state].
    repeat match goal with |- context [if ?x then _ else _] => destruct x end;
      try destruct st; reflexivity.
  - unfold obj_set_cmd. destruct (existsb _ _); reflexivity.
Qed.

Lemma cmd_entries_nth cmd ty n an es : forall j,
  nth_error (fst (cmd_entries cmd ty n an es)) j =
  match nth_error es j with
  | None => None
  | Some e => Some (if addr ty n e && negb (existsb (addr ty n) (firstn j es))
                    then entry_cmd cmd an e else e)
  end.
Proof.
  induction es as [|e es IH]; intros j.
  - destruct j; reflexivity.
  - cbn [cmd_entries]. change ((entry_type e =? ty) && (entry_n e =? n)) with (addr ty n e).
    destruct (addr ty n e) eqn:Ha.
    + assert (Hh : fst (match e with
        | EDev d => let '(d', res) := dev_set_cmd cmd d in (EDev d' :: es, Some res)
        | EObj o => let '(o', res) := obj_set_cmd an o in (EObj o' :: es, Some res) end)
        = entry_cmd cmd an e :: es).
      { destruct e as [d|o]; cbn [entry_cmd].
        - destruct (dev_set_cmd cmd d); reflexivity.
        - destruct (obj_set_cmd an o); reflexivity. }
      rewrite Hh. destruct j as [|j]; cbn [nth_error firstn existsb].
      * rewrite Ha. reflexivity.
      * rewrite Ha. cbn [orb negb].
        destruct (nth_error es j); [rewrite andb_false_r|]; reflexivity.
    + destruct (cmd_entries cmd ty n an es) as [r' res] eqn:E. cbn [fst] in *.
      destruct j as [|j]; cbn [nth_error firstn existsb].
      * rewrite Ha. reflexivity.
      * rewrite Ha. cbn [orb]. apply IH.
Qed.

Lemma cmd_entries_res cmd ty n an es :
  snd (cmd_entries cmd ty n an es) =
  option_map (entry_cmd_res cmd an) (find (addr ty n) es).
Proof.
  induction es as [|e es IH]; [reflexivity|].
  cbn [cmd_entries find]. change ((entry_type e =? ty) && (entry_n e =? n)) with (addr ty n e).
  destruct (addr ty n e).
  - destruct e as [d|o]; cbn [option_map entry_cmd_res].
    + destruct (dev_set_cmd cmd d); reflexivity.
    + destruct (obj_set_cmd an o); reflexivity.
  - destruct (cmd_entries cmd ty n an es). exact IH.
Qed.

Lemma set_cmd_nth cmd ty n an m j :
  nth_error (em_entries (em_set_cmd cmd ty n an m)) j =
  match nth_error (em_entries m) j with
  | None => None
  | Some e => Some (if addr ty n e && negb (existsb (addr ty n) (firstn j (em_entries m)))
                    then entry_cmd cmd an e else e)
  end.
Proof.
  unfold em_set_cmd. pose proof (cmd_entries_nth cmd ty n an (em_entries m) j) as H.
  destruct (cmd_entries cmd ty n an (em_entries m)) as [es res]. exact H.
Qed.

Definition post (c ty text : Z) (o : obj_err) : obj_err := snd (set_err_msg c o ty text).

Lemma nth_replace {A} (l : list A) i x j : (i < length l)%nat ->
  nth_error (firstn i l ++ x :: skipn (S i) l) j =
  if (j =? i)%nat then Some x else nth_error l j.
Proof.
  intros Hi. destruct (Nat.eqb_spec j i) as [->|Hne].
  - rewrite nth_error_app2; rewrite firstn_length_le by lia; [|lia].
    rewrite Nat.sub_diag. reflexivity.
  - destruct (Nat.lt_ge_cases j i).
    + rewrite nth_error_app1 by (rewrite firstn_length_le; lia).
      rewrite <- (firstn_skipn i l) at 2.
      rewrite nth_error_app1 by (rewrite firstn_length_le; lia). reflexivity.
    + rewrite nth_error_app2 by (rewrite firstn_length_le; lia).
      rewrite firstn_length_le by lia.
      replace (j - i)%nat with (S (j - S i))%nat by lia. cbn [nth_error].
      rewrite <- (firstn_skipn (S i) l) at 2.
      rewrite nth_error_app2 by (rewrite firstn_length_le; lia).
      rewrite firstn_length_le by lia. reflexivity.
Qed.

Lemma message_nth i ty text m j :
  nth_error (em_entries (em_message i ty text m)) j =
  match nth_error (em_entries m) j with
  | Some (EObj o) => Some (EObj (if (j =? i)%nat then post (em_counter m) ty text o else o))
  | x => x
  end.
Proof.
  unfold em_message. destruct (nth_error (em_entries m) i) as [[d|o]|] eqn:E.
  - destruct (Nat.eqb_spec j i) as [->|]; [rewrite E; auto|].
    destruct (nth_error (em_entries m) j) as [[]|]; auto.
  - destruct (set_err_msg (em_counter m) o ty text) as [c o'] eqn:Es. cbn [em_entries].
    rewrite nth_replace by (apply nth_error_Some; congruence).
    destruct (Nat.eqb_spec j i) as [->|].
    + rewrite E. unfold post. rewrite Es. reflexivity.
    + destruct (nth_error (em_entries m) j) as [[]|]; auto.
  - destruct (Nat.eqb_spec j i) as [->|]; [rewrite E; auto|].
    destruct (nth_error (em_entries m) j) as [[]|]; auto.
Qed.

Lemma existsb_firstn_ext {A} (p : A -> bool) (l l' : list A) i :
  (forall j, (j < i)%nat ->
     option_map p (nth_error l j) = option_map p (nth_error l' j)) ->
  existsb p (firstn i l) = existsb p (firstn i l').
Proof.
  revert l l'. induction i as [|i IH]; intros l l' H; [reflexivity|].
  pose proof (H 0%nat ltac:(lia)) as H0.
  destruct l as [|x l], l' as [|y l']; cbn [nth_error option_map] in H0; try discriminate; auto.
  cbn [firstn existsb]. injection H0 as ->. f_equal. apply IH.
  intros j Hj. apply (H (S j)). lia.
Qed.

Lemma step_addr ty n m o j :
  option_map (addr ty n) (nth_error (em_entries (em_step m o)) j) =
  option_map (addr ty n) (nth_error (em_entries m) j).
Proof.
  destruct o; cbn [em_step].
  - rewrite em_evaluate_eq. cbn [em_entries]. rewrite nth_next_entries.
    destruct (nth_error (em_entries m) j); cbn [option_map]; auto.
    rewrite entry_next_addr. auto.
  - rewrite set_cmd_nth. destruct (nth_error (em_entries m) j); cbn [option_map]; auto.
    destruct (_ && _); auto. rewrite entry_cmd_addr. auto.
  - rewrite message_nth. destruct (nth_error (em_entries m) j) as [[]|]; cbn [option_map]; auto.
    destruct (j =? i)%nat; auto. unfold post, set_err_msg. cbn [snd].
    destruct (_ <? _)%nat; auto.
Qed.

Lemma run_addr ty n ops : forall m j,
  option_map (addr ty n) (nth_error (em_entries (em_run m ops)) j) =
  option_map (addr ty n) (nth_error (em_entries m) j).
Proof.
  induction ops as [|o ops IH]; intros m j; [reflexivity|].
  unfold em_run in *. cbn [fold_left]. rewrite IH. apply step_addr.
Qed.

(** [first_at] as a boolean on the prefix, stable along runs. *)
Lemma first_at_bool es i ty n : first_at es i ty n ->
  option_map (addr ty n) (nth_error es i) = Some true /\
  existsb (addr ty n) (firstn i es) = false.
Proof.
  intros ((e & He & H1 & H2) & Hp). split.
  - rewrite He. cbn [option_map]. unfold addr. rewrite H1, H2, !Z.eqb_refl. reflexivity.
  - apply not_true_is_false. intros H. apply existsb_exists in H as (x & Hx & Ha).
    apply In_nth_error in Hx as (j & Hj).
    assert (j < i)%nat.
    { assert (Hl : (j < length (firstn i es))%nat) by (apply nth_error_Some; congruence).
      rewrite firstn_length in Hl. lia. }
    apply (Hp j x); auto.
    + rewrite <- (firstn_skipn i es). rewrite nth_error_app1; auto.
      apply nth_error_Some. congruence.
    + unfold addr in Ha. lia.
Qed.

Lemma run_prefix ty n ops m i :
  existsb (addr ty n) (firstn i (em_entries (em_run m ops))) =
  existsb (addr ty n) (firstn i (em_entries m)).
Proof. apply existsb_firstn_ext. intros j _. apply run_addr. Qed.

(** * C08 *)

Lemma run_snoc m ops o : em_run m (ops ++ [o]) = em_step (em_run m ops) o.
Proof. unfold em_run. rewrite fold_left_app. reflexivity. Qed.

Lemma dev_cycle : forall m i d ops,
  nth_error (em_entries m) i = Some (EDev d) -> de_state d = AS_NORMAL ->
  first_at (em_entries m) i (u8 (de_type d)) (de_n d) ->
  exists d', nth_error (em_entries (em_run m ops)) i = Some (EDev d') /\
    de_type d' = de_type d /\ de_n d' = de_n d /\
    de_state d' = shown_state (dev_history i (u8 (de_type d)) (de_n d) ops).
Proof.
  intros m i d ops Hd Hs Hf.
  destruct (first_at_bool _ _ _ _ Hf) as (Ha & Hp).
  induction ops as [|o ops IH] using rev_ind.
  - exists d. cbn. auto.
  - destruct IH as (d' & Hd' & Ht & Hn & Hst).
    rewrite run_snoc. unfold dev_history. rewrite flat_map_app, rev_app_distr.
    cbn [flat_map]. rewrite app_nil_r. fold (dev_history i (u8 (de_type d)) (de_n d) ops).
    set (h := dev_history i (u8 (de_type d)) (de_n d) ops) in *.
    destruct o as [fl|c t k a|j t x]; cbn [em_step events_of].
    + rewrite em_evaluate_eq. cbn [em_entries]. rewrite nth_next_entries, Hd'.
      cbn [option_map entry_next Nat.add rev app]. eexists; split; [reflexivity|].
      unfold dev_next. destruct d' as [ty' n' st' p']; cbn [de_type de_n de_state] in *.
      subst st'. unfold shown_state. cbn [faulty_now unacked].
      destruct (fl i), (faulty_now h), (unacked h); cbn; auto.
    + rewrite set_cmd_nth, Hd'. rewrite run_prefix.
      destruct ((t =? u8 (de_type d)) && (k =? de_n d)) eqn:E.
      * assert (t = u8 (de_type d) /\ k = de_n d) as [-> ->] by lia.
        rewrite Hp. cbn [negb]. rewrite andb_true_r.
        assert (addr (u8 (de_type d)) (de_n d) (EDev d') = true) as ->.
        { unfold addr. cbn [entry_type entry_n]. rewrite Ht, Hn, !Z.eqb_refl. reflexivity. }
        rewrite <- andb_assoc, E, andb_true_r.
        eexists; split; [reflexivity|].
        destruct d' as [ty' n' st' p']; cbn [de_type de_n de_state] in *. subst st'.
        unfold dev_set_cmd, C_CMD_SUPPRESS, C_CMD_UNSET_SUPPRESS, C_CMD_ACCEPT.
        destruct (Z.eqb_spec c 100) as [->|Hc]; cbn [rev app].
        -- change (100 =? 200) with false. change (100 =? 201) with false.
           cbn [de_state]. unfold shown_state. cbn [faulty_now unacked].
           destruct (faulty_now h), (unacked h); cbn; auto.
        -- destruct (c =? 200), (c =? 201); cbn; auto.
      * rewrite <- andb_assoc, E, andb_false_r. cbn [rev app].
        assert (addr t k (EDev d') = false) as ->.
        { unfold addr. cbn [entry_type entry_n]. rewrite Ht, Hn.
          rewrite (Z.eqb_sym _ t), (Z.eqb_sym _ k). exact E. }
        cbn [andb]. exists d'. auto.
    + rewrite message_nth, Hd'. cbn [rev app]. exists d'. auto.
Qed.

(** * C09 *)

(** A generic form for the three device flags. *)
Definition raises (sel : dev_err -> bool) (g : flags -> bool) : Prop :=
  forall b e f, g (entry_flags b e f) =
    match e with
    | EDev d => if b then if suppressed d then false else sel d || g f else g f
    | EObj _ => g f
    end.

Lemma flags_gen sel g (Hg : raises sel g) fl es : forall i f,
  g (flags_entries fl i es f) = true <->
  (exists k d, indicated (fun j => fl (i + j)%nat) es k d /\ sel d = true) \/
  (g f = true /\ forall j d', nth_error es j = Some (EDev d') -> fl (i + j)%nat = true ->
      suppressed d' = false).
Proof.
  induction es as [|e es IH]; intros i f; cbn [flags_entries].
  - split.
    + intros H. right. split; auto. intros [|j] d'; discriminate.
    + intros [(k & d & (Hn & _) & _)|[H _]]; auto. destruct k; discriminate.
  - rewrite IH. rewrite Hg. clear IH. split.
    + intros [(k & d & (Hn & Hfl & Hsup & Hlater) & Hsel)|[H Hall]].
      * left. exists (S k), d. split; auto. split; [|split; [|split]]; auto.
        -- replace (i + S k)%nat with (S i + k)%nat by lia. auto.
        -- intros j d' Hj Hnj Hflj. destruct j as [|j]; [lia|]. apply (Hlater j); auto; [lia|].
           replace (S i + j)%nat with (i + S j)%nat by lia. auto.
      * destruct e as [d|o].
        -- destruct (fl i) eqn:Efl.
           ++ destruct (suppressed d) eqn:Esup; [discriminate|].
              apply orb_true_iff in H as [H|H].
              ** left. exists 0%nat, d. split; auto. split; [|split; [|split]]; auto.
                 { rewrite Nat.add_0_r. auto. }
                 intros [|j] d' Hj Hnj Hflj; [lia|]. apply (Hall j); auto.
                 replace (S i + j)%nat with (i + S j)%nat by lia. auto.
              ** right. split; auto. intros [|j] d' Hnj Hflj.
                 { cbn in Hnj. congruence. }
                 apply (Hall j); auto. replace (S i + j)%nat with (i + S j)%nat by lia. auto.
           ++ right. split; auto. intros [|j] d' Hnj Hflj.
              { rewrite Nat.add_0_r in Hflj. congruence. }
              apply (Hall j); auto. replace (S i + j)%nat with (i + S j)%nat by lia. auto.
        -- right. split; auto. intros [|j] d' Hnj Hflj; [discriminate|].
           apply (Hall j); auto. replace (S i + j)%nat with (i + S j)%nat by lia. auto.
    + intros [(k & d & (Hn & Hfl & Hsup & Hlater) & Hsel)|[H Hall]].
      * destruct k as [|k].
        -- cbn [nth_error] in Hn. injection Hn as ->.
           rewrite Nat.add_0_r in Hfl. rewrite Hfl, Hsup, Hsel. cbn [orb]. right.
           split; auto. intros j d' Hnj Hflj. apply (Hlater (S j)); auto; [lia|].
           replace (i + S j)%nat with (S i + j)%nat by lia. auto.
        -- left. exists k, d. split; auto. split; [|split; [|split]]; auto.
           { replace (S i + k)%nat with (i + S k)%nat by lia. auto. }
           intros j d' Hj Hnj Hflj. apply (Hlater (S j)); auto; [lia|].
           replace (i + S j)%nat with (S i + j)%nat by lia. auto.
      * right. split.
        -- destruct e as [d|o]; auto. destruct (fl i) eqn:Efl; auto.
           rewrite (Hall 0%nat d); auto; [rewrite H; apply orb_true_r|].
           rewrite Nat.add_0_r; auto.
        -- intros j d' Hnj Hflj. apply (Hall (S j)); auto.
           replace (i + S j)%nat with (S i + j)%nat by lia. auto.
Qed.

Lemma raises_any : raises (fun _ => true) f_any.
Proof.
  intros b [d|o] f; unfold entry_flags.
  - destruct b; auto. destruct (suppressed d); reflexivity.
  - destruct (oe_msgs o); reflexivity.
Qed.
Lemma raises_noack : raises (fun d => match de_state d with AS_ACCEPT => false | _ => true end) f_noack.
Proof.
  intros b [d|o] f; unfold entry_flags.
  - destruct b; auto. destruct (suppressed d); auto. destruct (de_state d); reflexivity.
  - destruct (oe_msgs o); reflexivity.
Qed.
Lemma raises_new : raises (fun d => match de_state d with AS_NORMAL | AS_RETURN => true | _ => false end) f_new.
Proof.
  intros b [d|o] f; unfold entry_flags.
  - destruct b; auto. destruct (suppressed d); auto. destruct (de_state d); reflexivity.
  - destruct (oe_msgs o); reflexivity.
Qed.

Lemma flags_entries_msg fl es : forall i f,
  f_msg (flags_entries fl i es f) = true <->
  f_msg f = true \/ exists k o, nth_error es k = Some (EObj o) /\ oe_msgs o <> [].
Proof.
  induction es as [|e es IH]; intros i f; cbn [flags_entries].
  - split; auto. intros [|(k & o & H & _)]; auto. destruct k; discriminate.
  - rewrite IH. destruct e as [d|o]; cbn [entry_flags].
    + assert (f_msg (if fl i then if suppressed d
        then {| f_any := false; f_noack := false; f_new := false; f_msg := f_msg f |}
        else {| f_any := true;
                f_noack := match de_state d with AS_ACCEPT => f_noack f | _ => true end;
                f_new := match de_state d with AS_NORMAL | AS_RETURN => true | _ => f_new f end;
                f_msg := f_msg f |} else f) = f_msg f) as ->.
      { destruct (fl i); auto. destruct (suppressed d); auto. }
      split; intros [|(k & o & H & Hm)]; auto.
      * right. exists (S k), o. auto.
      * destruct k; [discriminate|]. right. exists k, o. auto.
    + destruct (oe_msgs o) as [|m ms] eqn:Em.
      * split; intros [|(k & o' & H & Hm)]; auto.
        -- right. exists (S k), o'. auto.
        -- destruct k; [cbn in H; congruence|]. right. exists k, o'. auto.
      * cbn [f_msg]. split.
        -- intros _. right. exists 0%nat, o. split; auto. rewrite Em. discriminate.
        -- auto.
Qed.

Lemma one_pass fl m :
  let f := em_flags (em_evaluate fl m) in
  let es := em_entries m in
  (f_any f = true <-> exists i d, indicated fl es i d) /\
  (f_noack f = true <-> exists i d, indicated fl es i d /\ de_state d <> AS_ACCEPT) /\
  (f_new f = true <-> exists i d, indicated fl es i d /\
        (de_state d = AS_NORMAL \/ de_state d = AS_RETURN)) /\
  (f_msg f = true <-> exists i o, nth_error es i = Some (EObj o) /\ oe_msgs o <> []).
Proof.
  cbn zeta. rewrite em_evaluate_eq. cbn [em_flags].
  split; [|split; [|split]].
  - rewrite (flags_gen _ _ raises_any). cbn [f_any no_flags Nat.add]. split.
    + intros [(k & d & H & _)|[H _]]; [exists k, d; exact H|discriminate].
    + intros (k & d & H). left. exists k, d. auto.
  - rewrite (flags_gen _ _ raises_noack). cbn [f_noack no_flags Nat.add]. split.
    + intros [(k & d & H & Hs)|[H _]]; [|discriminate].
      exists k, d. split; auto. destruct (de_state d); congruence.
    + intros (k & d & H & Hs). left. exists k, d. split; auto. destruct (de_state d); congruence.
  - rewrite (flags_gen _ _ raises_new). cbn [f_new no_flags Nat.add]. split.
    + intros [(k & d & H & Hs)|[H _]]; [|discriminate].
      exists k, d. split; auto. destruct (de_state d); auto; discriminate.
    + intros (k & d & H & Hs). left. exists k, d. split; auto. destruct Hs as [-> | ->]; auto.
  - rewrite flags_entries_msg. cbn [f_msg no_flags]. split; [intros [|]|]; auto; discriminate.
Qed.

(** * C47: the change counter *)

Definition em_ok (m : emgr) : Prop := 0 <= em_id m < 65536.

Lemma em_id_step m o :
  em_id (em_step m o) = em_id m \/ em_id (em_step m o) = u16 (em_id m + 1).
Proof.
  destruct o; cbn [em_step].
  - rewrite em_evaluate_eq. cbn [em_id]. destruct (changed_entries _ _ _); auto.
  - unfold em_set_cmd. destruct (cmd_entries _ _ _ _ _) as [es [r|]]; cbn [em_id]; auto.
    destruct r; auto.
  - unfold em_message. destruct (nth_error _ _) as [[|]|]; auto.
Qed.

(** Between two evaluations: either the counter moved or each object only
    received messages and devices are as they were. *)
Definition obj_since (o o' : obj_err) : Prop :=
  oe_type o' = oe_type o /\ oe_n o' = oe_n o /\ oe_prev o' = oe_prev o /\
  oe_cmd o' = oe_cmd o /\ exists l, oe_msgs o' = oe_msgs o ++ l.
Definition entry_since (e e' : entry) : Prop :=
  match e, e' with
  | EDev d, EDev d' => d = d'
  | EObj o, EObj o' => obj_since o o'
  | _, _ => False
  end.
Definition settled (e : entry) : Prop :=
  match e with
  | EDev _ => True
  | EObj o => oe_prev o = Z.of_nat (length (oe_msgs o)) /\ oe_cmd o = false
  end.

Definition same_but_id (m : emgr) (o : em_op) : Prop := em_id (em_step m o) = em_id m.

Lemma u16_succ_neq a : 0 <= a < 65536 -> u16 (a + 1) <> a.
Proof.
  intros H. unfold u16. change (2 ^ 16) with 65536.
  destruct (Z.eq_dec a 65535) as [->|]; [cbv; congruence|].
  rewrite Z.mod_small by lia. lia.
Qed.

Lemma Forall2_nth {A B} (R : A -> B -> Prop) l l' :
  Forall2 R l l' <->
  (forall j, match nth_error l j, nth_error l' j with
             | Some x, Some y => R x y | None, None => True | _, _ => False end).
Proof.
  split.
  - induction 1; intros [|j]; cbn [nth_error]; auto. apply IHForall2.
  - revert l'. induction l as [|x l IH]; intros [|y l'] H.
    + constructor.
    + specialize (H 0%nat). contradiction.
    + specialize (H 0%nat). contradiction.
    + constructor; [apply (H 0%nat)|]. apply IH. intros j. apply (H (S j)).
Qed.

Lemma entry_since_refl e : entry_since e e.
Proof.
  destruct e; cbn; auto. repeat split; auto. exists []. rewrite app_nil_r. auto.
Qed.
Lemma entry_since_trans a b c : entry_since a b -> entry_since b c -> entry_since a c.
Proof.
  destruct a, b, c; cbn; try tauto; try congruence.
  intros (H1 & H2 & H3 & H4 & l1 & H5) (K1 & K2 & K3 & K4 & l2 & K5).
  split; [congruence|]. split; [congruence|]. split; [congruence|]. split; [congruence|].
  exists (l1 ++ l2). rewrite K5, H5, app_assoc. auto.
Qed.

(** A step that does not move the counter. *)
Lemma quiet_step m o : em_ok m -> em_id (em_step m o) = em_id m ->
  match o with
  | OEval fl =>
      Forall2 (fun e e' => entry_since e e' \/ True) (em_entries m) (em_entries (em_step m o))
      /\ forall j e, nth_error (em_entries m) j = Some e ->
           entry_changed (fl j) e = false
  | _ => Forall2 entry_since (em_entries m) (em_entries (em_step m o))
  end.
Proof.
  intros Hok Hid. destruct o as [fl|c t k a|i t x]; cbn [em_step] in *.
  - rewrite em_evaluate_eq in *. cbn [em_id em_entries] in *.
    assert (Hc : changed_entries fl 0 (em_entries m) = false).
    { destruct (changed_entries fl 0 (em_entries m)); auto.
      exfalso. eapply u16_succ_neq; eauto. }
    split.
    + apply Forall2_nth. intros j. rewrite nth_next_entries.
      destruct (nth_error (em_entries m) j); cbn; auto.
    + clear - Hc. assert (G : forall i j e, nth_error (em_entries m) j = Some e ->
        changed_entries fl i (em_entries m) = false -> entry_changed (fl (i + j)%nat) e = false).
      { generalize (em_entries m) as es. induction es as [|e0 es IH]; intros i [|j] e Hn Hc';
          cbn [nth_error] in Hn; try discriminate; cbn [changed_entries] in Hc';
          apply orb_false_iff in Hc' as [H1 H2].
        - rewrite Nat.add_0_r. congruence.
        - replace (i + S j)%nat with (S i + j)%nat by lia. apply IH; auto. }
      intros j e Hn. apply (G 0%nat j e Hn Hc).
  - apply Forall2_nth. intros j. rewrite set_cmd_nth.
    destruct (nth_error (em_entries m) j) as [e|] eqn:E; auto.
    destruct (addr t k e && negb (existsb (addr t k) (firstn j (em_entries m)))) eqn:B;
      [|apply entry_since_refl].
    (* the entry reached reported a non-zero result *)
    apply andb_true_iff in B as [B1 B2].
    assert (Hfind : find (addr t k) (em_entries m) = Some e).
    { rewrite negb_true_iff in B2. clear - E B1 B2. revert j E B2.
      induction (em_entries m) as [|x l IH]; intros [|j] E B2; cbn [nth_error] in E; try discriminate.
      - injection E as ->. cbn [find]. rewrite B1. auto.
      - cbn [firstn existsb] in B2. apply orb_false_iff in B2 as [B3 B2].
        cbn [find]. rewrite B3. eapply IH; eauto. }
    unfold em_set_cmd in Hid.
    pose proof (cmd_entries_res c t k a (em_entries m)) as Hr.
    destruct (cmd_entries c t k a (em_entries m)) as [es res]. cbn [snd] in Hr.
    rewrite Hfind in Hr. cbn [option_map] in Hr. subst res. cbn [em_id] in Hid.
    assert (Hres : entry_cmd_res c a e <> 0).
    { intros H0. rewrite H0 in Hid. eapply u16_succ_neq; eauto. }
    destruct e as [d|o]; cbn [entry_cmd entry_cmd_res entry_since] in *.
    + unfold dev_set_cmd in *.
      destruct (c =? C_CMD_SUPPRESS); [cbn in Hres; congruence|].
      destruct (c =? C_CMD_UNSET_SUPPRESS); [cbn in Hres; congruence|].
      destruct (c =? C_CMD_ACCEPT); auto.
      destruct (de_state d); auto; cbn in Hres; congruence.
    + unfold obj_set_cmd in *. destruct (existsb _ _); [cbn in Hres; congruence|].
      apply (entry_since_refl (EObj o)).
  - apply Forall2_nth. intros j. rewrite message_nth.
    destruct (nth_error (em_entries m) j) as [[d|o]|]; auto; [apply (entry_since_refl (EDev d))|].
    destruct (j =? i)%nat; [|apply (entry_since_refl (EObj o))].
    unfold post, set_err_msg. cbn [snd]. destruct (_ <? _)%nat; [|apply (entry_since_refl (EObj o))].
    cbn [entry_since]. repeat split; cbn [oe_msgs]; auto. eexists; reflexivity.
Qed.

(** An entry and what it looks like at a later time, when the counter has not
    moved: seen from the last evaluation. *)
Definition quiet (e e' : entry) : Prop := settled e /\ entry_since e e'.

Lemma entry_eval_quiet b e e' : quiet e e' -> entry_changed b e' = false ->
  entry_next b e' = e.
Proof.
  intros (Hset & Hs) Hc. destruct e as [d|o], e' as [d'|o']; cbn [entry_since] in Hs; try tauto.
  - subst d'. cbn [entry_next]. f_equal. destruct d as [ty n st p]. unfold dev_next.
    cbn [entry_changed de_state] in *. destruct b, st; cbn in *; congruence.
  - destruct Hs as (H1 & H2 & H3 & H4 & l & H5). cbn [settled] in Hset.
    destruct Hset as [S1 S2]. cbn [entry_changed] in Hc.
    rewrite H3, H4, H5, S1, S2, app_length in Hc. cbn [entry_next]. f_equal.
    destruct l as [|x l].
    + rewrite app_nil_r in H5. destruct o as [ty n ms pv cm], o' as [ty' n' ms' pv' cm'];
        cbn in *. unfold obj_next; cbn. subst. reflexivity.
    + exfalso. cbn [length] in Hc. lia.
Qed.

Lemma em_ok_step m o : em_ok m -> em_ok (em_step m o).
Proof.
  unfold em_ok. intros H. destruct (em_id_step m o) as [-> | ->]; auto.
  unfold u16. apply Z.mod_pos_bound. lia.
Qed.

Lemma quiet_run ops : forall m0 m, em_ok m ->
  Forall2 quiet (em_entries m0) (em_entries m) ->
  (forall k, em_id (em_run m (firstn k ops)) = em_id m) ->
  Forall2 quiet (em_entries m0) (em_entries (em_run m ops)).
Proof.
  induction ops as [|o ops IH]; intros m0 m Hok HQ Hid; [exact HQ|].
  assert (H1 : em_id (em_step m o) = em_id m) by apply (Hid 1%nat).
  unfold em_run. cbn [fold_left]. apply IH.
  - apply em_ok_step; auto.
  - pose proof (quiet_step m o Hok H1) as Hq.
    destruct o as [fl|c t k a|i t x].
    + destruct Hq as [_ Hq]. cbn [em_step]. rewrite em_evaluate_eq. cbn [em_entries].
      apply Forall2_nth. intros j. rewrite nth_next_entries.
      rewrite Forall2_nth in HQ. specialize (HQ j).
      destruct (nth_error (em_entries m0) j) as [e0|], (nth_error (em_entries m) j) as [e|] eqn:Ej;
        cbn [option_map]; auto.
      cbn [Nat.add]. rewrite (entry_eval_quiet (fl j) e0 e HQ (Hq j e Ej)).
      split; [apply HQ|apply entry_since_refl].
    + clear - HQ Hq. rewrite Forall2_nth in *. intros j. specialize (HQ j). specialize (Hq j).
      destruct (nth_error (em_entries m0) j), (nth_error (em_entries m) j),
        (nth_error (em_entries (em_step m (OCmd c t k a))) j); try tauto.
      destruct HQ. split; auto. eapply entry_since_trans; eauto.
    + clear - HQ Hq. rewrite Forall2_nth in *. intros j. specialize (HQ j). specialize (Hq j).
      destruct (nth_error (em_entries m0) j), (nth_error (em_entries m) j),
        (nth_error (em_entries (em_step m (OMsg i t x))) j); try tauto.
      destruct HQ. split; auto. eapply entry_since_trans; eauto.
  - intros k. rewrite H1. specialize (Hid (S k)). cbn [firstn] in Hid.
    unfold em_run in *. cbn [fold_left] in Hid. exact Hid.
Qed.

Lemma settled_next b e : settled (entry_next b e).
Proof. destruct e; cbn; auto. Qed.

Lemma counter_monotone_prefix : forall ops m, em_ok m ->
  Z.of_nat (length ops) < 65536 -> em_id (em_run m ops) = em_id m ->
  forall k, em_id (em_run m (firstn k ops)) = em_id m.
Proof.
  (* the counter advances at most once per operation *)
  assert (G : forall ops m, em_ok m ->
     exists d, 0 <= d <= Z.of_nat (length ops) /\
       em_id (em_run m ops) = (em_id m + d) mod 65536).
  { induction ops as [|o ops IH]; intros m Hok.
    - exists 0. split; [cbn; lia|]. rewrite Z.add_0_r. cbn. symmetry. apply Z.mod_small. exact Hok.
    - destruct (IH (em_step m o) (em_ok_step m o Hok)) as (d & Hd & E).
      unfold em_run in *. cbn [fold_left length]. rewrite E.
      destruct (em_id_step m o) as [-> | ->].
      + exists d. split; [lia|auto].
      + exists (d + 1). split; [lia|]. unfold u16. change (2 ^ 16) with 65536.
        rewrite Zplus_mod_idemp_l. f_equal. lia. }
  intros ops m Hok Hlen Hend k.
  assert (Hokk : em_ok (em_run m (firstn k ops))).
  { generalize (firstn k ops). intros l. clear - Hok.
    induction l as [|o l IH] using rev_ind; [exact Hok|].
    rewrite run_snoc. apply em_ok_step. exact IH. }
  destruct (G (firstn k ops) m Hok) as (d1 & Hd1 & E1).
  destruct (G (skipn k ops) (em_run m (firstn k ops)) Hokk) as (d2 & Hd2 & E2).
  assert (Hsplit : em_run (em_run m (firstn k ops)) (skipn k ops) = em_run m ops).
  { unfold em_run. rewrite <- fold_left_app, firstn_skipn. reflexivity. }
  rewrite Hsplit, Hend in E2. rewrite E1 in E2. rewrite Zplus_mod_idemp_l in E2.
  assert (Hl : (length (firstn k ops) + length (skipn k ops) = length ops)%nat).
  { rewrite <- app_length, firstn_skipn. reflexivity. }
  unfold em_ok in Hok.
  assert (d1 + d2 = 0 \/ d1 + d2 = 65536 \/ 0 < d1 + d2 < 65536) as Hc by lia.
  assert (d1 + d2 < 65536) by lia.
  assert (d1 = 0).
  { destruct Hc as [|[|Hc]]; try lia. exfalso.
    pose proof (Z.div_mod (em_id m + d1 + d2) 65536 ltac:(lia)). lia. }
  subst d1. rewrite E1, Z.add_0_r. apply Z.mod_small. exact Hok.
Qed.
