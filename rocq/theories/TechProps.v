(** Properties C15-C17, C59, C60: commands to technological objects. *)
From Coq Require Import ZArith List Bool Lia Relations.
From Verif Require Import Base TimeModel OpModel OpSpec OpProofs OpProofs2 OpProofs3 OpProps
  TechModel TechSpec TechProofs TechProofs2 TechProofs3 TechProofs4.
Import ListNotations.
Open Scope Z_scope.

(** ** A plant to try things on *)

(** Two objects with three operations each; running has two steps. *)
Definition demo_plant : plant :=
  new_plant 2 (fun _ => 3) (fun _ _ s => if s =? RUN then plain 2 false else plain 0 true).
(** All checks pass; the automatic switch-on is warned about every 5 s and given
    up after 20 s. *)
Definition calm_at (t : Z) : inp :=
  {| ienv := fun _ _ => at_time t; chk_pause := fun _ _ => 0; chk_stop := fun _ _ => 0; chk_start := fun _ _ => 0;
     rstep := fun _ _ => 0; chk_off := fun _ _ => 0; chk_on := fun _ _ => 0; chk_run := fun _ _ => 0;
     deverr := fun _ _ => false; checked := fun _ _ => true; restricting := true; autopause := true;
     badpars := fun _ _ => false; goto_ := fun _ _ _ => None; warn_time := 5000; wait_time := 20000;
     exec_cmd := fun _ n => n + 7 |}.
(** The same with a device of every operation in error. *)
Definition broken_at (t : Z) : inp :=
  {| ienv := fun _ _ => at_time t; chk_pause := fun _ _ => 0; chk_stop := fun _ _ => 0; chk_start := fun _ _ => 0;
     rstep := fun _ _ => 0; chk_off := fun _ _ => 0; chk_on := fun _ _ => 0; chk_run := fun _ _ => 0;
     deverr := fun _ _ => true; checked := fun _ _ => true; restricting := true; autopause := true;
     badpars := fun _ _ => false; goto_ := fun _ _ _ => None; warn_time := 5000; wait_time := 20000;
     exec_cmd := fun _ n => n + 7 |}.
(** A signal asks for operation 1 of object 1; the check answers [c]. *)
Definition asked_at (t c : Z) : inp :=
  {| ienv := fun _ _ => at_time t; chk_pause := fun _ _ => 0; chk_stop := fun _ _ => 0; chk_start := fun _ _ => 0;
     rstep := fun _ _ => 0; chk_off := fun _ _ => 0; chk_on := fun _ _ => c; chk_run := fun _ _ => 0;
     deverr := fun _ _ => false; checked := fun _ _ => true; restricting := true; autopause := true;
     badpars := fun _ _ => false; goto_ := fun _ _ s => if s =? IDLE then Some RUN else None; warn_time := 5000; wait_time := 20000;
     exec_cmd := fun _ n => n + 7 |}.
(** Operations 1 and 2 of an object exclude each other, and operation 3 of
    object 1 excludes operation 3 of object 2. *)
Definition demo_restr : restr :=
  {| rin := fun _ a b => ((a =? 1) && (b =? 2)) || ((a =? 2) && (b =? 1));
     rout := fun k a k' b => ((k =? 1) && (k' =? 2) || (k =? 2) && (k' =? 1)) && (a =? 3) && (b =? 3);
     rnext := fun _ _ _ => false |}.
Definition no_restr : restr := {| rin := fun _ _ _ => false; rout := fun _ _ _ _ => false; rnext := fun _ _ _ => false |}.
Definition state_of (p : plant) (k n : Z) : Z := cur (t_ops (p_obj p k) n).

Lemma demo_mutual : mutual demo_restr.
Proof.
  intros k n k' n'. unfold blocks, demo_restr; cbn [rin rout].
  rewrite !andb_true_iff, !orb_true_iff, !andb_true_iff, !Z.eqb_eq. intuition.
Qed.

(** The cycle of an object is the evaluation of its operations in order, so it is
    covered by the histories below. *)
Lemma cycle_is_history R i k : forall p, known p ->
  evaluate R i k p = run_h R (map (fun n => (i, HEval k n)) (upto (t_n (p_obj p k)))) p.
Proof.
  intros p K. unfold evaluate.
  assert (L : forall l, (forall x, In x l -> 1 <= x <= t_n (p_obj p k)) -> forall q, known q -> t_n (p_obj q k) = t_n (p_obj p k) ->
    fold_left (fun p n => eval_one R i k n p) l q = run_h R (map (fun n => (i, HEval k n)) l) q).
  { induction l as [|x l IH]; cbn [fold_left map run_h]; intros B q Kq E; [reflexivity|].
    assert (H : do_h R i (HEval k x) q = eval_one R i k x q).
    { cbn [do_h]. unfold has. specialize (B x (or_introl eq_refl)). rewrite E.
      rewrite (proj2 (Z.leb_le 1 x)), (proj2 (Z.leb_le x _)) by lia. reflexivity. }
    rewrite <- H. apply IH; [intros y Y; apply B; right; exact Y|apply known_h; exact Kq|].
    rewrite n_h by exact Kq. exact E. }
  apply L; auto. intros x X. apply in_upto. exact X.
Qed.

(** * C15: command numbers *)

(** No number has two meanings. *)
Theorem C15_unique : forall a b, valid a -> valid b -> encode a = encode b -> a = b.
Proof.
  intros a b Va Vb E. destruct a, b; cbn [valid encode] in *; try (exfalso; lia); try reflexivity; try (f_equal; lia).
Qed.
Print Assumptions C15_unique.

(** Each number does what it means.  Numbers of operations beyond the last but
    one are commands of the object's script. *)
Theorem C15_meaning : forall R i k a p, valid a ->
  let count := t_n (p_obj p k) in
  let shows c q := put_obj k (set_cmdv c (p_obj q k)) q in
  let switch n s :=
    let q := set_mode R i k n s p in (shows (if snd q =? 0 then encode a else snd q) (fst q), 0) in
  0 <= count ->
  set_cmd R i k (encode a) p =
  match a with
  | Clear => (shows 0 p, 0)
  | On n => if n <=? count + 1 then switch n 1 else (shows (exec_cmd i k n) p, 0)
  | Off n => if n <=? count + 1 then switch n 0 else (shows (exec_cmd i k n) p, 0)
  | State n s => set_mode R i k n s (shows (encode a) p)
  | ExtraOn n st => set_extra_step i k n st true p
  | ExtraOff n st => set_extra_step i k n st false p
  end.
Proof.
  intros R i k a p V count shows switch C. subst switch. unfold set_cmd, shows. cbv zeta.
  assert (U : u32 (encode a) = encode a) by (unfold u32; apply Z.mod_small; destruct a; cbn [encode valid] in *; lia).
  rewrite U.
  destruct a as [|n|n|n s|n s|n s]; cbn [encode valid] in *; [reflexivity|..].
  all: rewrite (proj2 (Z.eqb_neq _ 0)) by lia.
  all: repeat match goal with
       | |- context[?x <=? ?y] => first [rewrite (proj2 (Z.leb_le x y)) by lia|rewrite (proj2 (Z.leb_gt x y)) by lia]
       | |- context[?x <? ?y] => first [rewrite (proj2 (Z.ltb_lt x y)) by lia|rewrite (proj2 (Z.ltb_ge x y)) by lia]
       end; cbn [andb].
  - replace (1000 + n - 1000) with n by lia. fold count. rewrite Z.leb_antisym. destruct (count + 1 <? n); reflexivity.
  - replace (2000 + n - 2000) with n by lia. fold count. rewrite Z.leb_antisym. destruct (count + 1 <? n); reflexivity.
  - replace (100000 + 100 * n + s) with (s + (1000 + n) * 100) by lia. rewrite Z.div_add, Z.mod_add by lia.
    rewrite Z.div_small, Z.mod_small by lia. f_equal. lia.
  - replace (200000 + 100 * n + s) with (s + (2000 + n) * 100) by lia. rewrite Z.div_add, Z.mod_add by lia.
    rewrite Z.div_small, Z.mod_small by lia. f_equal. lia.
  - replace (300000 + 100 * n + s) with (s + (3000 + n) * 100) by lia. rewrite Z.div_add, Z.mod_add by lia.
    rewrite Z.div_small, Z.mod_small by lia. f_equal. lia.
Qed.
Print Assumptions C15_meaning.

(** Every other number is rejected and changes nothing. *)
Theorem C15_other : forall R i k v p, - 2 ^ 31 <= v < 2 ^ 31 -> (forall a, valid a -> encode a <> v) ->
  set_cmd R i k v p = (p, 1).
Proof.
  intros R i k v p V N.
  assert (N0 : v <> 0) by (intros ->; apply (N Clear); [exact I|reflexivity]).
  assert (N1 : ~ 1000 <= v < 2000) by (intros B; apply (N (On (v - 1000))); cbn [valid encode]; lia).
  assert (N2 : ~ 2000 <= v < 3000) by (intros B; apply (N (Off (v - 2000))); cbn [valid encode]; lia).
  assert (DM := Z.div_mod v 100 ltac:(lia)). assert (MB := Z.mod_pos_bound v 100 ltac:(lia)).
  assert (N3 : ~ 100000 <= v < 200000) by (intros B; apply (N (State (v / 100 - 1000) (v mod 100))); cbn [valid encode]; lia).
  assert (N4 : ~ 200000 <= v < 300000) by (intros B; apply (N (ExtraOn (v / 100 - 2000) (v mod 100))); cbn [valid encode]; lia).
  assert (N5 : ~ 300000 <= v < 400000) by (intros B; apply (N (ExtraOff (v / 100 - 3000) (v mod 100))); cbn [valid encode]; lia).
  unfold set_cmd. cbv zeta. rewrite (proj2 (Z.eqb_neq v 0)) by exact N0.
  assert (U : u32 v = v \/ 2 ^ 31 <= u32 v).
  { destruct (Z.lt_ge_cases v 0); [right|left; unfold u32; apply Z.mod_small; lia].
    unfold u32. replace v with (v + 2 ^ 32 + (-1) * 2 ^ 32) by lia. rewrite Z.mod_add by lia. rewrite Z.mod_small by lia. lia. }
  set (w := u32 v) in *. clearbody w.
  assert (B : forall a b, ~ a <= v < b -> b < 2 ^ 31 -> (a <=? w) && (w <? b) = false).
  { intros a b H Hb. destruct (Z.leb_spec a w), (Z.ltb_spec w b); try reflexivity. exfalso. destruct U; lia. }
  rewrite !B by (auto; lia). reflexivity.
Qed.
Print Assumptions C15_other.

(** Not guaranteed: beyond the last operation, "on" and "off" are the same script
    command. *)
Theorem C15_script_refuted : forall R i k n p, 0 <= t_n (p_obj p k) -> t_n (p_obj p k) + 1 < n < 1000 ->
  set_cmd R i k (encode (On n)) p = set_cmd R i k (encode (Off n)) p.
Proof.
  intros R i k n p C N. rewrite !C15_meaning by (cbn [valid]; lia).
  rewrite (proj2 (Z.leb_gt _ _)) by lia. reflexivity.
Qed.
Print Assumptions C15_script_refuted.

(** Not guaranteed: the answer shown tells acceptance from refusal - with a
    faulty device the refusal has the same number as the command. *)
Theorem C15_answer_refuted : forall R i k n p, 1 <= n <= t_n (p_obj p k) -> n < 1000 ->
  get_mode (p_obj p k) n = 0 -> deverr i k n = true -> checked i k n = true ->
  let q := fst (set_cmd R i k (encode (On n)) p) in
  t_cmd (p_obj q k) = encode (On n) /\ t_ops (p_obj q k) n = t_ops (p_obj p k) n /\ get_mode (p_obj q k) n = 0.
Proof.
  intros R i k n p N L G D C q. subst q. rewrite C15_meaning by (cbn [valid]; lia).
  rewrite (proj2 (Z.leb_le _ _)) by lia. cbv zeta. cbn [fst].
  unfold set_mode. cbv zeta. rewrite (proj2 (Z.eqb_neq n 0)) by lia. rewrite (proj2 (Z.ltb_ge _ _)) by lia.
  change (1 =? PAUSE) with false. change (1 =? STOP) with false. change (1 =? 0) with false. cbv iota.
  rewrite G, D, C. change (0 =? 1) with false. cbn [andb fst snd]. rewrite (proj2 (Z.eqb_neq _ 0)) by lia.
  rewrite put_same. cbn [encode set_cmdv t_cmd t_ops]. split; [lia|]. split; [reflexivity|exact G].
Qed.
Print Assumptions C15_answer_refuted.

(** All states other than off, pause and stop mean "on". *)
Theorem C15_states : forall R i k n s p, s <> 0 -> s <> 2 -> s <> 3 -> set_mode R i k n s p = set_mode R i k n 1 p.
Proof.
  intros R i k n s p S0 S2 S3. unfold set_mode. cbv zeta. unfold PAUSE, STOP.
  rewrite (proj2 (Z.eqb_neq s 2)), (proj2 (Z.eqb_neq s 3)), (proj2 (Z.eqb_neq s 0)) by auto. reflexivity.
Qed.
Print Assumptions C15_states.

(** Numbers of operations that do not exist are answered by 4 and 3. *)
Theorem C15_no_such_operation : forall R i k n s p, 0 <= n -> ~ 1 <= n <= t_n (p_obj p k) ->
  set_mode R i k n s p = (p, if n =? 0 then 4 else 3).
Proof.
  intros R i k n s p P N. unfold set_mode. cbv zeta. destruct (Z.eqb_spec n 0) as [E|E]; [reflexivity|].
  rewrite (proj2 (Z.ltb_lt _ _)) by lia. reflexivity.
Qed.
Print Assumptions C15_no_such_operation.

Example C15_example :
  let p := demo_plant in
  let q := run_h no_restr [(calm_at 1, HCmd 1 1002); (calm_at 2, HCmd 1 100302); (calm_at 3, HCmd 1 200202)] p in
  map (state_of q 1) [1; 2; 3] = [IDLE; RUN; IDLE] /\ extra (sts (t_ops (p_obj q 1) 2) RUN) = [2] /\
  t_cmd (p_obj q 1) = 100302 /\ get_mode (p_obj q 1) 3 = 1 /\
  t_cmd (p_obj (run_h no_restr [(broken_at 1, HCmd 1 1002)] p) 1) = 1002 /\
  t_cmd (p_obj (run_h no_restr [(calm_at 1, HCmd 1 1004)] p) 1) = 3 /\
  t_cmd (p_obj (run_h no_restr [(calm_at 1, HCmd 1 1005)] p) 1) = 12.
Proof. vm_compute. auto 10. Qed.

(** * C16: reported and actual state *)

(** An operation that is not idle is always reported on. *)
Theorem C16_active_reported : forall R h n ms cf k x,
  let p := run_h R h (new_plant n ms cf) in
  exists_op p k x -> ~ idle p k x -> reported_on p k x.
Proof.
  intros R h n ms cf k x p X I. assert (K : known p) by (apply known_run, known_new).
  destruct (gm_01 (p_obj p k) x) as [G|G]; [unfold exists_op in X; lia| |exact G].
  exfalso. apply I. apply (K k x X). exact G.
Qed.
Print Assumptions C16_active_reported.

(** If pause and stop are only sent to operations that are on, an operation is
    reported on exactly if it is not idle. *)
Theorem C16_agree : forall R h n ms cf k x,
  let p := run_h R h (new_plant n ms cf) in
  polite_run R h (new_plant n ms cf) -> exists_op p k x -> (reported_on p k x <-> ~ idle p k x).
Proof.
  intros R h n ms cf k x p L X. split; [|apply (C16_active_reported R h n ms cf k x X)].
  intros G. apply (inv_run agree (fun _ => True) R) with (h := h) (p := new_plant n ms cf); auto.
  - intros i q q' _ _ A S. eapply agree_step; eauto.
  - apply known_new.
  - apply agree_new.
Qed.
Print Assumptions C16_agree.

(** Otherwise an idle operation can be reported on. *)
Theorem C16_marked_refuted : exists h,
  let p := run_h no_restr h demo_plant in
  reported_on p 1 1 /\ idle p 1 1 /\ otr (t_ops (p_obj p 1) 1) = [].
Proof. exists [(calm_at 1, HCmd 1 100102)]. vm_compute. auto. Qed.
Print Assumptions C16_marked_refuted.

(** Not guaranteed: a command that is answered with success was carried out - a
    stopped operation is "switched on" without any effect. *)
Theorem C16_success_refuted : forall R i k n p, 1 <= n <= t_n (p_obj p k) -> reported_on p k n ->
  In (state_of p k n) [STOP; PAUSING; STOPPING] -> chk_start i k n = 0 ->
  snd (set_mode R i k n RUN p) = 0 /\
  t_ops (p_obj (fst (set_mode R i k n RUN p)) k) n = t_ops (p_obj p k) n.
Proof.
  intros R i k n p N G S C. unfold reported_on in G. unfold state_of in S.
  unfold set_mode. cbv zeta. rewrite (proj2 (Z.eqb_neq n 0)) by lia. rewrite (proj2 (Z.ltb_ge _ _)) by lia.
  change (RUN =? PAUSE) with false. change (RUN =? STOP) with false. change (RUN =? 0) with false. cbv iota.
  rewrite G, C. change (1 =? 1) with true. change (0 =? 0) with true. cbv iota.
  set (o := t_ops (p_obj p k) n) in *.
  assert (E : cur o =? RUN = false) by (destruct S as [<-|[<-|[<-|[]]]]; reflexivity). rewrite E. cbn [fst snd].
  split; [reflexivity|]. rewrite put_same. unfold act_op. cbv zeta. fold o.
  assert (F : op_start (ienv i k n) (rstep i k n) o = (o, false)).
  { unfold op_start. cbv zeta. destruct S as [<-|[<-|[<-|[]]]]; reflexivity. }
  rewrite F. cbn [fst snd]. apply op_same.
Qed.
Print Assumptions C16_success_refuted.

Example C16_success_example :
  let p := run_h no_restr [(calm_at 1, HCmd 1 1001); (calm_at 2, HCmd 1 100103)] demo_plant in
  state_of p 1 1 = STOP /\ get_mode (p_obj p 1) 1 = 1 /\
  t_cmd (p_obj (run_h no_restr [(calm_at 3, HCmd 1 1001)] p) 1) = 1001 /\
  state_of (run_h no_restr [(calm_at 3, HCmd 1 1001)] p) 1 1 = STOP.
Proof. vm_compute. auto. Qed.

Example C16_example :
  let h := [(calm_at 1, HCmd 1 1001); (calm_at 2, HCmd 1 100102); (calm_at 3, HCmd 1 1002); (calm_at 4, HCmd 1 2001)] in
  polite_run no_restr h demo_plant /\
  map (get_mode (p_obj (run_h no_restr h demo_plant) 1)) [1; 2; 3] = [0; 1; 0] /\
  map (state_of (run_h no_restr h demo_plant) 1) [1; 2; 3] = [IDLE; RUN; IDLE].
Proof.
  cbn [polite_run polite]. split; [|vm_compute; auto].
  repeat split; cbn [encode valid]; intros n s E V S X; change (s32 1001) with 1001 in E; change (s32 1002) with 1002 in E;
    change (s32 2001) with 2001 in E; try lia.
  change (s32 100102) with 100102 in E. assert (n = 1) by lia. subst n. reflexivity.
Qed.

(** * C17: restrictions *)

Ltac all_calm := let H := fresh in intros ? ? H; cbn [In] in H;
  repeat (destruct H as [H|H]; [apply (f_equal fst) in H; cbn [fst] in H; rewrite <- H; reflexivity|]); destruct H.

(** An operation is not switched on while one that blocks it is reported on. *)
Theorem C17_refused : forall R i k n p, restricting i = true -> plain_checks i -> 1 <= n <= t_n (p_obj p k) ->
  get_mode (p_obj p k) n = 0 ->
  (exists k' n', 1 <= k' <= p_n p /\ 1 <= n' <= t_n (p_obj p k') /\ blocks R k n k' n' /\ reported_on p k' n') ->
  fst (set_mode R i k n RUN p) = p /\ snd (set_mode R i k n RUN p) <> 0.
Proof.
  intros R i k n p B P N G (k' & n' & Pk & Pn & Bl & On).
  assert (C : check_on_mode R i k n p <> 0).
  { intros C. pose proof (check_zero _ _ _ _ _ C B k' n' Pk Pn Bl). unfold reported_on in On. lia. }
  pose proof (check_plain R i k n p P) as C'.
  unfold set_mode. cbv zeta. rewrite (proj2 (Z.eqb_neq n 0)) by lia. rewrite (proj2 (Z.ltb_ge _ _)) by lia.
  change (RUN =? PAUSE) with false. change (RUN =? STOP) with false. change (RUN =? 0) with false. cbv iota.
  rewrite G. change (0 =? 1) with false. cbv iota.
  destruct (_ && _); [cbn [fst snd]; split; [reflexivity|lia]|].
  rewrite (proj2 (Z.eqb_neq _ 0)) by exact C. cbn [fst snd]. split; [reflexivity|lia].
Qed.
Print Assumptions C17_refused.

(** Asking whether an operation can be switched on gives the answer that switching
    it on would give, and switches nothing. *)
Theorem C17_question : forall R i k n p, 1 <= n <= t_n (p_obj p k) -> get_mode (p_obj p k) n = 0 ->
  check_operation_on R i k n p = snd (set_mode R i k n RUN p).
Proof.
  intros R i k n p N G. unfold check_operation_on, set_mode. cbv zeta.
  rewrite (proj2 (Z.eqb_neq n 0)) by lia. rewrite (proj2 (Z.ltb_ge _ _)) by lia.
  change (RUN =? PAUSE) with false. change (RUN =? STOP) with false. change (RUN =? 0) with false. cbv iota.
  rewrite G. change (0 =? 1) with false. cbv iota. destruct (_ && _); [reflexivity|]. destruct (_ =? 0); reflexivity.
Qed.
Print Assumptions C17_question.

(** Operations that block each other are never on together, as long as the
    restrictions are in force and pause and stop are only sent to operations
    that are on. *)
Theorem C17_never_together : forall R h n ms cf k x k' x',
  let p := run_h R h (new_plant n ms cf) in
  mutual R -> polite_run R h (new_plant n ms cf) -> (forall i c, In (i, c) h -> restricting i = true) ->
  1 <= k <= n -> 1 <= k' <= n -> exists_op p k x -> exists_op p k' x' -> (k, x) <> (k', x') ->
  blocks R k x k' x' -> ~ idle p k x -> ~ idle p k' x' -> False.
Proof.
  intros R h n ms cf k x k' x' p M L B Pk Pk' X X' D Bl I I'.
  assert (A : apart R p /\ p_n p = n).
  { apply (inv_run (fun p => apart R p /\ p_n p = n) (fun i => restricting i = true) R); auto.
    - intros i q q' _ Bi [A E] S. split; [eapply apart_step; eauto|]. rewrite (step_pn _ _ _ _ _ S). exact E.
    - apply known_new.
    - split; [|reflexivity]. intros a b a' b' _ _ Ha _ _ _ G _.
      apply (agree_new n ms cf a b Ha G). reflexivity. }
  destruct A as [A E]. rewrite <- E in Pk, Pk'.
  apply (A k x k' x'); auto; apply (C16_active_reported R h n ms cf); auto.
Qed.
Print Assumptions C17_never_together.

(** Not guaranteed: a pause request for an idle operation lets it be started
    past the restrictions. *)
Theorem C17_pause_refuted : exists h,
  let p := run_h demo_restr h demo_plant in
  mutual demo_restr /\ (forall i c, In (i, c) h -> restricting i = true) /\
  blocks demo_restr 1 1 1 2 /\ state_of p 1 1 = RUN /\ state_of p 1 2 = RUN.
Proof.
  exists [(calm_at 1, HCmd 1 1001); (calm_at 2, HCmd 1 100202); (calm_at 3, HCmd 1 1002)].
  split; [apply demo_mutual|]. split; [all_calm|]. split; [left; auto|]. vm_compute. auto.
Qed.
Print Assumptions C17_pause_refuted.

(** Not guaranteed: a restriction written for one of two operations only keeps
    them apart. *)
Theorem C17_one_sided_refuted : exists R h,
  let p := run_h R h demo_plant in
  blocks R 1 1 1 2 /\ polite_run R h demo_plant /\ (forall i c, In (i, c) h -> restricting i = true) /\
  state_of p 1 1 = RUN /\ state_of p 1 2 = RUN.
Proof.
  exists {| rin := fun _ a b => (a =? 1) && (b =? 2); rout := fun _ _ _ _ => false; rnext := fun _ _ _ => false |},
    [(calm_at 1, HCmd 1 1001); (calm_at 2, HCmd 1 1002)].
  split; [left; auto|]. split; [|split; [all_calm|vm_compute; auto]].
  cbn [polite_run polite encode valid]. change (s32 1001) with 1001. change (s32 1002) with 1002. repeat split; intros; lia.
Qed.
Print Assumptions C17_one_sided_refuted.

Example C17_example :
  let h := [(calm_at 1, HCmd 1 1001); (calm_at 2, HCmd 1 1002); (calm_at 3, HCmd 1 1003); (calm_at 4, HCmd 2 1003)] in
  let p := run_h demo_restr h demo_plant in
  map (state_of p 1) [1; 2; 3] = [RUN; IDLE; RUN] /\ map (state_of p 2) [1; 2; 3] = [IDLE; IDLE; IDLE] /\
  t_cmd (p_obj p 1) = 1003 /\ t_cmd (p_obj p 2) = 10103 /\
  t_cmd (p_obj (run_h demo_restr (firstn 2 h) demo_plant) 1) = 1101.
Proof. vm_compute. auto 10. Qed.

(** * C59: automatic switching on *)

(** When a signal asks for an idle operation, it is started at the first
    evaluation at which the checks pass, provided the request was not given up
    before; [request_after] tells the fate of the request so far. *)
Theorem C59_start : forall R h n ms cf k x i,
  let p0 := new_plant n ms cf in let p := run_h R h p0 in
  let r := request_after R k x h p0 NoRefusal in
  polite_run R h p0 -> (forall i c, In (i, c) h -> plain_checks i) -> plain_checks i -> exists_op p k x ->
  let q := acted R i k x p in
  idle q k x -> goto_ i k x IDLE <> None ->
  let p' := op_evaluate R i k x p in
  if match r with GivenUp _ _ => false | _ => may_start R i k x q end
  then (state_of p' k x = RUN \/ state_of p' k x = STARTING) /\ reported_on p' k x
  else idle p' k x /\ ~ reported_on p' k x.
Proof.
  intros R h n ms cf k x i p0 p r L P Pi X q I G p'.
  assert (K : known p) by (apply known_run, known_new).
  assert (A : agree p).
  { apply (inv_run agree (fun _ => True) R); [|apply known_new|apply agree_new|exact L|auto].
    intros j a b _ _ A S. eapply agree_step; eauto. }
  assert (N0 : 1 <= x <= t_n (p_obj p0 k)) by (unfold exists_op, p in X; rewrite n_run in X by apply known_new; exact X).
  assert (H : rep (p_obj p k) x r).
  { apply rep_run; [apply known_new|apply agree_new|exact L|exact P|exact N0|split; reflexivity]. }
  pose proof (own_result R i k x p r Pi K A X H I G) as O. cbv zeta in O. fold q in O. fold p' in O.
  unfold state_of, reported_on, idle. destruct (match r with GivenUp _ _ => false | _ => _ end); [exact O|].
  destruct O as [O1 O2]. split; [exact O1|lia].
Qed.
Print Assumptions C59_start.

(** The messages given and the fate of the request follow [ask]: a refusal is
    reported at once and then again after the warning time, the request is given
    up when the waiting time since the first refusal is over, and an evaluation
    without request forgets everything. *)
Theorem C59_messages : forall R h n ms cf k x i,
  let p0 := new_plant n ms cf in let p := run_h R h p0 in
  let r := request_after R k x h p0 NoRefusal in
  polite_run R h p0 -> (forall i c, In (i, c) h -> plain_checks i) -> plain_checks i -> exists_op p k x ->
  t_msgs (p_obj (do_h R i (HEval k x) p) k) = snd (ask R i k x p r) ++ t_msgs (p_obj p k).
Proof.
  intros R h n ms cf k x i p0 p r L P Pi X.
  assert (K : known p) by (apply known_run, known_new).
  assert (A : agree p).
  { apply (inv_run agree (fun _ => True) R); [|apply known_new|apply agree_new|exact L|auto].
    intros j a b _ _ A S. eapply agree_step; eauto. }
  assert (N0 : 1 <= x <= t_n (p_obj p0 k)) by (unfold exists_op, p in X; rewrite n_run in X by apply known_new; exact X).
  assert (H : rep (p_obj p k) x r).
  { apply rep_run; [apply known_new|apply agree_new|exact L|exact P|exact N0|split; reflexivity]. }
  cbn [do_h]. unfold has. unfold exists_op in X. rewrite (proj2 (Z.leb_le 1 x)), (proj2 (Z.leb_le x _)) by lia. cbn [andb].
  rewrite tail_msgs. apply own_eval; auto.
Qed.
Print Assumptions C59_messages.

(** A request that was given up is not served although the checks pass. *)
Example C59_example :
  let h := [(asked_at 1000 5, HEval 1 1); (asked_at 3000 5, HEval 1 1); (asked_at 6001 5, HEval 1 1); (asked_at 21001 5, HEval 1 1)] in
  let p := run_h no_restr h demo_plant in
  t_msgs (p_obj p 1) = [AutoGivenUp 1; AutoRefused 1; AutoRefused 1; AutoRefused 1] /\
  request_after no_restr 1 1 h demo_plant NoRefusal = GivenUp 1000 21001 /\
  state_of (run_h no_restr [(asked_at 30000 0, HEval 1 1)] p) 1 1 = IDLE /\
  state_of (run_h no_restr [(calm_at 30000, HEval 1 1); (asked_at 31000 0, HEval 1 1)] p) 1 1 = RUN /\
  state_of (run_h no_restr (firstn 3 h ++ [(asked_at 21000 0, HEval 1 1)]) demo_plant) 1 1 = RUN.
Proof. vm_compute. auto 10. Qed.

(** * C60: availability *)

(** Without restrictions on following operations an operation is shown as
    available exactly if no operation of its object that blocks it is on. *)
Theorem C60_available : forall R h n ms cf k x,
  let p := run_h R h (new_plant n ms cf) in
  (forall k n x, rnext R k n x = false) -> polite_run R h (new_plant n ms cf) -> ms k < 2 ^ 32 -> exists_op p k x ->
  (shown_available p k x = true <->
   forall y, exists_op p k y -> y <> x -> rin R k x y = true -> idle p k y).
Proof.
  intros R h n ms cf k x p NX L B X.
  assert (C : counted R p).
  { apply (inv_run (counted R) (fun _ => True) R) with (h := h) (p := new_plant n ms cf); auto using known_new, counted_new.
    intros i q q' _ _ A S. eapply counted_step; eauto. }
  assert (Tn : t_n (p_obj p k) = ms k) by (unfold p; rewrite n_run by apply known_new; reflexivity).
  unfold shown_available. rewrite (C k x X). unfold blockers. rewrite Tn.
  set (f := fun j => negb (j =? x) && rin R k x j && (get_mode (p_obj p k) j =? 1)).
  pose proof (count_bound f (ms k)) as CB. unfold exists_op in X. rewrite Tn in X.
  unfold u32. rewrite Z.mod_small by lia. rewrite Z.eqb_eq.
  assert (Z0 : count f (ms k) = 0 <-> forall j, 1 <= j <= ms k -> f j = false).
  { clear. unfold count. split.
    - intros H j J. assert (Q : forall r, count_nat f r = 0 -> forall j, 1 <= j <= Z.of_nat r -> f j = false).
      { induction r as [|r IH]; [intros; lia|]. cbn [count_nat]. intros E j' J'.
        assert (0 <= count_nat f r) by (clear; induction r as [|r IH]; cbn [count_nat]; [lia|destruct (f _); lia]).
        destruct (f (Z.of_nat (S r))) eqn:F; [lia|].
        destruct (Z.eq_dec j' (Z.of_nat (S r))) as [->|]; [exact F|]. apply IH; lia. }
      apply (Q _ H). lia.
    - intros H. assert (Q : forall r, (r <= Z.to_nat (ms k))%nat -> count_nat f r = 0).
      { induction r as [|r IH]; [reflexivity|]. intros E. cbn [count_nat]. rewrite IH by lia.
        rewrite H by lia. reflexivity. }
      apply Q. lia. }
  rewrite Z0. pose proof (C16_agree R h n ms cf k) as Ag. cbv zeta in Ag. fold p in Ag. unfold exists_op in Ag. rewrite Tn in Ag.
  split.
  - intros H y Y D Bl. unfold exists_op in Y. rewrite Tn in Y. specialize (H y Y). unfold f in H.
    rewrite (proj2 (Z.eqb_neq y x)) in H by auto. rewrite Bl in H. cbn [negb andb] in H. apply Z.eqb_neq in H.
    destruct (Z.eq_dec (cur (t_ops (p_obj p k) y)) IDLE) as [E|E]; [exact E|]. exfalso. apply H. apply (proj2 (Ag y L Y)). exact E.
  - intros H j J. unfold f. destruct (Z.eqb_spec j x) as [|D]; [reflexivity|]. cbn [negb andb].
    destruct (rin R k x j) eqn:E; [|reflexivity]. cbn [andb]. apply Z.eqb_neq. intros G.
    apply (proj1 (Ag j L J) G). apply H; auto. unfold exists_op. rewrite Tn. exact J.
Qed.
Print Assumptions C60_available.

(** Not guaranteed after a pause request for an idle operation: the operation it
    blocks is shown as blocked for ever. *)
Theorem C60_pause_refuted : exists h,
  let p := run_h demo_restr h demo_plant in
  (forall k n x, rnext demo_restr k n x = false) /\ (forall y, 1 <= y <= 3 -> idle p 1 y /\ get_mode (p_obj p 1) y = 0) /\
  shown_available p 1 2 = false.
Proof.
  exists [(calm_at 1, HCmd 1 100102); (calm_at 2, HCmd 1 2001)].
  split; [reflexivity|]. split; [|vm_compute; reflexivity]. intros y Y.
  assert (y = 1 \/ y = 2 \/ y = 3) as [->|[->| ->]] by lia; vm_compute; auto.
Qed.
Print Assumptions C60_pause_refuted.

(** Restrictions on following operations are shown only: the operation can be
    switched on nevertheless, and the next start of any operation removes them
    from the display. *)
Theorem C60_following_refuted : exists R h,
  rnext R 1 1 2 = true /\
  shown_available (run_h R h demo_plant) 1 2 = false /\
  state_of (run_h R (h ++ [(calm_at 9, HCmd 1 1002)]) demo_plant) 1 2 = RUN /\
  shown_available (run_h R (h ++ [(calm_at 9, HCmd 1 1003)]) demo_plant) 1 2 = true.
Proof.
  exists {| rin := fun _ _ _ => false; rout := fun _ _ _ _ => false; rnext := fun _ a b => (a =? 1) && (b =? 2) |},
    [(calm_at 1, HCmd 1 1001); (calm_at 2, HCmd 1 2001)].
  vm_compute. auto.
Qed.
Print Assumptions C60_following_refuted.

Example C60_example :
  let h := [(calm_at 1, HCmd 1 1001); (calm_at 2, HCmd 1 1003); (calm_at 3, HCmd 1 2003)] in
  map (shown_available (run_h demo_restr h demo_plant) 1) [1; 2; 3] = [true; false; true] /\
  map (shown_available (run_h demo_restr (h ++ [(calm_at 4, HCmd 1 2001)]) demo_plant) 1) [1; 2; 3] = [true; true; true].
Proof. vm_compute. auto. Qed.
