(** Properties of analog valves with IO-Link. *)
From Coq Require Import ZArith List Bool Lia QArith Qround Lqa.
From Verif Require Import Base FTextModel FloatModel FloatProofs DevModel DevSpec DevProofs VanModel VanSpec.
Import ListNotations.
Open Scope Z_scope.

Local Lemma a_run_snoc w h : forall c e c', a_run w c (h ++ [e]) = Some c' -> exists c1, a_run w c h = Some c1 /\ a_step w c1 e = Some c'.
Proof.
  induction h as [|x h IH]; intros c e c' H; cbn [app a_run] in *.
  - destruct (a_step w c e) as [c1|] eqn:E; [|discriminate]. injection H as <-. exists c. auto.
  - destruct (a_step w c x) as [c1|]; [|discriminate]. apply IH. exact H.
Qed.
Local Lemma is_same a b : same a b = is a b.
Proof.
  unfold is. destruct (list_eq_dec Z.eq_dec a b) as [E|N]; [apply same_eq; exact E|].
  destruct (same a b) eqn:S; [|reflexivity]. apply same_eq in S. contradiction.
Qed.
Local Lemma is_true p q : is p q = true -> p = q.
Proof. unfold is. destruct (list_eq_dec Z.eq_dec p q); [auto|discriminate]. Qed.
Local Lemma positive_eq v : positive v = above v.
Proof.
  destruct v as [s [n d]|s|]; try reflexivity. unfold positive, above, Qle_bool. cbn. rewrite Z.mul_1_r.
  destruct (Z.leb_spec n 0), (Z.ltb_spec 0 n); try reflexivity; lia.
Qed.
Local Lemma as_float_range v : 0 <= as_float v < 2 ^ 32.
Proof.
  destruct v as [s q|[]|]; cbn [as_float]; [|unfold INF; lia|unfold INF; lia|unfold NAN; lia].
  unfold f_round. destruct (Qcompare_spec q 0) as [E|E|E].
  - unfold signed. destruct s; lia.
  - pose proof (mag_range (- q) ltac:(lra)). unfold signed, INF in *. lia.
  - pose proof (mag_range q ltac:(lra)). unfold INF in *. lia.
Qed.

(** The bytes. *)
Local Lemma number_bytes v : 0 <= v < 2 ^ 32 ->
  number [v / 16777216 mod 256; v / 65536 mod 256; v / 256 mod 256; v mod 256] = v.
Proof.
  intros H. unfold number. cbn [fold_left].
  assert (v / 65536 = v / 256 / 256) as -> by (rewrite Z.div_div by lia; reflexivity).
  assert (v / 16777216 = v / 256 / 256 / 256) as -> by (rewrite !Z.div_div by lia; reflexivity).
  pose proof (Z.div_mod v 256 ltac:(lia)). pose proof (Z.div_mod (v / 256) 256 ltac:(lia)). pose proof (Z.div_mod (v / 256 / 256) 256 ltac:(lia)).
  assert (0 <= v / 256 / 256 / 256 < 256).
  { rewrite !Z.div_div by lia. split; [apply Z.div_pos; lia|apply Z.div_lt_upper_bound; lia]. }
  rewrite (Z.mod_small (v / 256 / 256 / 256)) by lia. lia.
Qed.

(** What the channel holds. *)
Definition holds (x : Z) (l : bool) (low : Z) (out : list Z) : Prop :=
  number (firstn 4 out) = x /\ length out = 5%nat /\ 0 <= nth 4 out 0 < 256 /\ Z.testbit (nth 4 out 0) 7 = l /\ nth 4 out 0 mod 128 = low.
Local Lemma five (l : list Z) : length l = 5%nat -> exists a b c d e, l = [a; b; c; d; e].
Proof. destruct l as [|a [|b [|c [|d [|e [|]]]]]]; try discriminate. intros _. eauto 6. Qed.
Local Lemma holds_set x l low out v : holds x l low out -> 0 <= v < 2 ^ 32 ->
  holds v l low (swap (swap (bytes_of v ++ skipn 4 out) 3 0) 1 2).
Proof.
  intros (A & B & C & D & E) V. destruct (five _ B) as (a & b & c & d & e & ->). cbn in C, D, E.
  split; [|auto]. cbn -[Z.div Z.modulo number]. apply number_bytes. exact V.
Qed.
Local Lemma holds_wink x l low out b : holds x l low out ->
  holds x b low (put out 4 (nth 4 out 0 mod 128 + if b then 128 else 0)).
Proof.
  intros (A & B & C & D & E). destruct (five _ B) as (a & b' & c & d & e & ->). cbn [nth put] in *.
  pose proof (Z.mod_pos_bound e 128 ltac:(lia)) as M. split; [exact A|]. split; [reflexivity|]. cbn [nth].
  split; [destruct b; lia|]. split.
  - rewrite Z.testbit_eqb by lia. change (2 ^ 7) with 128. destruct b.
    + replace (e mod 128 + 128) with (e mod 128 + 1 * 128) by lia. rewrite Z.div_add, (Z.div_small (e mod 128)) by lia. reflexivity.
    + rewrite Z.add_0_r, (Z.div_small (e mod 128)) by lia. reflexivity.
  - rewrite <- E. destruct b.
    + replace (e mod 128 + 128) with (e mod 128 + 1 * 128) by lia. rewrite Z.mod_add by lia. apply Z.mod_small. lia.
    + rewrite Z.add_0_r. apply Z.mod_small. lia.
Qed.

(** The effect of one event. *)
Definition writes (rh : list aev) (e : aev) : bool :=
  match asks rh e with Some _ => true | None => match e with ACmd p _ => begins p 66 | _ => false end end.
Local Lemma step_cases w a e : forall rh, a_manual a = by_hand rh ->
  match e with
  | AEval _ => True
  | _ =>
      match asks rh e with
      | Some v => a_step w a e = a_set a v
      | None =>
          match e with
          | ACmd p v =>
              if begins p 66 then a_step w a e = a_wink a (above v)
              else if begins p 83 && negb (is p word_s_dev) then
                a_step w a e = match whole_part v with Some n => Some (with_state a n) | None => None end
              else a_step w a e = Some (with_manual a (by_hand (e :: rh)))
          | AOrder (OSetState n) => if a_manual a then a_step w a e = Some a else a_step w a e = Some (with_state a n)
          | _ => a_step w a e = Some a
          end
      end
  end.
Proof.
  intros rh M. destruct e as [d|o|p v]; [exact I| |].
  - cbn [asks a_step]. unfold a_obey. rewrite <- M. destruct (a_manual a).
    + destruct o; reflexivity.
    + destruct o; reflexivity.
  - assert (with_manual a (by_hand rh) = a) as WM by (rewrite <- M; destruct a; reflexivity).
    cbn [asks a_step by_hand]. destruct p as [|x p].
    { cbn. rewrite WM. reflexivity. }
    cbn [begins]. destruct (Z.eqb_spec x 86) as [->|N1].
    { rewrite <- as_float_eq. unfold a_cmd. rewrite !is_same.
      destruct (is (86 :: p) MEXP_name) eqn:E; [apply is_true in E; discriminate|].
      destruct (is (86 :: p) SDEV_name) eqn:E2; [apply is_true in E2; discriminate|]. reflexivity. }
    destruct (Z.eqb_spec x 66) as [->|N2]. { cbn [a_cmd]. rewrite positive_eq. reflexivity. }
    assert (a_cmd a (x :: p) v =
      if same (x :: p) MEXP_name then Some a else if same (x :: p) SDEV_name then Some a
      else match x :: p with
           | 83 :: _ => match to_int v with Some n => Some (with_state a n) | None => None end
           | 86 :: _ => a_set a (to_float v)
           | 77 :: _ => Some (if equals v 0 then with_manual a false else if equals v 1 then with_manual a true else a)
           | _ => Some a
           end) as -> by (unfold a_cmd; repeat match goal with |- match ?y with _ => _ end = _ => destruct y; try reflexivity; try congruence end).
    rewrite !is_same. change MEXP_name with word_m_exp. change SDEV_name with word_s_dev.
    destruct (is (x :: p) word_m_exp) eqn:E1.
    { apply is_true in E1. injection E1 as -> ->. cbn. rewrite WM. reflexivity. }
    destruct (is (x :: p) word_s_dev) eqn:E2.
    { apply is_true in E2. injection E2 as -> ->. cbn. rewrite WM. reflexivity. }
    destruct (Z.eqb_spec x 83) as [->|N3]. { cbn [andb negb]. rewrite to_int_eq. reflexivity. }
    cbn [andb]. destruct (Z.eqb_spec x 77) as [->|N4].
    { cbn [andb negb]. unfold equals. destruct v as [s q|s|]; try (rewrite WM; reflexivity).
      destruct (Qeq_bool q 0); [reflexivity|]. destruct (Qeq_bool q 1); [reflexivity|]. rewrite WM. reflexivity. }
    cbn [andb]. rewrite WM.
    repeat match goal with |- match ?y with _ => _ end = _ => destruct y; try reflexivity; try congruence end.
Qed.

Definition here (has : bool) (rh : list aev) : place := if cycled rh then if has then Channel else Null else Nothing_yet.
Definition told (x0 : Z) (l0 : bool) (low : Z) (has : bool) (h : list aev) (a : av) : Prop :=
  a_manual a = by_hand (rev h) /\ a_place a = here has (rev h) /\ a_blink a = light (rev h) /\
  a_in a = option_map (fun d => swap (swap (swap (swap (firstn 10 d) 3 0) 1 2) 7 4) 5 6) (received (rev h)) /\
  holds (sent x0 (rev h)) (light_sent l0 (rev h)) low (a_out a).
Local Lemma told_run has out x0 l0 low h : holds x0 l0 low out -> Forall fits h ->
  forall a, a_run has (a_new out) h = Some a -> told x0 l0 low has h a.
Proof.
  intros H0 F. induction h as [|e h IH] using rev_ind; intros a R.
  - cbn in R. injection R as <-. repeat split; apply H0.
  - apply a_run_snoc in R. destruct R as (c & R & S). apply Forall_app in F. destruct F as [F F1]. apply Forall_inv in F1.
    destruct (IH F _ R) as (M & P & B & I & H). unfold told. rewrite rev_app_distr. cbn [rev app].
    pose proof (step_cases has c e (rev h) M) as C. set (rh := rev h) in *. clearbody rh.
    destruct e as [d|o|p v].
    + cbn [a_step] in S. injection S as <-. cbn [a_evaluate a_manual a_place a_blink a_in a_out by_hand light sent light_sent asks received].
      split; [exact M|]. split; [unfold here; cbn [cycled existsb orb]; reflexivity|]. split; [exact B|]. split; [|exact H].
      destruct d; [reflexivity|exact I].
    + assert (here has (AOrder o :: rh) = here has rh) as HH by reflexivity.
      cbn [by_hand light light_sent received sent]. rewrite HH. destruct (asks rh (AOrder o)) as [v|] eqn:K.
      * assert (0 <= v < 2 ^ 32) as V.
        { cbn [asks] in K. destruct (by_hand rh); [discriminate|]. destruct o; try discriminate; injection K as <-; try lia. exact F1. }
        rewrite C in S. unfold a_set, to_channel in S. rewrite P in S. unfold here in *. destruct (cycled rh).
        -- destruct has; [|discriminate]. injection S as <-. refine (conj _ (conj _ (conj _ (conj _ _)))); cbn [a_manual a_place a_blink a_in a_out with_blink with_state with_manual]; try assumption; try reflexivity; apply holds_set with (x := sent x0 rh); assumption.
        -- injection S as <-. refine (conj _ (conj _ (conj _ (conj _ _)))); cbn [a_manual a_place a_blink a_in a_out with_blink with_state with_manual]; try assumption; try reflexivity.
      * assert (a = c \/ exists n, a = with_state c n) as [->|(n & ->)].
        { destruct o; try (left; congruence). destruct (a_manual c); [left; congruence|right; exists n; congruence]. }
        -- refine (conj _ (conj _ (conj _ (conj _ _)))); cbn [a_manual a_place a_blink a_in a_out with_blink with_state with_manual]; try assumption; try reflexivity.
        -- refine (conj _ (conj _ (conj _ (conj _ _)))); cbn [a_manual a_place a_blink a_in a_out with_blink with_state with_manual]; try assumption; try reflexivity.
    + assert (here has (ACmd p v :: rh) = here has rh) as HH by reflexivity.
      cbn [light light_sent received sent]. rewrite HH. destruct (asks rh (ACmd p v)) as [x|] eqn:K.
      * cbn [asks] in K. destruct (begins p 86) eqn:B86; [|discriminate]. injection K as <-.
        assert (begins p 66 = false /\ begins p 77 = false) as [B66 B77].
        { destruct p as [|y p]; [discriminate|]. cbn in *. apply Z.eqb_eq in B86. subst y. auto. }
        cbn [by_hand]. rewrite B66, B77. cbn [andb].
        rewrite C in S. unfold a_set, to_channel in S. rewrite P in S. unfold here in *. destruct (cycled rh).
        -- destruct has; [|discriminate]. injection S as <-. refine (conj _ (conj _ (conj _ (conj _ _)))); cbn [a_manual a_place a_blink a_in a_out with_blink with_state with_manual]; try assumption; try reflexivity; apply holds_set with (x := sent x0 rh); try assumption; apply as_float_range.
        -- injection S as <-. refine (conj _ (conj _ (conj _ (conj _ _)))); cbn [a_manual a_place a_blink a_in a_out with_blink with_state with_manual]; try assumption; try reflexivity.
      * destruct (begins p 66) eqn:B66.
        -- assert (begins p 77 = false) as B77. { destruct p as [|y p]; [discriminate|]. cbn in *. apply Z.eqb_eq in B66. subst y. auto. }
           cbn [by_hand]. rewrite B77. cbn [andb].
           rewrite C in S. unfold a_wink, to_channel in S. rewrite P in S. unfold here in *. destruct (cycled rh).
           ++ destruct has; [|discriminate]. cbn [option_map] in S. injection S as <-. refine (conj _ (conj _ (conj _ (conj _ _)))); cbn [a_manual a_place a_blink a_in a_out with_blink with_state with_manual]; try assumption; try reflexivity; apply holds_wink with (l := light_sent l0 rh); assumption.
           ++ cbn [option_map] in S. injection S as <-. refine (conj _ (conj _ (conj _ (conj _ _)))); cbn [a_manual a_place a_blink a_in a_out with_blink with_state with_manual]; try assumption; try reflexivity.
        -- cbn [andb]. destruct (begins p 83 && negb (is p word_s_dev)) eqn:B83.
           ++ rewrite C in S. destruct (whole_part v) as [n|]; [|discriminate]. injection S as <-.
              assert (begins p 77 = false) as B77.
              { destruct p as [|y p]; [discriminate|]. cbn in *. destruct (Z.eqb_spec y 83); [subst y; auto|discriminate]. }
              cbn [by_hand]. rewrite B77. refine (conj _ (conj _ (conj _ (conj _ _)))); cbn [a_manual a_place a_blink a_in a_out with_blink with_state with_manual]; try assumption; try reflexivity.
           ++ rewrite C in S. injection S as <-. refine (conj _ (conj _ (conj _ (conj _ _)))); cbn [a_manual a_place a_blink a_in a_out with_blink with_state with_manual]; try assumption; try reflexivity.
Qed.

(** * C159: what is sent *)

Theorem C159_sent out h a : length out = 5%nat -> 0 <= nth 4 out 0 < 256 -> Forall fits h -> a_run true (a_new out) h = Some a ->
  number (firstn 4 (a_out a)) = sent (number (firstn 4 out)) (rev h) /\
  Z.testbit (nth 4 (a_out a) 0) 7 = light_sent (Z.testbit (nth 4 out 0) 7) (rev h) /\
  nth 4 (a_out a) 0 mod 128 = nth 4 out 0 mod 128.
Proof.
  intros L B F R.
  destruct (told_run true out (number (firstn 4 out)) (Z.testbit (nth 4 out 0) 7) (nth 4 out 0 mod 128) h) with (a := a) as (_ & _ & _ & _ & H);
    [repeat split; auto; lia|exact F|exact R|].
  destruct H as (A & _ & _ & D & E). auto.
Qed.
Print Assumptions C159_sent.
(** Without a channel the program crashes at the first write after a cycle; with one it never does. *)
Theorem C159_defined has out h e a : length out = 5%nat -> 0 <= nth 4 out 0 < 256 -> Forall fits h -> a_run has (a_new out) h = Some a ->
  (a_step has a e = None <->
   (has = false /\ cycled (rev h) = true /\ (asks (rev h) e <> None \/ exists p v, e = ACmd p v /\ begins p 66 = true)) \/
   exists p v, e = ACmd p v /\ begins p 83 = true /\ p <> word_s_dev /\ whole_part v = None).
Proof.
  intros L B F R.
  destruct (told_run has out (number (firstn 4 out)) (Z.testbit (nth 4 out 0) 7) (nth 4 out 0 mod 128) h) with (a := a) as (M & P & _);
    [repeat split; auto; lia|exact F|exact R|].
  pose proof (step_cases has a e (rev h) M) as C. set (rh := rev h) in *. clearbody rh.
  assert (forall v, a_set a v = None <-> has = false /\ cycled rh = true) as SET.
  { intros v. unfold a_set, to_channel. rewrite P. unfold here. destruct (cycled rh), has; split; try discriminate; try (intros [? ?]; discriminate); auto. }
  assert (forall v, a_wink a v = None <-> has = false /\ cycled rh = true) as WINK.
  { intros v. unfold a_wink, to_channel. rewrite P. unfold here. destruct (cycled rh), has; split; try discriminate; try (intros [? ?]; discriminate); auto. }
  destruct e as [d|o|p v].
  - cbn. split; [discriminate|]. intros [(_ & _ & [H|(p & v & H & _)])|(p & v & H & _)]; congruence.
  - destruct (asks rh (AOrder o)) as [x|].
    + rewrite C, SET. split.
      * intros [? ?]. left. repeat split; auto. left. discriminate.
      * intros [(? & ? & _)|(p & v & H & _)]; [auto|discriminate].
    + assert (a_step has a (AOrder o) <> None) as N by (destruct o; try congruence; destruct (a_manual a); congruence).
      split; [congruence|]. intros [(_ & _ & [H|(p & v & H & _)])|(p & v & H & _)]; congruence.
  - destruct (asks rh (ACmd p v)) as [x|] eqn:K.
    + assert (begins p 83 = false) as B83.
      { cbn [asks] in K. destruct p as [|y p]; [discriminate|]. cbn in *. destruct (Z.eqb_spec y 86); [subst y; reflexivity|discriminate]. }
      rewrite C, SET. split.
      * intros [? ?]. left. repeat split; auto. left. discriminate.
      * intros [(? & ? & _)|(p' & v' & H & H1 & _)]; [auto|]. injection H as <- <-. congruence.
    + destruct (begins p 66) eqn:B66.
      * assert (begins p 83 = false) as B83. { destruct p as [|y p]; [discriminate|]. cbn in *. apply Z.eqb_eq in B66. subst y. reflexivity. }
        rewrite C, WINK. split.
        -- intros [? ?]. left. repeat split; auto. right. eauto.
        -- intros [(? & ? & _)|(p' & v' & H & H1 & _)]; [auto|]. injection H as <- <-. congruence.
      * destruct (begins p 83 && negb (is p word_s_dev)) eqn:E83.
        -- apply andb_prop in E83. destruct E83 as [E1 E2]. rewrite C. split.
           ++ intros H. right. exists p, v. repeat split; auto.
              ** intros ->. vm_compute in E2. discriminate.
              ** destruct (whole_part v); [discriminate|reflexivity].
           ++ intros [(_ & _ & [H|(p' & v' & H & H1)])|(p' & v' & H & _ & _ & H1)]; [congruence|injection H as <- <-; congruence|].
              injection H as <- <-. rewrite H1. reflexivity.
        -- rewrite C. split; [discriminate|]. intros [(_ & _ & [H|(p' & v' & H & H1)])|(p' & v' & H & H1 & H2 & _)].
           ++ congruence.
           ++ injection H as <- <-. congruence.
           ++ injection H as <- <-. rewrite H1 in E83. cbn [andb] in E83. exfalso. apply H2. apply is_true.
              destruct (is p word_s_dev); [reflexivity|discriminate].
Qed.
Print Assumptions C159_defined.
(** Positions are not limited to 0..100 %: every number is sent as it is. *)
Theorem C159_refuted_limit v : 0 <= v < 2 ^ 32 ->
  exists a, a_run true (a_new [0; 0; 0; 0; 0]) [AEval None; AOrder (OSetValue v)] = Some a /\ number (firstn 4 (a_out a)) = v.
Proof.
  intros V. eexists. split; [reflexivity|]. cbn -[Z.div Z.modulo number]. apply number_bytes. exact V.
Qed.
Print Assumptions C159_refuted_limit.
(** Orders before the first cycle are lost. *)
Theorem C159_refuted_early n d :
  exists a, a_run true (a_new [0; 0; 0; 0; 0]) (AOrder OOn :: repeat (AEval (Some d)) n) = Some a /\ a_out a = [0; 0; 0; 0; 0].
Proof.
  cbn [a_run a_step].
  assert (forall k a, a_out a = [0; 0; 0; 0; 0] -> exists b, a_run true a (repeat (AEval (Some d)) k) = Some b /\ a_out b = [0; 0; 0; 0; 0]) as G.
  { intros k. induction k as [|k IH]; intros a A; cbn [repeat a_run]; [eauto|]. apply IH. exact A. }
  apply G. reflexivity.
Qed.
Print Assumptions C159_refuted_early.
(** An order for the state moves nothing. *)
Theorem C159_refuted_state a has n : exists b, a_step has a (AOrder (OSetState n)) = Some b /\ a_out b = a_out a.
Proof. cbn. unfold a_obey. destruct (a_manual a); eexists; split; reflexivity. Qed.
Print Assumptions C159_refuted_state.
Example ex_C159 :
  match a_run true (a_new [1; 2; 3; 4; 5]) [AOrder OOff; AEval None; AOrder OOn; ACmd [66] (DFin false 1); ACmd [77] (DFin false 1); AOrder OOff] with
  | Some a => a_out a = [66; 200; 0; 0; 133]
  | None => False
  end /\ a_run false (a_new [0; 0; 0; 0; 0]) [AEval None; AOrder OOn] = None.
Proof. vm_compute. auto. Qed.

(** * C160: what is reported *)

Theorem C160_reported has out h a d : length out = 5%nat -> 0 <= nth 4 out 0 < 256 -> Forall fits h -> a_run has (a_new out) h = Some a ->
  received (rev h) = Some d ->
  a_position a = Some (number (firstn 4 d)) /\ a_status a = Some (nth 9 d 0 mod 64) /\ a_namur a = nth 8 d 0 /\
  a_opened a = Z.testbit (nth 9 d 0) 6 /\ a_closed a = Z.testbit (nth 9 d 0) 7.
Proof.
  intros L B F R E.
  destruct (told_run has out (number (firstn 4 out)) (Z.testbit (nth 4 out 0) 7) (nth 4 out 0 mod 128) h) with (a := a) as (_ & _ & _ & I & _);
    [repeat split; auto; lia|exact F|exact R|].
  assert (length d = 10%nat) as D.
  { apply Forall_rev in F. revert E F. generalize (rev h). clear. intros rh. induction rh as [|e rh IH]; intros E F; [discriminate|].
    apply Forall_inv_tail in F as F2. apply Forall_inv in F. destruct e as [[x|]|o|p v]; cbn in E; auto. injection E as <-. exact F. }
  rewrite E in I. unfold a_position, a_status, a_namur, a_opened, a_closed. rewrite I. cbn [option_map].
  destruct d as [|d0 [|d1 [|d2 [|d3 [|d4 [|d5 [|d6 [|d7 [|d8 [|d9 [|]]]]]]]]]]]; try discriminate.
  split; [|repeat split]. f_equal. unfold number, float_at. cbn [firstn swap put nth fold_left Nat.add]. lia.
Qed.
Print Assumptions C160_reported.
(** Before the first data position and state are not initialised; the valve counts as closed. *)
Theorem C160_before has out h a : length out = 5%nat -> 0 <= nth 4 out 0 < 256 -> Forall fits h -> a_run has (a_new out) h = Some a ->
  ((a_position a = None <-> received (rev h) = None) /\ (a_status a = None <-> received (rev h) = None)) /\
  (received (rev h) = None -> a_closed a = true /\ a_opened a = false /\ a_namur a = 0).
Proof.
  intros L B F R.
  destruct (told_run has out (number (firstn 4 out)) (Z.testbit (nth 4 out 0) 7) (nth 4 out 0 mod 128) h) with (a := a) as (_ & _ & _ & I & _);
    [repeat split; auto; lia|exact F|exact R|].
  unfold a_position, a_status, a_closed, a_opened, a_namur. rewrite I. destruct (received (rev h)); cbn [option_map]; repeat split; discriminate.
Qed.
Print Assumptions C160_before.
(** The light reported is the last command, also if it was not sent. *)
Theorem C160_light has out h a : length out = 5%nat -> 0 <= nth 4 out 0 < 256 -> Forall fits h -> a_run has (a_new out) h = Some a ->
  a_blink a = light (rev h).
Proof.
  intros L B F R.
  destruct (told_run has out (number (firstn 4 out)) (Z.testbit (nth 4 out 0) 7) (nth 4 out 0 mod 128) h) with (a := a) as (_ & _ & I & _);
    [repeat split; auto; lia|exact F|exact R|exact I].
Qed.
Print Assumptions C160_light.
Theorem C160_refuted_light : exists a, a_run true (a_new [0; 0; 0; 0; 0]) [ACmd [66] (DFin false 1); AEval None] = Some a /\
  a_blink a = true /\ Z.testbit (nth 4 (a_out a) 0) 7 = false.
Proof. eexists. split; [vm_compute; reflexivity|]. split; reflexivity. Qed.
Print Assumptions C160_refuted_light.
Example ex_C160 :
  match a_run true (a_new [0; 0; 0; 0; 0]) [AEval (Some [66; 72; 0; 0; 66; 200; 0; 0; 7; 133]); AOrder OOff; AEval None] with
  | Some a => a_position a = Some (f_of_Z 50) /\ a_status a = Some 5 /\ a_namur a = 7 /\ a_opened a = false /\ a_closed a = true
  | None => False
  end.
Proof. vm_compute. auto 6. Qed.
