(** Sending the text of a device back as commands. *)
From Coq Require Import ZArith List Bool Lia QArith Qround Qabs Lqa.
From Verif Require Import Base FTextModel FTextProofs FTextProofs2 FloatModel FloatProofs DevModel DevSpec DevProofs DevProofs2.
Import ListNotations.
Open Scope Z_scope.

Definition sends (e : ev) (c : text * cell) : Prop := exists v t, e = ECmd (fst c) v /\ parsed t v /\ tells t (snd c).
Lemma replay_cells fs h : replay fs h -> forall l, Forall2 (fun f e => fst f = fst e /\ tells (snd f) (snd e)) fs l ->
  Forall2 sends h (filter (fun c : text * cell => hd 0 (fst c) =? 80) l).
Proof.
  induction 1 as [|k t fs v h P R IH|k t fs h N R IH]; intros l F; inversion F as [|? c ? l' [E T] F2]; subst; cbn [filter].
  - constructor.
  - destruct c as [k2 c2]. cbn [fst snd] in *. subst k2. cbn [hd]. rewrite Z.eqb_refl. constructor; [|apply IH; exact F2]. exists v, t. auto.
  - destruct c as [k2 c2]. cbn [fst snd] in *. subst k2. destruct (Z.eqb_spec (hd 0 k) 80); [contradiction|]. apply IH. exact F2.
Qed.
Lemma par_cells_filter ns : Forall (fun o => exists k, o = Some (80 :: k)) ns -> forall vs,
  filter (fun c : text * cell => hd 0 (fst c) =? 80) (par_cells ns vs) = par_cells ns vs.
Proof.
  induction 1 as [|o ns [k ->] F IH]; intros [|v vs]; cbn [par_cells]; try reflexivity. cbn [filter fst hd]. rewrite Z.eqb_refl, IH. reflexivity.
Qed.
Lemma cells_filter d l : cells_of d l -> Forall (fun o => exists k, o = Some (80 :: k)) (names d) ->
  filter (fun c : text * cell => hd 0 (fst c) =? 80) l = par_cells (names d) (vals d).
Proof.
  intros (st & va & -> & S & V) F. cbn [filter fst hd]. change (77 =? 80) with false. cbv iota. rewrite !filter_app, (par_cells_filter _ F).
  destruct S as [[_ ->]|[_ ->]], V as [[_ ->]|[_ ->]]; reflexivity.
Qed.

Lemma all_named ns : Forall (fun o => exists k, o = Some (80 :: k)) ns -> forall n, ~ gap ns n.
Proof.
  intros F n (j & E & _). rewrite Forall_forall in F. apply nth_error_In in E. destruct (F _ E) as [k X]. discriminate.
Qed.
Lemma run_cmds h : forall d, (forall n, ~ gap (names d) n) ->
  Forall (fun e => exists k v, e = ECmd (80 :: k) v /\ In (Some (80 :: k)) (names d)) h ->
  exists d' l, run d h = Some (d', l) /\ Forall (fun a => a = 0) l.
Proof.
  induction h as [|e h IH]; intros d G F; [exists d, []; split; [reflexivity|constructor]|].
  inversion F as [|? ? (k & v & -> & I) F2]; subst. cbn [run step set_cmd].
  destruct (set_par_by_name d (80 :: k) v) as [[d1 a]|] eqn:E.
  - apply set_par_by_name_cases in E. destruct E as [(_ & _ & X)|(i & _ & -> & ->)].
    { exfalso. apply In_nth_error in I. destruct I as [j I]. exact (X j I). }
    edestruct (IH (with_vals d (put (vals d) i (as_float v)) (put (kept d) i (as_float v)) (stub d))) as (d' & l & R & A); [exact G|exact F2|].
    rewrite R. exists d', (0 :: l). split; [reflexivity|]. constructor; [reflexivity|exact A].
  - exfalso. unfold set_par_by_name in E. destruct (find_par (names d) (80 :: k) 0) as [[j|]|] eqn:X; try discriminate.
    apply find_gap in X. exact (G _ X).
Qed.
Lemma track_other h : forall i n s, Forall (fun e => exists p v, e = ECmd p v /\ p <> n) h -> fold_left (track i n) h s = s.
Proof.
  induction h as [|e h IH]; intros i n s F; [reflexivity|]. inversion F as [|? ? (p & v & -> & N) F2]; subst. cbn [fold_left track].
  destruct (list_eq_dec Z.eq_dec p n); [contradiction|]. apply IH. exact F2.
Qed.
Lemma sends_names h ns vs n : Forall2 sends h (par_cells ns vs) -> ~ In (Some n) ns -> Forall (fun e => exists p v, e = ECmd p v /\ p <> n) h.
Proof.
  revert h vs. induction ns as [|[m|] ns IH]; intros h [|v vs] F N; cbn [par_cells] in F; try solve [inversion F; constructor].
  - inversion F as [|e c h' l' (v1 & t & -> & _) F2]; subst. cbn [fst]. constructor.
    { exists m, v1. split; [reflexivity|]. intros ->. apply N. left. reflexivity. }
    apply (IH _ _ F2). intros X. apply N. right. exact X.
  - apply (IH _ _ F). intros X. apply N. right. exact X.
Qed.
Lemma track_at ns : Forall (fun o => exists k, o = Some (80 :: k)) ns -> NoDup ns -> forall vs h, length ns = length vs ->
  Forall2 sends h (par_cells ns vs) -> forall j n, nth_error ns j = Some (Some n) -> forall i s,
  exists v t, fold_left (track i n) h s = (as_float v, as_float v) /\ parsed t v /\ tells t (CFloat (nth j vs 0)).
Proof.
  induction 1 as [|o ns [k ->] F IH]; intros D vs h L S j n J i s; [destruct j; discriminate|].
  destruct vs as [|x vs]; [discriminate|]. cbn [par_cells] in S. inversion S as [|e c h' l' (v1 & t & -> & P & T) S2]; subst.
  inversion D as [|? ? NI D2]; subst. cbn [fst snd] in *. cbn [fold_left track]. destruct j as [|j].
  - cbn in J. injection J as <-. destruct (list_eq_dec Z.eq_dec (80 :: k) (80 :: k)); [|congruence].
    rewrite (track_other h'); [|exact (sends_names _ _ _ _ S2 NI)]. exists v1, t. auto.
  - cbn in J. cbn [length] in L. exact (IH D2 vs h' ltac:(lia) S2 j n J i _).
Qed.
Lemma sends_in h ns vs all : Forall2 sends h (par_cells ns vs) -> Forall (fun o => exists k, o = Some (80 :: k)) ns ->
  (forall o, In o ns -> In o all) -> Forall (fun e => exists k v, e = ECmd (80 :: k) v /\ In (Some (80 :: k)) all) h.
Proof.
  revert h vs. induction ns as [|o ns IH]; intros h [|v vs] F P I; cbn [par_cells] in F.
  - inversion F; constructor.
  - inversion F; constructor.
  - destruct o; inversion F; constructor.
  - inversion P as [|? ? [k ->] P2]; subst. inversion F as [|e c h' l' (v1 & t & -> & _) F2]; subst. cbn [fst]. constructor.
    + exists k, v1. split; [reflexivity|]. apply I. left. reflexivity.
    + apply (IH _ _ F2 P2). intros o O. apply I. right. exact O.
Qed.

(** * Nearness *)

Lemma abs_val b : f_finite b = true -> (Qabs (f_val b) == f_abs b)%Q.
Proof. intros F. pose proof (f_abs_pos b F). unfold f_val. destruct (f_neg b); [rewrite Qabs_neg by lra; ring|apply Qabs_pos; assumption]. Qed.
Lemma big_whole b : f_finite b = true -> 0 <= f_e b -> is_whole (f_val b).
Proof.
  intros F E. unfold is_whole, f_val, f_abs. destruct (f_neg b).
  - exists (- (f_m b * 2 ^ f_e b)). rewrite inject_Z_opp, inject_Z_mult, (p2_Z _ E). reflexivity.
  - exists (f_m b * 2 ^ f_e b). rewrite inject_Z_mult, (p2_Z _ E). reflexivity.
Qed.
Lemma small_abs b : f_finite b = true -> f_e b < 0 -> (f_abs b <= 16777216)%Q.
Proof.
  intros F E. unfold f_abs. assert (p2 (f_e b) <= p2 0)%Q as P by (apply p2_le; lia). change (p2 0) with 1%Q in P. pose proof (p2_pos (f_e b)) as P0.
  assert (0 <= f_m b <= 16777216) as M.
  { unfold f_m. cbv zeta. pose proof (Z.mod_pos_bound (f_mag b) (2 ^ 23) ltac:(lia)). change (2 ^ 23) with 8388608 in *. destruct (_ =? 0); lia. }
  assert (0 <= inject_Z (f_m b))%Q as M1 by (change 0%Q with (inject_Z 0); rewrite <- Zle_Qle; lia).
  assert (inject_Z (f_m b) <= 16777216)%Q as M2 by (change 16777216%Q with (inject_Z 16777216); rewrite <- Zle_Qle; lia).
  set (m := inject_Z (f_m b)) in *. set (p := p2 (f_e b)) in *. clearbody m p. nra.
Qed.
Lemma near_ok b t v : tells t (CFloat b) -> parsed t v -> f_finite b = true /\ near b (as_float v).
Proof.
  intros T (s & q & x & N & -> & X & E). cbn [tells] in T. destruct (f_finite b) eqn:F; [|congruence]. split; [reflexivity|].
  destruct T as (q' & N' & Q & W). rewrite N in N'. injection N' as <-. cbn [as_float].
  assert (is_whole (f_val b) -> f_finite (f_round s x) = true /\ (f_val (f_round s x) == f_val b)%Q) as WH.
  { intros HW. pose proof (W HW) as Wq. assert (x == f_val b)%Q as Ex by (rewrite (E b F) by (symmetry; exact Wq); exact Wq).
    destruct (round_between s b b x F F) as [A [B C]]. { rewrite Ex. split; apply Qle_refl. }
    split; [exact A|]. lra. }
  destruct (Z.leb_spec 0 (f_e b)) as [G|G].
  - destruct (WH (big_whole b F G)) as [A B]. unfold near. split; [exact A|]. split; [intros _; exact B|].
    setoid_replace (f_val (f_round s x) - f_val b)%Q with 0%Q by (rewrite B; ring). change (Qabs 0) with 0%Q.
    pose proof (Qabs_nonneg (f_val b)). lra.
  - pose proof (small_abs b F G) as SM. pose proof (abs_val b F) as AV. pose proof (f_abs_pos b F) as AP.
    set (B := 1275068416). (* 2^25 *)
    assert (f_finite B = true) as FB by reflexivity. assert (f_finite (2 ^ 31 + B) = true) as FC by reflexivity.
    assert (f_val B == 33554432)%Q as VB by reflexivity. assert (f_val (2 ^ 31 + B) == - (33554432))%Q as VC by reflexivity.
    apply Qabs_Qle_condition in Q. apply Qabs_Qle_condition in X.
    assert (- f_abs b <= f_val b <= f_abs b)%Q as AB. { apply Qabs_Qle_condition. rewrite AV. apply Qle_refl. }
    assert (Qabs q <= f_abs b + (1 # 200))%Q as QQ. { apply Qabs_Qle_condition. split; lra. }
    pose proof (Qabs_nonneg q) as QP. set (aq := Qabs q) in *. clearbody aq.
    destruct (round_between s (2 ^ 31 + B) B x FC FB) as [A _]. { rewrite VB, VC. split; lra. }
    unfold near. split; [exact A|]. split; [intros HW; exact (proj2 (WH HW))|].
    pose proof (round_error s x A) as R.
    assert (Qabs x <= f_abs b + 1)%Q as AX. { apply Qabs_Qle_condition. split; lra. }
    pose proof (Qabs_nonneg x) as XP. set (ax := Qabs x) in *. clearbody ax.
    assert (p2 (-24) == 1 # 16777216)%Q as P24 by reflexivity.
    assert (p2 (-150) <= 1 # 1000000000000)%Q as P150. { vm_compute. discriminate. }
    rewrite P24 in R. set (y := f_val (f_round s x)) in *. clearbody y. set (e := p2 (-150)) in *. clearbody e.
    apply Qabs_Qle_condition. rewrite AV. split; lra.
Qed.

Lemma replay_ok tie p d1 d2 k n fs h :
  sizes d1 k -> sizes d2 k -> names d2 = names d1 -> command_names (names d1) -> plain_names d1 -> blank p -> - 2 ^ 31 <= state d1 < 2 ^ 31 ->
  read_device (save_device tie p d1) = Some (n, fs) -> replay fs h ->
  exists d l, run d2 h = Some (d, l) /\ Forall (fun a => a = 0) l /\
    forall i, (i < k)%nat -> f_finite (nth i (vals d1) 0) = true /\ near (nth i (vals d1) 0) (nth i (vals d) 0) /\ nth i (kept d) 0 = nth i (vals d) 0.
Proof.
  intros S1 S2 EN [CN ND] PN B ST RD RP. destruct (text_ok tie p d1 PN B ST) as (fs' & l & RD' & C & F).
  rewrite RD in RD'. injection RD' as E1 E2. subst n fs'. pose proof (replay_cells _ _ RP _ F) as SE. rewrite (cells_filter _ _ C CN) in SE.
  pose proof (sends_in _ _ _ (names d1) SE CN ltac:(auto)) as IN.
  destruct (run_cmds h d2) as (d & la & R & A0). { rewrite EN. apply all_named. exact CN. } { rewrite EN. exact IN. }
  exists d, la. split; [exact R|]. split; [exact A0|]. intros i L. pose proof S1 as (LA & LB & _).
  assert (exists nm, nth_error (names d1) i = Some (Some nm) /\ hd 0 nm = 80) as (nm & NM & HD).
  { rewrite (nth_err _ _ k LA L). rewrite Forall_forall in CN. destruct (CN (nth i (names d1) None)) as [kk EE]. { apply nth_In. lia. }
    exists (80 :: kk). rewrite EE. auto. }
  assert (settled (names d2) nm i) as T.
  { rewrite EN. apply settled_gap; [|apply all_named; exact CN]. split; [exact NM|]. intros j J X.
    rewrite NoDup_nth_error in ND. assert (j = i); [|lia]. apply ND; [rewrite LA; lia|]. congruence. }
  pose proof (run_track h _ _ _ _ _ _ S2 R T HD) as TR.
  destruct (track_at _ CN ND (vals d1) h (eq_trans LA (eq_sym LB)) SE i nm NM i (nth i (vals d2) 0, nth i (kept d2) 0)) as (v & t & E & P & TT).
  rewrite E in TR. injection TR as -> ->. destruct (near_ok _ _ _ TT P) as [FF NN]. auto.
Qed.
