(** Proofs about feeding during circulation. *)
From Coq Require Import ZArith List Bool Lia.
From Verif Require Import TimeModel CipModel CipSpec RteModel RteSpec RteProofs2 RteProofs4 RteProofs5.
Import ListNotations.
Open Scope Z_scope.

Lemma react_app : forall w p a b, react_all w p (a ++ b) = react_all w (react_all w p a) b.
Proof. intros. apply fold_left_app. Qed.
Lemma course_cons : forall n a r, course n (a :: r) = acts_of n a ++ course n r.
Proof. reflexivity. Qed.

Definition feed_steps : list Z := [28; 48; 11; 66; 77].
Lemma feed_in : forall n x, feed_valve n = Some x -> In n feed_steps.
Proof.
  intros n x H. unfold feed_valve in H. destruct (has n [28]) eqn:H1; [apply has_in in H1; unfold feed_steps; cbn [In] in *; tauto|].
  destruct (has n [48]) eqn:H2; [apply has_in in H2; unfold feed_steps; cbn [In] in *; tauto|].
  destruct (has n [11; 66; 77]) eqn:H3; [apply has_in in H3; unfold feed_steps; cbn [In] in *; tauto|discriminate H].
Qed.
Definition b2z (b : bool) : Z := if b then 1 else 0.
(** The valve is open just as a feeding is on; [c]: feedings begun. *)
Definition fedat (x : vlv) (c : Z) (p : plant) : Prop := vs p x = fed (memo p) /\ count (memo p) + b2z (fed (memo p)) = c /\ 0 <= count (memo p).
(** A call with feeding. *)
Definition fmem (m : mem) : Z * (bool * Z) := (count m, (fed m, fed_t m)).
Lemma ret_fmem : forall w e t m, fmem (snd (circ_return w e t m)) = fmem m.
Proof. intros w e t m. unfold circ_return. destruct (negb _); [reflexivity|]. destruct (lh e); [destruct (_ <? _)|]; reflexivity. Qed.
Lemma back_other : forall t x, In x [V00; V02; V03] -> told (back t) x = None.
Proof. intros t x I. cbn [In] in I. destruct I as [<-|[<-|[<-|[]]]]; destruct t; reflexivity. Qed.
Lemma ret_other : forall w e t m x, In x [V00; V02; V03] -> told (fst (circ_return w e t m)) x = None.
Proof.
  intros w e t m x I. unfold circ_return. destruct (negb _); [reflexivity|]. destruct (lh e).
  - destruct (_ <? _); [apply back_other, I|reflexivity].
  - destruct (lm e); [reflexivity|apply back_other, I].
Qed.
Lemma feed_call : forall w e n x m, feed_valve n = Some x -> err e = false ->
  if feeds_now n e
  then fmem (snd (do_orders w e n m)) = fmem (snd (feeding w e x m)) /\ forall v, apply (fst (do_orders w e n m)) v x = apply (fst (feeding w e x m)) v x
  else fmem (snd (do_orders w e n m)) = fmem m /\ forall v, apply (fst (do_orders w e n m)) v x = v x.
Proof.
  intros w e n x m H E. pose proof (feed_in n x H) as I. unfold feeds_now. rewrite E. cbn [negb andb].
  assert (X : In x [V00; V02; V03]) by (unfold feed_valve in H; destruct (has n [28]); [inversion H; cbn; auto|];
    destruct (has n [48]); [inversion H; cbn; auto|]; destruct (has n [11; 66; 77]); inversion H; cbn; auto).
  assert (R : forall (t : vlv) (a : list order * mem) v, apply (off V06 :: fst a ++ fst (circ_return w e t (snd a))) v x = apply (fst a) v x).
  { intros t a v. change (off V06 :: fst a ++ fst (circ_return w e t (snd a))) with ([off V06] ++ fst a ++ fst (circ_return w e t (snd a))).
    rewrite !apply_app, (apply_told (fst (circ_return _ _ _ _))), (ret_other w e t (snd a) x X). apply apply_ext.
    rewrite apply_told. destruct X as [<-|[<-|[<-|[]]]]; reflexivity. }
  assert (R0 : forall (a : list order) v, apply (off V06 :: a) v x = apply a v x).
  { intros a v. change (off V06 :: a) with ([off V06] ++ a). rewrite apply_app. apply apply_ext. rewrite apply_told. destruct X as [<-|[<-|[<-|[]]]]; reflexivity. }
  cbn [feed_steps In] in I. repeat (destruct I as [<-|I]; [|]); [..|destruct I]; inversion H; subst x; cbn [has existsb Z.eqb Pos.eqb orb do_orders]; unfold do_circ; cbv zeta; cbn [fst snd].
  - destruct (feeds e); (split; [apply ret_fmem|]); intros v; apply (R V09).
  - destruct (feedk e); (split; [apply ret_fmem|]); intros v; apply (R V08).
  - destruct (feedw e); (split; [reflexivity|]); intros v; apply R0.
  - destruct (feedw e); (split; [reflexivity|]); intros v; apply R0.
  - destruct (feedw e); (split; [reflexivity|]); intros v; apply R0.
Qed.
(** What a feeding does to the valve. *)
Lemma feeding_does : forall w e x m v, v x = fed m -> 
  let r := feeding w e x m in
  let start := negb (lm e) && negb (ll e) && negb (lh e) && (count m <? most e) in
  apply (fst r) v x = fed (snd r)
  /\ (fed m = false -> fed (snd r) = start /\ count (snd r) = count m /\ (start = true -> fed_t (snd r) = now e))
  /\ (fed m = true -> count (snd r) + b2z (fed (snd r)) = count m + 1 /\ count m <= count (snd r)
      /\ (fed (snd r) = true -> fed_t (snd r) = fed_t m /\ get_delta_millisec w (now e) (fed_t m) <= 60000)).
Proof.
  intros w e x m v V. cbv zeta. unfold feeding. cbv zeta.
  assert (D0 : get_delta_millisec w (now e) (now e) = 0) by (unfold get_delta_millisec; rewrite Z.ltb_irrefl, Z.leb_refl; lia).
  assert (V1 : veqb x x = true) by (apply veqb_eq; reflexivity).
  set (st := negb (lm e) && negb (ll e) && negb (lh e) && (count m <? most e)).
  assert (S1 : st = true -> lm e || lh e = false) by (unfold st; destruct (lm e), (lh e); cbn; try discriminate; auto; rewrite andb_false_r; discriminate).
  destruct st; cbn [fst snd app fed count fed_t set_feed].
  - rewrite (S1 eq_refl). cbn [orb andb]. destruct (fed m) eqn:F; cbn [fst snd app fed count fed_t set_feed].
    + destruct (60000 <? get_delta_millisec w (now e) (fed_t m)) eqn:T; cbn [fst snd app fed count fed_t set_feed].
      * split; [cbn; unfold obey, on, off; cbn [fst snd]; rewrite V1; reflexivity|]. split; [discriminate|]. intros _. repeat split; cbn [b2z]; try lia; discriminate.
      * split; [cbn; unfold obey, on; cbn [fst snd]; rewrite V1; reflexivity|]. split; [discriminate|]. intros _. repeat split; cbn [b2z]; lia.
    + rewrite D0. change (60000 <? 0) with false. cbn [fst snd app fed count fed_t set_feed].
      split; [cbn; unfold obey, on; cbn [fst snd]; rewrite V1; reflexivity|]. split; [auto|discriminate].
  - destruct (lm e || lh e || (fed m && (60000 <? get_delta_millisec w (now e) (fed_t m)))) eqn:T; cbn [fst snd app fed count fed_t set_feed].
    + split; [cbn; unfold obey, off; cbn [fst snd]; rewrite V1; reflexivity|]. split.
      * intros ->. repeat split; auto; discriminate.
      * intros ->. repeat split; cbn [b2z]; try lia; discriminate.
    + split; [exact V|]. split.
      * intros F. rewrite F. repeat split; auto; discriminate.
      * intros F. rewrite F in *. repeat split; cbn [b2z]; try lia.
Qed.
Lemma go_feeds : forall w e n x c p M, feed_valve n = Some x -> most e = M -> fedat x c p ->
  let q := react_all w p [(Do n, e)] in fedat x (c + opened x p q) q /\ (c <= Z.max 0 M -> c + opened x p q <= Z.max 0 M).
Proof.
  intros w e n x c p M H HM (A & B & C). cbn [react_all fold_left]. unfold react. cbn [fst snd].
  destruct (err e) eqn:E.
  { cbv zeta. unfold opened. replace (vs p x && negb (vs p x)) with false by (destruct (vs p x); reflexivity). rewrite Z.add_0_r. split; [repeat split; assumption|auto]. }
  pose proof (feed_call w e n x (memo p) H E) as F. set (r := do_orders w e n (memo p)) in *. cbv zeta.
  unfold fedat, opened. cbn [vs memo].
  destruct (feeds_now n e).
  - destruct F as [F1 F2]. rewrite F2. pose proof (feeding_does w e x (memo p) (vs p) A) as (G1 & G2 & G3). rewrite G1.
    pose proof (f_equal fst F1 : count (snd r) = count (snd (feeding w e x (memo p)))) as X1.
    pose proof (f_equal (fun k => fst (snd k)) F1 : fed (snd r) = fed (snd (feeding w e x (memo p)))) as X2.
    rewrite X1, X2, A. destruct (fed (memo p)) eqn:Q.
    + destruct (G3 eq_refl) as (K1 & K2 & _). rewrite andb_false_r. cbn [b2z] in *. repeat split; lia.
    + destruct (G2 eq_refl) as (K1 & K2 & _). rewrite andb_true_r. cbn [b2z] in *. rewrite K2.
      destruct (fed (snd (feeding w e x (memo p)))) eqn:Q2; cbn [b2z]; [|repeat split; lia].
      symmetry in K1. apply andb_prop in K1. destruct K1 as [_ K1]. apply Z.ltb_lt in K1. repeat split; lia.
  - destruct F as [F1 F2]. rewrite F2.
    pose proof (f_equal fst F1 : count (snd r) = count (memo p)) as X1.
    pose proof (f_equal (fun k => fst (snd k)) F1 : fed (snd r) = fed (memo p)) as X2.
    rewrite X1, X2. replace (vs p x && negb (vs p x)) with false by (destruct (vs p x); reflexivity). repeat split; try assumption; lia.
Qed.
Lemma halts_feed : forall w hs p, memo (react_all w p (map (pair Halt) hs)) = memo p.
Proof. intros w hs. induction hs as [|h r IH]; intros p; [reflexivity|]. cbn [map react_all fold_left]. exact (IH _). Qed.
Lemma init_closes : forall e n x v, feed_valve n = Some x -> no_tank n e -> apply (init_orders e n) v x = false.
Proof.
  intros e n x v H [N1 N2]. pose proof (feed_in n x H) as I. rewrite apply_told.
  cbn [feed_steps In] in I. repeat (destruct I as [<-|I]; [|]); [..|destruct I]; inversion H; subst x; cbn [init_orders]; unfold init_circ.
  - rewrite (N1 eq_refl). cbn [andb orb]. destruct (circk e); reflexivity.
  - rewrite (N2 eq_refl). cbn [andb orb]. destruct (circs e); reflexivity.
  - destruct (circs e), (circk e); reflexivity.
  - destruct (circs e), (circk e); reflexivity.
  - destruct (circs e), (circk e); reflexivity.
Qed.
Lemma init_fmem : forall e n ag m x, feed_valve n = Some x ->
  fed (init_mem e n ag m) = false
  /\ count (init_mem e n ag m) = if ag then count m + b2z (fed m) else 0.
Proof.
  intros e n ag m x H. pose proof (feed_in n x H) as I. unfold init_mem.
  replace (one_of n [11; 28; 48; 66; 77]) with true by (cbn [feed_steps In] in I; repeat (destruct I as [<-|I]; [reflexivity|]); destruct I).
  cbv zeta. destruct ag; cbn [fed set_feed set_sort set_empty set_full].
  - destruct (fed m) eqn:F; cbn; rewrite ?F; split; auto; lia.
  - split; reflexivity.
Qed.
Lemma break_feeds : forall w hs e n x c p, feed_valve n = Some x -> no_tank n e -> fedat x c p ->
  let q := react_all w p (map (pair Halt) hs ++ [(Init n true, e)]) in fedat x c q /\ vs q x = false.
Proof.
  intros w hs e n x c p H N (A & B & C). unfold react_all. rewrite fold_left_app. fold (react_all w p (map (pair Halt) hs)).
  pose proof (halts_feed w hs p) as M. set (p' := react_all w p (map (pair Halt) hs)) in *. cbn [fold_left react fst snd].
  destruct (init_fmem e n true (memo p') x H) as [F1 F2]. unfold fedat. cbn [vs memo]. rewrite F1, F2, M, (init_closes e n x _ H N). cbn [b2z].
  repeat split; try lia. destruct (fed (memo p)); cbn [b2z]; lia.
Qed.
Lemma feed_bound : forall w n x M, feed_valve n = Some x -> forall l p c, Forall (fits n M) l -> fedat x c p -> c <= Z.max 0 M ->
  let k := c + openings w n x p l in fedat x k (react_all w p (course n l)) /\ k <= Z.max 0 M.
Proof.
  intros w n x M H l. induction l as [|a r IH]; intros p c F S L; [cbv zeta; cbn [openings course flat_map react_all fold_left]; rewrite Z.add_0_r; split; assumption|].
  inversion F as [|? ? F1 F2]; subst. cbv zeta. cbn [openings]. rewrite course_cons, react_app.
  rewrite Z.add_assoc. destruct a as [e|hs e]; cbn [acts_of fits] in *.
  - destruct (go_feeds w e n x c p M H F1 S) as [G1 G2]. apply IH; auto.
  - destruct (break_feeds w hs e n x c p H F1 S) as [G1 G2].
    assert (Z0 : opened x p (react_all w p (map (pair Halt) hs ++ [(Init n true, e)])) = 0) by (unfold opened; rewrite G2; reflexivity).
    rewrite Z0, Z.add_0_r. apply IH; assumption.
Qed.
Lemma init_fed : forall w n x ag e0 p, feed_valve n = Some x -> no_tank n e0 -> 0 <= count (memo p) ->
  exists c, fedat x c (react_all w p [(Init n ag, e0)]) /\ (ag = false -> c = 0).
Proof.
  intros w n x ag e0 p H N C. cbn [react_all fold_left react fst snd]. destruct (init_fmem e0 n ag (memo p) x H) as [F1 F2].
  exists (count (init_mem e0 n ag (memo p))). unfold fedat. cbn [vs memo]. rewrite F1, (init_closes e0 n x _ H N). cbn [b2z].
  repeat split; try lia; rewrite F2; destruct ag, (fed (memo p)); cbn [b2z]; try lia; discriminate.
Qed.
Lemma feedings : forall w n x M p e0 l, feed_valve n = Some x -> no_tank n e0 -> Forall (fits n M) l ->
  openings w n x (react_all w p [(Init n false, e0)]) l <= Z.max 0 M.
Proof.
  intros w n x M p e0 l H N F.
  assert (S : fedat x 0 (react_all w p [(Init n false, e0)])).
  { cbn [react_all fold_left react fst snd]. destruct (init_fmem e0 n false (memo p) x H) as [F1 F2].
    unfold fedat. cbn [vs memo]. rewrite F1, F2, (init_closes e0 n x _ H N). repeat split; cbn; lia. }
  pose proof (feed_bound w n x M H l _ 0 F S ltac:(lia)) as [_ L]. lia.
Qed.
(** A feeding takes a minute at most. *)
Lemma open_on : forall w n x, feed_valve n = Some x -> forall l p t0 t, 
  vs p x = true -> fed (memo p) = true -> fed_t (memo p) = t0 -> 0 <= t0 <= t -> t - t0 <= 60000 ->
  ordered t l -> Forall (fun e => feeds_now n e = true) l -> stays_open w n x p l -> final t l - t0 <= 60000.
Proof.
  intros w n x H l. induction l as [|e r IH]; intros p t0 t V F T B L O FE S; [exact L|].
  change (final t (e :: r)) with (final (now e) r). inversion FE as [|? ? FE1 FE2]; subst. cbn [ordered] in O. destruct O as [O1 O2].
  cbn [stays_open] in S. destruct S as [S1 S2]. cbn [react_all fold_left] in S1, S2.
  assert (E : err e = false) by (unfold feeds_now in FE1; destruct (err e); [discriminate FE1|reflexivity]).
  unfold react in S1, S2. cbn [fst snd] in S1, S2. rewrite E in S1, S2.
  pose proof (feed_call w e n x (memo p) H E) as C. rewrite FE1 in C. destruct C as [C1 C2]. set (q := do_orders w e n (memo p)) in *.
  cbn [vs] in S1. rewrite C2 in S1. pose proof (feeding_does w e x (memo p) (vs p) ltac:(congruence)) as (G1 & _ & G3).
  destruct (G3 F) as (_ & _ & G4). rewrite G1 in S1. destruct (G4 S1) as [G5 G6]. rewrite delta_ge in G6 by lia.
  pose proof (f_equal (fun k => fst (snd k)) C1 : fed (snd q) = fed (snd (feeding w e x (memo p)))) as X2.
  pose proof (f_equal (fun k => snd (snd k)) C1 : fed_t (snd q) = fed_t (snd (feeding w e x (memo p)))) as X3.
  eapply IH; [| | | | | |exact FE2|exact S2]; cbn [vs memo]; [rewrite C2, G1; exact S1|rewrite X2; exact S1|rewrite X3; exact G5|lia|exact G6|exact O2].
Qed.
Lemma minute : forall w n x M p ag e0 l e r, feed_valve n = Some x -> no_tank n e0 -> 0 <= count (memo p) -> Forall (fits n M) l ->
  let q := react_all w p ((Init n ag, e0) :: course n l) in
  vs q x = false -> 0 <= now e -> ordered (now e) r -> Forall (fun e => feeds_now n e = true) (e :: r) -> stays_open w n x q (e :: r) ->
  forall d, In d (e :: r) -> now d - now e <= 60000.
Proof.
  intros w n x M p ag e0 l e r H N C F q V P O FE S.
  destruct (init_fed w n x ag e0 p H N C) as (c & I & _).
  assert (Q : exists c', fedat x c' q).
  { assert (U : forall l p c, Forall (fits n M) l -> fedat x c p -> exists c', fedat x c' (react_all w p (course n l))).
    { clear - H. induction l as [|a r IH]; intros p c F S; [exists c; exact S|]. inversion F as [|? ? F1 F2]; subst.
      rewrite course_cons, react_app. destruct a as [e|hs e]; cbn [acts_of fits] in *.
      - destruct (go_feeds w e n x c p M H F1 S) as [G _]. exact (IH _ _ F2 G).
      - destruct (break_feeds w hs e n x c p H F1 S) as [G _]. exact (IH _ _ F2 G). }
    exact (U l _ c F I). }
  destruct Q as (c' & A & _). inversion FE as [|? ? FE1 FE2]; subst. cbn [stays_open] in S. destruct S as [S1 S2].
  cbn [react_all fold_left] in S1, S2.
  assert (E : err e = false) by (unfold feeds_now in FE1; destruct (err e); [discriminate FE1|reflexivity]).
  unfold react at 1 in S1. unfold react at 1 in S2. cbn [fst snd] in S1, S2. rewrite E in S1, S2.
  pose proof (feed_call w e n x (memo q) H E) as K. rewrite FE1 in K. destruct K as [C1 C2]. set (o := do_orders w e n (memo q)) in *.
  cbn [vs] in S1. rewrite C2 in S1. pose proof (feeding_does w e x (memo q) (vs q) A) as (G1 & G2 & _). rewrite G1 in S1.
  rewrite A in V. destruct (G2 V) as (G3 & _ & G4). rewrite S1 in G3. specialize (G4 (eq_sym G3)).
  pose proof (f_equal (fun k => fst (snd k)) C1 : fed (snd o) = fed (snd (feeding w e x (memo q)))) as X2.
  pose proof (f_equal (fun k => snd (snd k)) C1 : fed_t (snd o) = fed_t (snd (feeding w e x (memo q)))) as X3.
  assert (Fin : forall l t d, ordered t l -> In d l -> now d <= final t l).
  { clear. induction l as [|a r IH]; intros t d O I; [destruct I|]. cbn [ordered] in O. destruct O as [O1 O2].
    change (final t (a :: r)) with (final (now a) r). destruct I as [<-|I]; [|exact (IH _ _ O2 I)].
    clear IH O1. revert a O2. induction r as [|b r IH]; intros a O; [cbn; lia|]. cbn [ordered] in O. destruct O as [O1 O2].
    change (final (now a) (b :: r)) with (final (now b) r). specialize (IH b O2). lia. }
  assert (L : final (now e) r - now e <= 60000).
  { eapply (open_on w n x H r); [| | | | |exact O|exact FE2|exact S2]; cbn [vs memo]; [rewrite C2, G1; exact S1|rewrite X2; exact S1|rewrite X3; exact G4|lia|lia]. }
  intros d [<-|I2]; [lia|]. specialize (Fin r (now e) d O I2). lia.
Qed.
