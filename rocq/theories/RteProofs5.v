(** Proofs about the valves of the tank of water and about feeding. *)
From Coq Require Import ZArith List Bool Lia.
From Verif Require Import TimeModel CipModel CipSpec RteModel RteSpec RteProofs2 RteProofs4.
Import ListNotations.
Open Scope Z_scope.

(** * The tank of water *)

Definition fm (m : mem) : bool * Z := (full m, full_t m).
Definition em (m : mem) : bool * Z := (empty m, empty_t m).
Lemma return_does : forall w e m,
  let r := return_w w e false m in let st := latch w 60000 lwh (fm m) e in
  fm (snd r) = st /\ forall v x, In x rets -> apply (fst r) v x = veqb x (if fst st then V11 else V07).
Proof.
  intros w e m. cbv zeta. unfold return_w, latch. cbv zeta. cbn [fst snd].
  set (m1 := if lwh e then set_full true (now e) m else m).
  set (m2 := if full m1 && _ && _ then _ else m1).
  assert (E : fm m2 = if lwh e then (true, now e) else if fst (fm m) && (60000 <? get_delta_millisec w (now e) (snd (fm m))) then (false, snd (fm m)) else fm m).
  { unfold m2, m1, fm. clear m2 m1. cbn [fst snd]. destruct (lwh e); cbn [negb].
    - rewrite andb_false_r. reflexivity.
    - rewrite andb_true_r. destruct (_ && _); reflexivity. }
  split; [exact E|]. intros v x J. rewrite <- E. cbn [fm fst]. generalize (full m2). intros b. rewrite orb_false_r, apply_told.
  cbn [rets In] in J. destruct b; repeat (destruct J as [<-|J]; [reflexivity|]); destruct J.
Qed.
Lemma draw_does : forall w e m,
  let r := draw w e m in let st := latch w 60000 wempty (em m) e in
  em (snd r) = st /\ forall v, apply (fst r) v V04 = negb (fst st) /\ apply (fst r) v V01 = fst st.
Proof.
  intros w e m. cbv zeta. unfold draw, latch. cbv zeta. cbn [fst snd].
  set (m1 := if wempty e then _ else _).
  assert (E : em m1 = if wempty e then (true, now e) else if fst (em m) && (60000 <? get_delta_millisec w (now e) (snd (em m))) then (false, snd (em m)) else em m).
  { unfold m1, em. clear m1. cbn [fst snd]. destruct (wempty e); [reflexivity|]. destruct (_ && _); reflexivity. }
  split; [exact E|]. intros v. rewrite <- E. cbn [em fst]. generalize (empty m1). intros b. rewrite !apply_told.
  destruct b; [|split; reflexivity]. unfold refill. destruct (lm e), (lh e); split; reflexivity.
Qed.
Definition ret_steps : list Z := [57; 62; 64; 72; 74; 83; 85; 86; 37].
Definition take_steps : list Z := [5; 7; 8; 14; 33; 35; 37].
Lemma has_in : forall n l, has n l = true -> In n l.
Proof. intros n l H. apply existsb_exists in H. destruct H as (k & Hk & E). apply Z.eqb_eq in E. subst. exact Hk. Qed.
Lemma ret_in : forall n e, returns_w n e = true -> In n ret_steps.
Proof.
  intros n e H. unfold returns_w in H. destruct (has n [57; 62; 64; 72; 74]) eqn:H1; [apply has_in in H1; unfold ret_steps; cbn [In] in *; tauto|].
  destruct (has n [83; 85; 86]) eqn:H2; [apply has_in in H2; unfold ret_steps; cbn [In] in *; tauto|].
  destruct (has n [37]) eqn:H3; [apply has_in in H3; unfold ret_steps; cbn [In] in *; tauto|discriminate H].
Qed.
Lemma take_in : forall n e, takes_w n e = true -> In n take_steps.
Proof.
  intros n e H. unfold takes_w in H. destruct (has n [5; 7; 8; 14]) eqn:H1; [apply has_in in H1; unfold take_steps; cbn [In] in *; tauto|].
  destruct (has n [33; 35; 37]) eqn:H2; [apply has_in in H2; unfold take_steps; cbn [In] in *; tauto|discriminate H].
Qed.
Definition same_ret (w : Z) (e : env) (m : mem) (r : list order * mem) : Prop :=
  let st := latch w 60000 lwh (fm m) e in
  fm (snd r) = st /\ forall v x, In x rets -> apply (fst r) v x = veqb x (if fst st then V11 else V07).
Lemma ret_call : forall w e n m, evals n e = true -> returns_w n e = true -> same_ret w e m (do_orders w e n m).
Proof.
  intros w e n m E R. pose proof (ret_in n e R) as I.
  assert (TO : same_ret w e m (do_to w e Water TankW m)).
  { unfold do_to. cbn [is_w]. destruct (return_does w e m) as [A B]. split; [exact A|]. intros v x J. cbn [fst snd] in *.
    rewrite apply_app. apply B, J. }
  assert (FR : quit e = false -> same_ret w e m (do_from w e Water TankW m)).
  { intros Q. unfold do_from. rewrite Q. destruct (return_does w e m) as [A B]. split; [exact A|]. intros v x J. cbn [fst snd] in *.
    rewrite apply_app. apply B, J. }
  unfold evals in E. apply andb_prop in E. destruct E as [_ E]. apply negb_true_iff in E.
  unfold returns_w in R. cbn [ret_steps In] in I.
  repeat (destruct I as [<-|I]; [cbn [has existsb Z.eqb Pos.eqb orb] in R, E; cbn [do_orders]; unfold tdst, rdst, media|]); [..|destruct I].
  1-8: rewrite R; first [exact TO | apply FR; exact E].
  apply andb_prop in R. destruct R as [R1 R2]. apply negb_true_iff in R2. rewrite R1, R2. exact TO.
Qed.
Definition same_take (w : Z) (e : env) (m : mem) (r : list order * mem) : Prop :=
  let st := latch w 60000 wempty (em m) e in
  em (snd r) = st /\ forall v, apply (fst r) v V04 = negb (fst st) /\ apply (fst r) v V01 = fst st.
Definition apart (cs : list order) : Prop := told cs V04 = None /\ told cs V01 = None.
Lemma sort_apart : forall w e t f m, apart (fst (sort w e t f m)) /\ em (snd (sort w e t f m)) = em m.
Proof.
  intros w e t f m. unfold sort. destruct (_ && negb (force m)); [repeat split|]. cbv zeta. cbn [fst snd]. split.
  - set (m3 := full _). generalize m3. intros b.
    destruct t, (rich e && negb b), (some e), (noneutro e); split; reflexivity.
  - destruct (_ && negb f); destruct (_ && _); reflexivity.
Qed.
Lemma retw_apart : forall w e b m, apart (fst (return_w w e b m)) /\ em (snd (return_w w e b m)) = em m.
Proof.
  intros w e b m. unfold return_w. cbv zeta. cbn [fst snd]. split.
  - destruct (_ || b); split; reflexivity.
  - destruct (lwh e); destruct (_ && _ && _); reflexivity.
Qed.
Lemma draw_then : forall w e m b, apart (fst b) -> em (snd b) = em (snd (draw w e m)) -> same_take w e m (fst (draw w e m) ++ fst b, snd b).
Proof.
  intros w e m b (A1 & A2) B. destruct (draw_does w e m) as [D1 D2]. unfold same_take. cbn [fst snd]. rewrite B. split; [exact D1|].
  intros v. rewrite apply_app, !(apply_told (fst b)), A1, A2. apply D2.
Qed.
Lemma take_call : forall w e n m, evals n e = true -> takes_w n e = true -> same_take w e m (do_orders w e n m).
Proof.
  intros w e n m E R. pose proof (take_in n e R) as I.
  assert (TO : forall to, In to [Drain; TankS; TankW] -> same_take w e m (do_to w e TankW to m)).
  { intros to J. unfold do_to. cbv zeta. cbn [is_w]. destruct J as [<-|[<-|[<-|[]]]]; apply draw_then;
      try (split; reflexivity); try apply sort_apart; try apply retw_apart; reflexivity. }
  assert (FR : forall to, In to [Drain; TankS; TankW] -> quit e = false -> same_take w e m (do_from w e TankW to m)).
  { intros to J Q. unfold do_from. rewrite Q. cbv zeta. destruct J as [<-|[<-|[<-|[]]]]; apply draw_then;
      try (split; reflexivity); try apply sort_apart; try apply retw_apart; reflexivity. }
  unfold evals in E. apply andb_prop in E. destruct E as [_ E]. apply negb_true_iff in E.
  unfold takes_w in R. cbn [take_steps In] in I.
  repeat (destruct I as [<-|I]; [cbn [has existsb Z.eqb Pos.eqb orb] in R, E; cbn [do_orders]; unfold tsrc, tdst, media; rewrite ?R|]); [..|destruct I].
  7: { destruct (tankw e); [|discriminate R]. apply TO. cbn; auto. }
  all: first [apply TO; cbn; auto | apply FR; cbn; auto].
Qed.
Lemma idle_call : forall w e n p, In n (ret_steps ++ take_steps) -> evals n e = false ->
  memo (react w p (Do n, e)) = memo p /\ forall x, vs (react w p (Do n, e)) x = vs p x.
Proof.
  intros w e n p I E. unfold evals in E. unfold react. cbn [fst snd]. destruct (err e); [split; reflexivity|]. cbn [negb andb] in E.
  apply negb_false_iff in E. apply andb_prop in E. destruct E as [E Q]. apply has_in in E. cbn [memo vs].
  cbn [In] in E. repeat (destruct E as [<-|E]; [cbn [do_orders]; unfold do_from; rewrite Q; split; reflexivity|]). destruct E.
Qed.
Lemma ordered_in : forall l t0 e, ordered t0 l -> In e l -> t0 <= now e.
Proof.
  induction l as [|a r IH]; intros t0 e O I; [destruct I|]. cbn in O. destruct O as [O1 O2]. destruct I as [<-|I]; [exact O1|].
  specialize (IH _ _ O2 I). lia.
Qed.
(** After the evaluated calls [pre], the last of them at [t]. *)
Definition watched_by (f : env -> bool) (g : mem -> bool * Z) (shown : valves -> bool -> Prop) (t : Z) (pre : list env) (p : plant) : Prop :=
  kept 60000 f t pre (g (memo p)) /\ (pre <> [] -> shown (vs p) (fst (g (memo p)))).
Lemma water_run : forall w n f g (shown : valves -> bool -> Prop), In n (ret_steps ++ take_steps) ->
  (forall v v' b, (forall x, v' x = v x) -> shown v b -> shown v' b) ->
  forall l, (forall e m v, In e (filter (evals n) l) ->
     g (snd (do_orders w e n m)) = latch w 60000 f (g m) e /\ shown (apply (fst (do_orders w e n m)) v) (fst (latch w 60000 f (g m) e))) ->
  forall p pre t, 0 <= t -> ordered t (filter (evals n) l) -> watched_by f g shown t pre p ->
  exists t', watched_by f g shown t' (pre ++ filter (evals n) l) (react_all w p (calls n l)) /\ t' = final t (filter (evals n) l).
Proof.
  intros w n f g shown I X l. induction l as [|e r IH]; intros H p pre t T O K.
  - exists t. cbn. rewrite app_nil_r. split; [exact K|reflexivity].
  - change (react_all w p (calls n (e :: r))) with (react_all w (react w p (Do n, e)) (calls n r)).
    cbn [filter] in *. destruct (evals n e) eqn:E.
    + cbn [ordered] in O. destruct O as [O1 O2]. destruct K as [K1 K2]. pose proof (H e (memo p) (vs p) (or_introl eq_refl)) as [H1 H2].
      assert (Er : err e = false) by (unfold evals in E; destruct (err e); [discriminate E|reflexivity]).
      assert (K' : watched_by f g shown (now e) (pre ++ [e]) (react w p (Do n, e))).
      { unfold watched_by, react. cbn [fst snd]. rewrite Er. cbn [memo vs]. rewrite H1. split; [apply (latch_kept w 60000 f t); auto; lia|].
        intros _. exact H2. }
      destruct (IH (fun a m v J => H a m v (or_intror J)) _ _ (now e) ltac:(lia) O2 K') as (t' & A1 & A2).
      exists t'. rewrite <- app_assoc in A1. split; [exact A1|exact A2].
    + destruct (idle_call w e n p I E) as [M V]. apply (IH H); [exact T|exact O|]. destruct K as [K1 K2]. unfold watched_by. rewrite M.
      split; [exact K1|]. intros N. apply (X (vs p)); [exact V|exact (K2 N)].
Qed.
Lemma init_flags : forall e n ag m, In n (ret_steps ++ take_steps) -> full (init_mem e n ag m) = false /\ empty (init_mem e n ag m) = false.
Proof.
  intros e n ag m I. unfold init_mem. replace (one_of n [11; 28; 48; 66; 77]) with false; [split; reflexivity|].
  symmetry. cbn [ret_steps take_steps app In] in I. repeat (destruct I as [<-|I]; [reflexivity|]). destruct I.
Qed.
Lemma final_app : forall t a d, final t (a ++ [d]) = now d.
Proof. intros. unfold final. rewrite fold_left_app. reflexivity. Qed.
Lemma water_returns : forall w n p ag e0 l pre e, 0 <= now e0 -> ordered (now e0) (filter (evals n) l) ->
  filter (evals n) l = pre ++ [e] -> Forall (fun e => returns_w n e = true) (pre ++ [e]) ->
  forall x, In x rets ->
  vs (react_all w p ((Init n ag, e0) :: calls n l)) x = veqb x (if lately lwh 60000 (now e) (pre ++ [e]) then V11 else V07).
Proof.
  intros w n p ag e0 l pre e N O E F.
  assert (I : In n (ret_steps ++ take_steps)).
  { apply in_or_app. left. apply Forall_app in F. destruct F as [_ F]. inversion F. eapply ret_in; eassumption. }
  change (react_all w p ((Init n ag, e0) :: calls n l)) with (react_all w (react w p (Init n ag, e0)) (calls n l)).
  set (shown := fun (v : valves) (b : bool) => forall x, In x rets -> v x = veqb x (if b then V11 else V07)).
  assert (H : forall a m v, In a (filter (evals n) l) -> fm (snd (do_orders w a n m)) = latch w 60000 lwh (fm m) a
    /\ shown (apply (fst (do_orders w a n m)) v) (fst (latch w 60000 lwh (fm m) a))).
  { intros a m v J. pose proof J as J2. apply filter_In in J2. destruct J2 as [_ J2]. rewrite E in J. rewrite Forall_forall in F.
    destruct (ret_call w a n m J2 (F a J)) as [A B]. split; [exact A|]. intros x Hx. apply B, Hx. }
  destruct (water_run w n lwh fm shown I (fun v v' b Q S x Hx => eq_trans (Q x) (S x Hx)) l H (react w p (Init n ag, e0)) [] (now e0) N O) as (t' & [A1 A2] & A3).
  { split; [|congruence]. unfold fm. cbn [react fst snd memo]. destruct (init_flags e0 n ag (memo p) I) as [-> _]. apply kept_init. }
  rewrite E in A1, A2, A3. cbn [app] in A1, A2. rewrite final_app in A3. subst t'.
  rewrite (kept_lately _ _ _ _ _ A1) in A2. apply A2. destruct pre; discriminate.
Qed.
Lemma water_takes : forall w n p ag e0 l pre e, 0 <= now e0 -> ordered (now e0) (filter (evals n) l) ->
  filter (evals n) l = pre ++ [e] -> Forall (fun e => takes_w n e = true) (pre ++ [e]) ->
  let q := react_all w p ((Init n ag, e0) :: calls n l) in
  vs q V04 = negb (lately wempty 60000 (now e) (pre ++ [e])) /\ vs q V01 = lately wempty 60000 (now e) (pre ++ [e]).
Proof.
  intros w n p ag e0 l pre e N O E F.
  assert (I : In n (ret_steps ++ take_steps)).
  { apply in_or_app. right. apply Forall_app in F. destruct F as [_ F]. inversion F. eapply take_in; eassumption. }
  change (react_all w p ((Init n ag, e0) :: calls n l)) with (react_all w (react w p (Init n ag, e0)) (calls n l)).
  set (shown := fun (v : valves) (b : bool) => v V04 = negb b /\ v V01 = b).
  assert (H : forall a m v, In a (filter (evals n) l) -> em (snd (do_orders w a n m)) = latch w 60000 wempty (em m) a
    /\ shown (apply (fst (do_orders w a n m)) v) (fst (latch w 60000 wempty (em m) a))).
  { intros a m v J. pose proof J as J2. apply filter_In in J2. destruct J2 as [_ J2]. rewrite E in J. rewrite Forall_forall in F.
    destruct (take_call w a n m J2 (F a J)) as [A B]. split; [exact A|]. apply B. }
  assert (X : forall v v' b, (forall x, v' x = v x) -> shown v b -> shown v' b) by (intros v v' b Q [S1 S2]; split; rewrite Q; assumption).
  destruct (water_run w n wempty em shown I X l H (react w p (Init n ag, e0)) [] (now e0) N O) as (t' & [A1 A2] & A3).
  { split; [|congruence]. unfold em. cbn [react fst snd memo]. destruct (init_flags e0 n ag (memo p) I) as [_ ->]. apply kept_init. }
  rewrite E in A1, A2, A3. cbn [app] in A1, A2. rewrite final_app in A3. subst t'.
  rewrite (kept_lately _ _ _ _ _ A1) in A2. cbv zeta. apply A2. destruct pre; discriminate.
Qed.
