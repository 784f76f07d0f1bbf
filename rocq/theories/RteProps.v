(** The valves of a washing station: properties C129-C132. *)
From Coq Require Import ZArith List Bool Lia.
From Verif Require Import TimeModel CipModel CipSpec CipProofs3 RteModel RteSpec RteProofs RteProofs2 RteProofs3 RteProofs4 RteProofs5 RteProofs6.
Import ListNotations.
Open Scope Z_scope.

(** Settings and readings for the examples. *)
Definition env0 : env :=
  {| now := 0; ll := true; lm := true; lh := false; lwh := false; lkh := false; lsh := false; lkl := true; lsl := true;
     wempty := false; rich := true; some := true; tankw := true; progk := false; rinse := false; isline := false; noneutro := false;
     scold := false; circs := false; circk := false; feeds := true; feedk := false; feedw := false; nostop := false; most := 2;
     keep := false; err := false; quit := false |}.
Definition at_time (t : Z) (r full : bool) : env :=
  {| now := t; ll := true; lm := true; lh := false; lwh := full; lkh := full; lsh := full; lkl := true; lsl := true;
     wempty := false; rich := r; some := true; tankw := true; progk := false; rinse := false; isline := false; noneutro := false;
     scold := false; circs := false; circk := false; feeds := true; feedk := false; feedw := false; nostop := false; most := 2;
     keep := false; err := false; quit := false |}.
Definition no_level (t k : Z) : env :=
  {| now := t; ll := false; lm := false; lh := false; lwh := false; lkh := false; lsh := false; lkl := true; lsl := true;
     wempty := true; rich := true; some := true; tankw := true; progk := true; rinse := false; isline := false; noneutro := false;
     scold := false; circs := false; circk := false; feeds := true; feedk := true; feedw := true; nostop := false; most := k;
     keep := false; err := false; quit := false |}.
Definition mem0 : mem := {| full := false; full_t := 0; empty := false; empty_t := 0; sdelay := 0; force := false; ret_t := 0; count := 0; fed := false; fed_t := 0 |}.
Definition opts0 : opts := {| circ_s := false; circ_k := false; vol_s := true; vol_k := true; vol_w := true |}.
Definition inp0 : inp := {| i_do := 0; i_delay := false; i_held := false; i_ready := true; i_conf := false; i_acid := false; i_resume := false |}.
(** The program [p] is started and [k] steps are skipped. *)
Definition skipping (p : Z) (k : nat) : list ev :=
  [SelRec 1; Cycle inp0; SetProg p; Cmd 3; Cycle inp0] ++ flat_map (fun _ => [Cmd 1; Cycle inp0]) (seq 0 k).
Definition acts_with (p : Z) (k : nat) : list (act * env) := map (fun a => (a, env0)) (snd (run opts0 new_line (skipping p k))).
Lemma acts_history : forall p k, history opts0 (skipping p k) (acts_with p k).
Proof. intros p k. exists []. rewrite app_nil_r. unfold acts_with. rewrite map_map. apply map_id. Qed.

(** * C129 *)

Lemma isin_in : forall x l, isin x l = true <-> In x l.
Proof.
  intros x l. unfold isin. rewrite existsb_exists. split.
  - intros (y & I & E). apply veqb_eq in E. subst. exact I.
  - intros I. exists x. split; [exact I|]. apply veqb_eq. reflexivity.
Qed.
Lemma known_last : forall tr n, isknown n = true -> chain n tr -> isknown (last_step n tr) = true.
Proof.
  induction tr as [|a r IH]; intros n K C; [exact K|]. destruct a; cbn [chain] in C; cbn [last_step fold_left]; try exact (IH n K C).
  - destruct C as (_ & C1 & C2). exact (IH _ C1 C2).
  - destruct C as (_ & C2). exact (IH _ K C2).
Qed.
Lemma route_parts : forallb (fun n => forallb (fun x => negb (isin x (sources n)) || isin x [V01; V02; V03; V04]) watched
                                    && forallb (fun x => negb (isin x (returns n)) || isin x [V07; V08; V09; V10; V11; V12]) watched) known = true.
Proof. vm_compute. reflexivity. Qed.
Lemma route_part : forall n x, In n known -> In x watched ->
  (In x (sources n) -> In x [V01; V02; V03; V04]) /\ (In x (returns n) -> In x [V07; V08; V09; V10; V11; V12]).
Proof.
  intros n x K W. pose proof route_parts as R. rewrite forallb_forall in R. specialize (R n K). apply andb_prop in R. destruct R as [R1 R2].
  rewrite forallb_forall in R1, R2. specialize (R1 x W). specialize (R2 x W). split; intros H; apply isin_in in H; apply isin_in; [rewrite H in R1|rewrite H in R2]; assumption.
Qed.
Lemma history_known : forall o es xs, history o es xs -> In (at_step (map fst xs)) known.
Proof. intros o es xs H. apply known_steps. exact (known_last _ 0 eq_refl (history_chain o es xs H)). Qed.
Lemma route_of : forall nn n x, isin x (route nn n) = true -> (In x (sources n) \/ In x (returns n)) /\ (x = V12 -> nn = false).
Proof.
  intros nn n x H. apply isin_in in H. unfold route in H. apply filter_In in H. destruct H as [H1 H2]. split; [apply in_app_or, H1|].
  intros ->. destruct nn; [discriminate H2|reflexivity].
Qed.

Theorem C129_routes : forall w nn m o es xs, history o es xs -> Forall (fun x => noneutro (snd x) = nn) xs ->
  let n := at_step (map fst xs) in let v := vs (react_all w (plant0 m) xs) in
  (forall x, is_source x -> v x = true -> In x (sources n))
  /\ (forall x, is_return x -> v x = true -> In x (returns n) /\ (x = V12 -> nn = false)).
Proof.
  intros w nn m o es xs H N. destruct (history_inv w nn m o es xs H N) as [A _]. cbv zeta. pose proof (history_known o es xs H) as K.
  assert (P : forall x, is_source x \/ is_return x -> In x watched).
  { intros x. unfold is_source, is_return, watched. cbn [In]. tauto. }
  split; intros x S V; destruct (route_of nn _ x (A x (P x ltac:(auto)) V)) as [[Q|Q] R]; try (split; assumption); try assumption; exfalso.
  - destruct (route_part _ x K (P x ltac:(auto))) as [_ Y]. specialize (Y Q). unfold is_source in S. cbn [In] in S, Y. intuition congruence.
  - destruct (route_part _ x K (P x ltac:(auto))) as [Y _]. specialize (Y Q). unfold is_return in S. cbn [In] in S, Y. intuition congruence.
Qed.
Print Assumptions C129_routes.

Theorem C129_one_return : forall w nn m o es xs, history o es xs -> Forall (fun x => noneutro (snd x) = nn) xs ->
  let n := at_step (map fst xs) in let v := vs (react_all w (plant0 m) xs) in
  forall x y, v x = true -> v y = true -> (is_tank x /\ is_tank y) \/ (fills_buffer n = false /\ is_return x /\ is_return y) -> x = y.
Proof.
  intros w nn m o es xs H N. destruct (history_inv w nn m o es xs H N) as [_ B]. cbv zeta. intros x y Vx Vy C.
  destruct (veqb x y) eqn:E; [apply veqb_eq, E|]. exfalso. apply (B x y); [|assumption|assumption]. unfold excl. rewrite E. cbn [negb andb].
  apply orb_true_iff. destruct C as [[C1 C2]|(C0 & C1 & C2)]; [left|right]; apply isin_in in C1, C2; rewrite C1, C2; [|rewrite C0]; reflexivity.
Qed.
Print Assumptions C129_one_return.

Lemma apart_ok : forallb (fun n => cleans_station n
  || forallb (fun xy => negb (isin (fst xy) (route false n) && isin (snd xy) (route false n))) [(V02, V03); (V02, V09); (V08, V03)]) known = true.
Proof. vm_compute. reflexivity. Qed.
Lemma route_false : forall nn n x, isin x (route nn n) = true -> isin x (route false n) = true.
Proof.
  intros nn n x H. apply isin_in in H. apply isin_in. unfold route in *. apply filter_In in H. apply filter_In. split; [apply H|reflexivity].
Qed.
(** Acid and alkali do not meet, apart from the cleaning of the station itself. *)
Theorem C129_separate : forall w nn m o es xs, history o es xs -> Forall (fun x => noneutro (snd x) = nn) xs ->
  cleans_station (at_step (map fst xs)) = false ->
  let v := vs (react_all w (plant0 m) xs) in
  forall x y, In x [V02; V08] -> In y [V03; V09] -> v x = true -> v y = true -> False.
Proof.
  intros w nn m o es xs H N C. destruct (history_inv w nn m o es xs H N) as [A B]. cbv zeta. intros x y Ix Iy Vx Vy.
  pose proof apart_ok as R. rewrite forallb_forall in R. specialize (R _ (history_known o es xs H)). rewrite C in R. cbn [orb] in R.
  rewrite forallb_forall in R.
  assert (W : forall z, In z [V02; V08] \/ In z [V03; V09] -> In z watched) by (intros z; unfold watched; cbn [In]; tauto).
  pose proof (route_false _ _ _ (A x (W x ltac:(auto)) Vx)) as Rx. pose proof (route_false _ _ _ (A y (W y ltac:(auto)) Vy)) as Ry.
  destruct (veqb x V08 && veqb y V09) eqn:E.
  - apply andb_prop in E. destruct E as [E1 E2]. apply veqb_eq in E1, E2. subst. exact (B V08 V09 eq_refl Vx Vy).
  - assert (I : In (x, y) [(V02, V03); (V02, V09); (V08, V03)]).
    { cbn [In] in *. destruct Ix as [<-|[<-|[]]], Iy as [<-|[<-|[]]]; auto. discriminate E. }
    specialize (R (x, y) I). cbn [fst snd] in R. rewrite Rx, Ry in R. discriminate R.
Qed.
Print Assumptions C129_separate.

(** Water is filled into the buffer tank with the return left open: two return valves are open. *)
Theorem C129_one_return_refuted : ~ (forall w m o es xs, history o es xs ->
  let v := vs (react_all w (plant0 m) xs) in
  forall x y, is_return x -> is_return y -> v x = true -> v y = true -> x = y).
Proof.
  intros H. specialize (H 32 mem0 opts0 (skipping 32 7) (acts_with 32 7) (acts_history 32 7) V09 V11).
  assert (E : V09 = V11); [|discriminate E]. apply H; [unfold is_return; cbn; tauto|unfold is_return; cbn; tauto|vm_compute; reflexivity|vm_compute; reflexivity].
Qed.
Print Assumptions C129_one_return_refuted.
(** Step 176 is set up into the neutralisation, but evaluated into the tank of water. *)
Theorem C129_neutralised_refuted : ~ (forall w m o es xs n ag e0 e, history o es (xs ++ [(Init n ag, e0); (Do n, e)]) ->
  vs (react_all w (plant0 m) (xs ++ [(Init n ag, e0)])) V12 = true ->
  vs (react_all w (plant0 m) (xs ++ [(Init n ag, e0); (Do n, e)])) V07 = false).
Proof.
  intros H. specialize (H 32 mem0 opts0 (skipping 2048 20 ++ [Cycle inp0]) (removelast (acts_with 2048 20)) 176 false env0 env0).
  enough (X : true = false) by discriminate X. rewrite <- H; [vm_compute; reflexivity| |vm_compute; reflexivity].
  exists []. vm_compute. reflexivity.
Qed.
Print Assumptions C129_neutralised_refuted.
(** The return of alkali in step 33 (rinsing water with alkali into the tank). *)
Example C129_example :
  at_step (map fst (acts_with 32 8)) = 33
  /\ filter (vs (react_all 32 (plant0 mem0) (acts_with 32 8))) [V00; V01; V02; V03; V04; V05; V06; V07; V08; V09; V10; V11; V12] = [V00; V01; V05; V09].
Proof. vm_compute. split; reflexivity. Qed.

(** * C130 *)

(** The returned solution goes to one place, decided from a reading less than three seconds old. *)
Theorem C130_sorting : forall w n tank p ag e0 l ss d, sort_tank n = Some tank -> 0 <= now e0 -> ordered (now e0) (filter (looks n) l) ->
  samples None (filter (looks n) l) = ss ++ [d] ->
  let q := react_all w p ((Init n ag, e0) :: calls n l) in
  (forall x, is_return x -> (vs q x = true <-> x = sorted_to n tank (ss ++ [d]) d))
  /\ (forall e, In e l -> looks n e = true -> now e - now d < 3000).
Proof.
  intros w n tank p ag e0 l ss d T N O E. cbv zeta. split.
  - intros x R. rewrite (sorts w n tank p ag e0 l ss d T N O E x R). apply veqb_eq.
  - intros e I L. apply (recent_first (filter (looks n) l) (now e0) ss d O E). apply filter_In. split; assumption.
Qed.
Print Assumptions C130_sorting.
(** A rich solution is kept out of a full tank for 20 s; then it goes there again. *)
Example C130_example :
  let l := [at_time 1000 true false; at_time 4500 true true; at_time 5000 true false; at_time 24000 true false; at_time 27500 true false] in
  map (fun k => filter (vs (react_all 32 (plant0 mem0) ((Init 33 false, env0) :: calls 33 (firstn k l)))) [V07; V08; V09; V10; V11; V12]) [1%nat; 2%nat; 3%nat; 4%nat; 5%nat]
  = [[V09]; [V12]; [V12]; [V12]; [V09]]
  /\ ordered 0 (filter (looks 33) l) /\ map now (samples None (filter (looks 33) l)) = [1000; 4500; 24000; 27500].
Proof. split; [vm_compute; reflexivity|]. split; [cbn; lia|vm_compute; reflexivity]. Qed.
(** Between the samples the solution may go on into a full tank. *)
Theorem C130_full_refuted : ~ (forall w p ag e0 l e, 0 <= now e0 -> ordered (now e0) (filter (looks 33) (l ++ [e])) -> looks 33 e = true -> lsh e = true ->
  vs (react_all w p ((Init 33 ag, e0) :: calls 33 (l ++ [e]))) V09 = false).
Proof.
  intros H. specialize (H 32 (plant0 mem0) false env0 [at_time 1000 true false] (at_time 3999 true true)).
  enough (X : true = false) by discriminate X. rewrite <- H; [vm_compute; reflexivity|cbn; lia|cbn; lia|reflexivity|reflexivity].
Qed.
Print Assumptions C130_full_refuted.

(** * C131 *)

Theorem C131_returns : forall w n p ag e0 l pre e, 0 <= now e0 -> ordered (now e0) (filter (evals n) l) ->
  filter (evals n) l = pre ++ [e] -> Forall (fun e => returns_w n e = true) (pre ++ [e]) ->
  let q := react_all w p ((Init n ag, e0) :: calls n l) in
  forall x, is_return x -> (vs q x = true <-> x = if lately lwh 60000 (now e) (pre ++ [e]) then V11 else V07).
Proof.
  intros w n p ag e0 l pre e N O E F. cbv zeta. intros x R. rewrite (water_returns w n p ag e0 l pre e N O E F x R). apply veqb_eq.
Qed.
Print Assumptions C131_returns.
Theorem C131_takes : forall w n p ag e0 l pre e, 0 <= now e0 -> ordered (now e0) (filter (evals n) l) ->
  filter (evals n) l = pre ++ [e] -> Forall (fun e => takes_w n e = true) (pre ++ [e]) ->
  let q := react_all w p ((Init n ag, e0) :: calls n l) in
  (vs q V04 = true <-> lately wempty 60000 (now e) (pre ++ [e]) = false)
  /\ (vs q V01 = true <-> lately wempty 60000 (now e) (pre ++ [e]) = true).
Proof.
  intros w n p ag e0 l pre e N O E F. cbv zeta. destruct (water_takes w n p ag e0 l pre e N O E F) as [-> ->].
  destruct (lately _ _ _ _); split; split; auto; discriminate.
Qed.
Print Assumptions C131_takes.
Example C131_example :
  let l := [at_time 1000 true false; at_time 2000 true true; at_time 62000 true false; at_time 62001 true false] in
  map (fun k => filter (vs (react_all 32 (plant0 mem0) ((Init 57 false, env0) :: calls 57 (firstn k l)))) [V07; V08; V09; V10; V11; V12]) [1%nat; 2%nat; 3%nat; 4%nat]
  = [[V07]; [V11]; [V11]; [V07]]
  /\ filter (vs (react_all 32 (plant0 mem0) ((Init 37 false, env0) :: calls 37 [no_level 1000 2]))) [V01; V02; V03; V04] = [V01]
  /\ Forall (fun e => returns_w 57 e = true) l /\ takes_w 37 (no_level 1000 2) = true /\ evals 37 (no_level 1000 2) = true.
Proof. split; [vm_compute; reflexivity|]. split; [vm_compute; reflexivity|]. repeat constructor. Qed.

(** * C132 *)

Lemma limit_of : forall sg v, 0 <= v -> Z.max 0 (feed_limit sg v) = if sg && (128 <=? (v / 4096) mod 256) then 0 else set_limit v.
Proof.
  intros sg v V. unfold feed_limit, set_limit. cbv zeta. rewrite Z.shiftr_div_pow2 by lia. change (2 ^ 12) with 4096.
  change 255 with (Z.ones 8). rewrite Z.land_ones by lia. change (2 ^ 8) with 256.
  pose proof (Z.mod_pos_bound (v / 4096) 256 ltac:(lia)) as B. set (k := (v / 4096) mod 256) in *.
  destruct (sg && (128 <=? k)) eqn:E.
  - apply andb_prop in E. destruct E as [_ E]. replace (k - 256 =? 0) with false by lia. lia.
  - destruct (k =? 0); lia.
Qed.
(** However often the circulation is interrupted, it is fed at most as often as set; from 128 on the
    setting allows no feeding at all where [char] is signed. *)
Theorem C132_feedings : forall w n x sg v p e0 l, feed_valve n = Some x -> 0 <= v -> no_tank n e0 -> Forall (fits n (feed_limit sg v)) l ->
  openings w n x (react_all w p [(Init n false, e0)]) l <= if sg && (128 <=? (v / 4096) mod 256) then 0 else set_limit v.
Proof. intros w n x sg v p e0 l H V N F. rewrite <- limit_of by exact V. apply feedings; assumption. Qed.
Print Assumptions C132_feedings.
(** A feeding ends after a minute. *)
Theorem C132_minute : forall w n x M p ag e0 l e r, feed_valve n = Some x -> no_tank n e0 -> 0 <= count (memo p) -> Forall (fits n M) l ->
  let q := react_all w p ((Init n ag, e0) :: course n l) in
  vs q x = false -> 0 <= now e -> ordered (now e) r -> Forall (fun e => feeds_now n e = true) (e :: r) -> stays_open w n x q (e :: r) ->
  forall d, In d (e :: r) -> now d - now e <= 60000.
Proof. exact minute. Qed.
Print Assumptions C132_minute.
(** Two feedings, the second one after an interruption; the tank stays empty. *)
Definition feeding_day (k : Z) : list moment :=
  [Go (no_level 1000 k); Go (no_level 30000 k); Break [env0] env0; Go (no_level 50000 k); Go (no_level 110000 k); Go (no_level 110001 k); Go (no_level 120000 k)].
Example C132_example :
  openings 32 28 V03 (react_all 32 (plant0 mem0) [(Init 28 false, env0)]) (feeding_day 2) = 2
  /\ Forall (fits 28 2) (feeding_day 2) /\ feed_limit true (2 * 4096) = 2
  /\ stays_open 32 28 V03 (react_all 32 (plant0 mem0) [(Init 28 false, env0)]) [no_level 1000 2; no_level 61000 2]
  /\ ~ stays_open 32 28 V03 (react_all 32 (plant0 mem0) [(Init 28 false, env0)]) [no_level 1000 2; no_level 61001 2].
Proof.
  split; [vm_compute; reflexivity|]. split; [repeat constructor|]. split; [reflexivity|]. split; [vm_compute; auto|].
  intros (_ & H & _). vm_compute in H. discriminate H.
Qed.
(** A setting of 200 feedings: none where [char] is signed, although the tank is empty. *)
Theorem C132_limit_refuted : ~ (forall sg v, 0 <= v -> set_limit v = 200 ->
  openings 32 28 V03 (react_all 32 (plant0 mem0) [(Init 28 false, env0)]) [Go (no_level 1000 (feed_limit sg v))] = 1).
Proof. intros H. specialize (H true (200 * 4096) ltac:(lia) eq_refl). vm_compute in H. discriminate H. Qed.
Print Assumptions C132_limit_refuted.
