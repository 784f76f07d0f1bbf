(** Properties of the regulators of a washing line, the steam valve, the pump and the
    average (C144-C149). *)
From Coq Require Import ZArith List Bool Lia QArith Qround Qpower Qabs Lqa Sorting.Sorted.
From Verif Require Import Base FTextModel FTextProofs FloatModel FloatProofs FloatProofs2 FloatProofs3 AioProofs TimeModel.
From Verif Require Import PidSpec PidProofs PidProofs2 PidProofs3 PidProofs4 RegModel RegSpec RegProofs RegProofs2 RegProofs3.
Import ListNotations.
Open Scope Z_scope.

(** * C144: steam *)

Theorem C144_open w hp fp t0 h i : in_order t0 (h ++ [LCall i]) -> steam_open (snd (lrun w (new_line hp fp t0) (h ++ [LCall i]))) = true ->
  allowed (heating h) i /\
  exists h1 h2 s, h ++ [LCall i] = h1 ++ h2 /\ refused_at t0 h1 s /\ all_allowed h1 h2 /\
    (1200 < i_now i - s \/ In (LSteam true) h2).
Proof.
  intros T O. destruct (steam_inv w hp fp t0 (h ++ [LCall i]) T) as (_ & h1 & h2 & s & E & R & A & _ & _ & W & _). specialize (W O).
  assert (X : exists h2', h2 = h2' ++ [LCall i]).
  { destruct h2 as [|x h2 _] using rev_ind; [destruct W as [(j & [] & _)|[]]|].
    rewrite app_assoc in E. apply app_inj_tail in E. destruct E as (_ & <-). exists h2. reflexivity. }
  destruct X as (h2' & ->). rewrite app_assoc in E. pose proof (proj1 (app_inj_tail _ _ _ _ E)) as E'.
  split; [rewrite E'; apply (A h2' i []); reflexivity|].
  exists h1, (h2' ++ [LCall i]), s. split; [rewrite E', app_assoc; reflexivity|]. split; [exact R|]. split; [exact A|].
  destruct W as [(j & J & D)|W]; [left|right; exact W].
  apply in_app_or in J. destruct J as [J|[J|[]]]; [|inversion J; subst; exact D].
  destruct (order_call t0 h i T) as (_ & L). assert (Y : i_now j <= i_now i).
  { apply L. right. unfold readings. apply in_flat_map. exists (LCall j). rewrite E'. split; [apply in_or_app; right; exact J|left; reflexivity]. }
  lia.
Qed.
Print Assumptions C144_open.

Lemma refused_end t0 a l s h2 : refused_at t0 (a ++ l) s -> l <> [] -> all_allowed a (l ++ h2) -> False.
Proof.
  intros R N A. destruct l as [|x l _] using rev_ind; [congruence|]. destruct R as [(R & _)|(h0 & i & R & B & _)].
  - destruct a, l; discriminate.
  - rewrite app_assoc in R. apply app_inj_tail in R. destruct R as (<- & ->). apply B, (A l i h2). rewrite <- app_assoc. reflexivity.
Qed.
Lemma refused_same t0 h s1 s2 : refused_at t0 h s1 -> refused_at t0 h s2 -> s1 = s2.
Proof.
  intros [(-> & ->)|(a & i & -> & _ & ->)] [(E & ->)|(b & j & E & _ & ->)]; try reflexivity; try (destruct a; discriminate); try (destruct b; discriminate).
  apply app_inj_tail in E. destruct E as (_ & E). inversion E. reflexivity.
Qed.
Lemma split_unique t0 h1 h2 g1 g2 s r : h1 ++ h2 = g1 ++ g2 -> refused_at t0 h1 s -> refused_at t0 g1 r -> all_allowed h1 h2 -> all_allowed g1 g2 ->
  h1 = g1 /\ h2 = g2 /\ s = r.
Proof.
  intros E R1 R2 A1 A2. apply app_eq_app in E. destruct E as (l & [(E1 & E2)|(E1 & E2)]); subst.
  - destruct l as [|x l]; [|exfalso; apply (refused_end t0 g1 (x :: l) s h2 R1); [discriminate|exact A2]].
    rewrite app_nil_r in *. split; [reflexivity|]. split; [reflexivity|]. apply (refused_same t0 _ _ _ R1 R2).
  - destruct l as [|x l]; [|exfalso; apply (refused_end t0 h1 (x :: l) r g2 R2); [discriminate|exact A1]].
    rewrite app_nil_r in *. split; [reflexivity|]. split; [reflexivity|]. apply (refused_same t0 _ _ _ R1 R2).
Qed.
Theorem C144_opens w hp fp t0 h1 h2 s i : in_order t0 (h1 ++ h2) -> refused_at t0 h1 s -> all_allowed h1 h2 ->
  In (LCall i) h2 -> 1200 < i_now i - s -> ~ In (LSteam false) h2 ->
  steam_open (snd (lrun w (new_line hp fp t0) (h1 ++ h2))) = true.
Proof.
  intros T R A I D N. destruct (steam_inv w hp fp t0 (h1 ++ h2) T) as (_ & g1 & g2 & r & E & R' & A' & _ & _ & _ & W).
  destruct (split_unique t0 h1 h2 g1 g2 s r E R R' A A') as (-> & -> & ->). apply W; [exists i; split; assumption|exact N].
Qed.
Print Assumptions C144_opens.

(** Another part of the program opens the valve without heating, flow or pump; it stays
    open until the next call. *)
Theorem C144_refuted_direct w hp fp t0 h : heating h = false ->
  steam_open (snd (lrun w (new_line hp fp t0) (h ++ [LSteam true]))) = true /\
  forall i, in_order t0 (h ++ [LSteam true; LCall i]) -> steam_open (snd (lrun w (new_line hp fp t0) (h ++ [LSteam true; LCall i]))) = false.
Proof.
  intros H. split.
  - rewrite lrun_snoc. cbn [snd lstep]. rewrite steam_open_snoc. reflexivity.
  - intros i T. destruct (steam_open _) eqn:O; [|reflexivity]. change [LSteam true; LCall i] with ([LSteam true] ++ [LCall i]) in *.
    rewrite app_assoc in *. destruct (C144_open w hp fp t0 _ i T O) as ((B & _) & _). rewrite heating_snoc in B. cbn in B. congruence.
Qed.
Print Assumptions C144_refuted_direct.

Definition ex_settings : Z -> Z := fun i =>
  match i with 1 => f_of_Z 2 | 2 => f_of_Z 10 | 4 => f_of_Z 1000 | 5 => f_of_Z 100 | 12 => f_of_Z 60 | _ => f_of_Z 0 end.
Definition ex_inp (now temp flow heat_shown pump : Z) : inp :=
  {| i_now := now; i_temp := f_of_Z temp; i_flow := f_of_Z flow; i_no_flow := f_of_Z 2; i_override := false; i_frequency := None;
     i_feedback := None; i_pressure := None; i_pressure_task := f_of_Z 0; i_flow_par := f_of_Z 10; i_pause := Some false; i_can_run := Some true;
     i_has_stopped := true; i_has_flow_task := false; i_has_temp_task := false; i_wanted := true;
     i_heat_shown := f_of_Z heat_shown; i_pump_shown := pump |}.
Definition opens (h : list lev) : bool := steam_open (snd (lrun 32 (new_line ex_settings ex_settings 0) h)).
Example ex_C144 :
  (* Not before the delay is over, not without flow; closed with the next call without pump. *)
  opens [LHeat (MOn false 0); LCall (ex_inp 1100 20 10 50 1)] = false /\
  opens [LHeat (MOn false 0); LCall (ex_inp 1100 20 10 50 1); LCall (ex_inp 1300 20 10 50 1)] = true /\
  opens [LHeat (MOn false 0); LCall (ex_inp 1100 20 1 50 1); LCall (ex_inp 1300 20 10 50 1)] = false /\
  opens [LHeat (MOn false 0); LCall (ex_inp 1300 20 10 50 1); LCall (ex_inp 1400 20 10 50 0)] = false /\
  opens [LCall (ex_inp 1300 20 10 50 1)] = false /\ opens [LSteam true] = true.
Proof. vm_compute. repeat split. Qed.

(** * C145: the pump and its signals *)

Theorem C145_stop w hp fp t0 h i : forbidden i ->
  let a := snd (lstep w (fst (lrun w (new_line hp fp t0) h)) (LCall i)) in
  last_of pump_cmd a = Some false /\ last_of pump_value a = Some (f_of_Z 0) /\ last_of heat_value a = Some (f_of_Z 0) /\ ~ In APumpOn a.
Proof.
  intros F. cbn [lstep]. destruct (stop_written w (fst (lrun w (new_line hp fp t0) h)) i F) as (A & B & C & D & _).
  split; [exact A|]. split; [exact B|]. split; [exact C|exact D].
Qed.
Print Assumptions C145_stop.

Lemma restarted w l i : In APumpOn (snd (eval_pids w l i)) ->
  let q := fst (eval_pids w l i) in
  (uk_1 (heat q) = f_of_Z 0 /\ ek_1 (heat q) = f_of_Z 0 /\ ek_2 (heat q) = f_of_Z 0 /\ start_time (heat q) = i_now i) /\
  (uk_1 (flow q) = f_of_Z 0 /\ ek_1 (flow q) = f_of_Z 0 /\ ek_2 (flow q) = f_of_Z 0 /\ start_time (flow q) = i_now i).
Proof.
  intros I. pose proof (proj1 (proj1 (start_written w l i)) I) as (P & W & D). apply permitted_spec in P. apply andb_true_iff in P. destruct P as (P1 & P2).
  cbv zeta. rewrite eval_pids_parts. cbv zeta. cbn [fst].
  assert (S : forall x, heat (fst (steam w x i)) = heat x /\ flow (fst (steam w x i)) = flow x) by (intros x; unfold steam; destruct (steam_wanted x i); split; reflexivity).
  rewrite (proj1 (S _)), (proj2 (S _)). unfold permission. rewrite P1, P2. cbn [negb before_permission withdrawn]. rewrite D, W. cbn [andb fst heat flow].
  repeat split.
Qed.
Theorem C145_restart w hp fp t0 h i : 
  let r := lstep w (fst (lrun w (new_line hp fp t0) h)) (LCall i) in
  (In APumpOn (snd r) <-> permitted i /\ i_wanted i = true /\ stopped_by_signal h) /\
  (In APumpOn (snd r) ->
   (uk_1 (heat (fst r)) = f_of_Z 0 /\ ek_1 (heat (fst r)) = f_of_Z 0 /\ ek_2 (heat (fst r)) = f_of_Z 0 /\ start_time (heat (fst r)) = i_now i) /\
   (uk_1 (flow (fst r)) = f_of_Z 0 /\ ek_1 (flow (fst r)) = f_of_Z 0 /\ ek_2 (flow (fst r)) = f_of_Z 0 /\ start_time (flow (fst r)) = i_now i)).
Proof.
  cbv zeta. cbn [lstep]. set (l := fst (lrun w (new_line hp fp t0) h)). split; [|apply restarted].
  destruct (start_written w l i) as (A & _). pose proof (pump_inv w hp fp t0 h) as B. fold l in B. clearbody l. tauto.
Qed.
Print Assumptions C145_restart.

(** The report that the pump stands. *)
Theorem C145_report w hp fp t0 h i b :
  In (AStopped b) (snd (lstep w (fst (lrun w (new_line hp fp t0) h)) (LCall i))) <->
  i_has_stopped i = true /\ (forbidden i /\ b = f_lt (i_flow i) (i_no_flow i) \/ permitted i /\ b = false).
Proof.
  cbn [lstep]. set (l := fst (lrun w (new_line hp fp t0) h)). clearbody l. rewrite eval_pids_parts. cbv zeta. cbn [snd].
  set (bp := before_permission w l i). clearbody bp. rewrite !in_app_iff.
  assert (X1 : ~ In (AStopped b) (write AHeat (snd (eval w (heat l) (i_temp i) (i_now i))))) by (intros I; apply write_in in I; destruct I; discriminate).
  assert (X2 : ~ In (AStopped b) (snd (flow_part w l i))) by (intros I; apply flow_in in I; destruct I as [(v & I)|(v & I)]; discriminate).
  assert (X3 : ~ In (AStopped b) (snd (steam w (fst (permission bp i)) i))) by (intros I; apply steam_in in I; destruct I; discriminate).
  assert (X : In (AStopped b) (snd (permission bp i)) <->
    has_signal i = true /\ i_has_stopped i = true /\ b = (if may_run i then false else f_lt (i_flow i) (i_no_flow i))).
  { clear X1 X2 X3. set (v := f_lt _ _). unfold permission. fold v. clearbody v.
    assert (T : forall (c d : bool) x y, ~ In (AStopped b) ((if c then [AFlowTask x] else []) ++ if d then [ATempTask y] else [])).
    { intros [] [] x y I; cbn in I; repeat (destruct I as [I|I]; [discriminate|]); exact I. }
    destruct (has_signal i); cbn [negb snd]; [|split; [intros []|intros (Q & _); discriminate]].
    destruct (may_run i); cbn [negb snd].
    - destruct (withdrawn bp && i_wanted i); cbn [snd fst]; rewrite in_app_iff.
      + split; [intros [H|H]; [|elim (T _ _ _ _ H)]|intros (_ & -> & ->); left; left; reflexivity].
        apply in_app_or in H. destruct H as [H|[H|[]]]; [|discriminate].
        destruct (i_has_stopped i); [|destruct H]. destruct H as [H|[]]. inversion H. auto.
      + split; [intros [H|H]; [|elim (T _ _ _ _ H)]|intros (_ & -> & ->); left; left; reflexivity].
        destruct (i_has_stopped i); [|destruct H]. destruct H as [H|[]]. inversion H. auto.
    - rewrite in_app_iff. split; [intros [H|H]; [|elim (T _ _ _ _ H)]|intros (_ & -> & ->); left; right; right; right; left; reflexivity].
      destruct H as [H|[H|[H|H]]]; try discriminate. destruct (i_has_stopped i); [|destruct H]. destruct H as [H|[]]. inversion H. auto. }
  pose proof (permitted_spec i) as P. pose proof (may_run_spec i) as M. pose proof (forbidden_signal i) as FS.
  split.
  - intros [H|[H|[H|H]]]; [elim (X1 H)|elim (X2 H)| |elim (X3 H)]. apply X in H. destruct H as (S & H & B). split; [exact H|].
    destruct (may_run i); [right; split; [apply P; rewrite S; reflexivity|exact B]|left; split; [apply M; reflexivity|exact B]].
  - intros (H & B). right. right. left. apply X. destruct B as [(F & B)|(F & B)].
    + destruct (FS F) as (S & N). rewrite N. auto.
    + apply P, andb_true_iff in F. destruct F as (S & N). rewrite N. auto.
Qed.
Print Assumptions C145_report.

Definition paused (i : inp) : inp :=
  {| i_now := i_now i; i_temp := i_temp i; i_flow := i_flow i; i_no_flow := i_no_flow i; i_override := i_override i; i_frequency := i_frequency i;
     i_feedback := i_feedback i; i_pressure := i_pressure i; i_pressure_task := i_pressure_task i; i_flow_par := i_flow_par i; i_pause := Some true;
     i_can_run := i_can_run i; i_has_stopped := i_has_stopped i; i_has_flow_task := i_has_flow_task i; i_has_temp_task := i_has_temp_task i;
     i_wanted := i_wanted i; i_heat_shown := i_heat_shown i; i_pump_shown := i_pump_shown i |}.
Example ex_C145 :
  snd (lrun 32 (new_line ex_settings ex_settings 0)
    [LHeat (MOn false 0); LCall (ex_inp 1300 20 10 50 1); LCall (paused (ex_inp 1400 20 1 0 0)); LCall (ex_inp 1500 20 10 50 1); LCall (ex_inp 1600 20 10 50 1)]) =
  [[]; [AHeat (f_of_Z 80); AStopped false; ASteamOn]; [AHeat (f_of_Z 80); APumpOff; APumpValue 0; AHeat 0; AStopped true; ASteamOff];
   [AHeat (f_of_Z 80); AStopped false; APumpOn]; [AHeat 0; AStopped false]].
Proof. vm_compute. reflexivity. Qed.

(** * C146: the range of the output *)

Theorem C146_range w ps t h : 0 <= w -> f_eq (ps 8) (f_of_Z 0) = true -> good_settings ps -> good_history ps h ->
  Forall2 (fun g o => forall v, o = Some v -> fits_limit g v) (settings_then ps h) (snd (mrun w (create ps t) h)).
Proof. intros W M G H. apply fine_run; [exact W| |exact G|exact H]. apply fine_create; [exact M|apply G]. Qed.
Print Assumptions C146_range.

Lemma fine_end w h : 0 <= w -> forall f m, fine f m -> good_settings f -> good_history f h ->
  fine (settings_at f h) (fst (mrun w m h)) /\ good_settings (settings_at f h).
Proof.
  intros W. induction h as [|e h IH]; intros f m FI GS GH; [split; assumption|]. cbn [settings_at fold_left mrun].
  destruct (fine_step f w m e h W FI GS GH) as (A & B & C & _). destruct (mstep w m e) as (m1, o). cbn [fst] in A.
  destruct (IH (next f e) m1 A B C) as (I1 & I2). destruct (mrun w m1 h) as (m2, l). cbn [fst] in *. split; assumption.
Qed.
Lemma due_ms w m f now : 0 <= w <= 64 -> fine f m -> good_settings f -> (f_val (f 4%Z) <= Qpower 2 20)%Q -> last_time m <= now <= last_time m + 2 ^ 64 ->
  ((interval_ms f + 1 <= inject_Z (now - last_time m))%Q -> due w m now = true) /\
  ((inject_Z (now - last_time m) <= interval_ms f - 1)%Q -> due w m now = false).
Proof.
  intros W FI GS L T. assert (P4 : par m 4 = f 4) by (apply (fi_par f m FI); lia). destruct GS as (_ & SI & _).
  rewrite <- P4 in SI, L. destruct (due_spec w (as_pid_at (last_time m) (par m)) now W SI L) as (D1 & D2). cbv zeta in D1, D2.
  change (PidModel.par (as_pid_at (last_time m) (par m)) PidModel.P_dt) with (par m 4) in D1, D2.
  change (PidModel.last_time (as_pid_at (last_time m) (par m))) with (last_time m) in D1, D2.
  change (PidProofs3.due w (as_pid_at (last_time m) (par m)) now) with (due w m now) in D1, D2.
  rewrite delta_order in D1, D2 by lia. unfold ms in D1, D2. rewrite P4 in D1, D2. unfold interval_ms. split; [apply D1; lia|exact D2].
Qed.

(** One measurement that is not a number and the output never is a number again, until a
    restart or manual mode. *)
Theorem C146_nan_stays w ps t h c now rest : 0 <= w <= 64 -> f_eq (ps 8) (f_of_Z 0) = true -> good_settings ps -> good_history ps h ->
  let m := fst (mrun w (create ps t) h) in let f := settings_at ps h in
  on m = true -> (f_val (f 4%Z) <= Qpower 2 20)%Q -> last_time m <= now <= last_time m + 2 ^ 64 ->
  (interval_ms f + 1 <= inject_Z (now - last_time m))%Q -> f_isnan c = true -> Forall automatic_event rest ->
  Forall2 answers_nan (MEval c now :: rest) (snd (mrun w m (MEval c now :: rest))).
Proof.
  intros W M G H m f O L T D N R. destruct (fine_end w h ltac:(lia) ps (create ps t) (fine_create ps t M ltac:(apply G)) G H) as (FI & GS).
  fold m f in FI, GS. destruct (due_ms w m f now W FI GS L T) as (DU & _). specialize (DU D).
  destruct (bad_measurement w m c now O (fi_man f m FI) (fi_prev f m FI) N DU) as (LO & o & E & NO).
  cbn [mrun mstep]. destruct (eval w m c now) as (m1, o1). cbn [fst snd] in *. subst o1.
  pose proof (lost_run w rest m1 LO R) as X. destruct (mrun w m1 rest) as (m2, l). cbn [snd] in *. constructor; [exact NO|exact X].
Qed.
Print Assumptions C146_nan_stays.

Definition out_vals (l : list (option Z)) : list (option Q) := map (option_map (fun v => Qred (f_val v))) l.
Definition set_par (i v : Z) (f : Z -> Z) : Z -> Z := fun j => if j =? i then v else f j.
(** Outputs above 100 %: after manual mode with 80 % the zone of acceleration starts at
    80 and adds up to 100. *)
Definition ex_manual : list mev :=
  [MOn false 0; MEval (f_of_Z 20) 1500; MPar 8 (f_of_Z 1); MEval (f_of_Z 20) 2000; MPar 9 (f_of_Z 80); MEval (f_of_Z 20) 3000;
   MPar 8 (f_of_Z 0); MEval (f_of_Z 20) 3100; MEval (f_of_Z 20) 8100].
Theorem C146_refuted_manual : exists ps, f_eq (ps 8) (f_of_Z 0) = true /\ good_settings ps /\
  out_vals (snd (mrun 32 (create ps 0) ex_manual)) =
  [None; Some 15; None; Some 15; None; Some 80; None; Some 80; Some 130]%Q.
Proof.
  exists (set_par 7 (f_of_Z 10) ex_settings). split; [reflexivity|]. split.
  - unfold good_settings, sensible_gains, sensible_interval, sensible_range, small.
    repeat match goal with |- _ /\ _ => split end; try (vm_compute; reflexivity); try (vm_compute; discriminate);
      right; try (split; vm_compute; discriminate); vm_compute; discriminate.
  - vm_compute. reflexivity.
Qed.
Print Assumptions C146_refuted_manual.
Example ex_C146 :
  (* The limit of 50 % halves the output; the law asks for 80 and then for 96. *)
  out_vals (snd (mrun 32 (create (set_par 11 (f_of_Z 50) ex_settings) 0)
    [MOn false 0; MEval (f_of_Z 20) 1100; MEval (f_of_Z 20) 2200; MPar 11 (f_of_Z 0); MEval (f_of_Z 50) 3300; MOff])) =
  [None; Some 40; Some 48; None; Some 52; Some 0]%Q.
Proof. vm_compute. reflexivity. Qed.

(** * C147: the law *)

Lemma mrun_app w a : forall m b, mrun w m (a ++ b) =
  (fst (mrun w (fst (mrun w m a)) b), snd (mrun w m a) ++ snd (mrun w (fst (mrun w m a)) b)).
Proof.
  induction a as [|e a IH]; intros m b; cbn [mrun app fst snd]; [destruct (mrun w m b); reflexivity|].
  destruct (mstep w m e) as (m1, o). rewrite IH. destruct (mrun w m1 a) as (m2, l). cbn [fst snd]. reflexivity.
Qed.
Lemma share_off f v : f_finite (f 11) = true -> (f_val (f 11%Z) < 1 # 10)%Q -> share f v = v.
Proof.
  intros F L. unfold share. change (f P_limit) with (f 11). rewrite (limit_shown _ F).
  destruct (Qle_bool (1 # 10) (f_val (f 11))) eqn:E; [apply Qle_bool_iff in E; lra|reflexivity].
Qed.
Lemma zone_over w m now v : f_finite (par m 7) = true -> start_time m <= now -> (f_val (par m 7%Z) * 1000 <= inject_Z (now - start_time m))%Q ->
  accelerated w m now v = v.
Proof.
  intros F T L. unfold accelerated. cbv zeta. change (par m P_acceleration_time) with (par m 7). rewrite delta_order by exact T.
  set (a := par m 7) in *. clearbody a. set (d := now - start_time m) in *. clearbody d.
  destruct (f_lt (f_of_Z d) (f_mul a (f_of_Z 1000))) eqn:E; [|reflexivity]. exfalso.
  apply f_lt_spec in E. destruct E as (_ & _ & E). rewrite (mul_finite _ _ F (fz 1000 ltac:(lia))) in E.
  pose proof (vz 1000 ltac:(lia)) as V. set (k := f_of_Z 1000) in *. clearbody k. unfold f_of_Z in E.
  rewrite (proj1 (round_parts _ _)), (proj1 (round_parts _ _)) in E.
  assert (X : rk (f_val a * f_val k) <= rk (inject_Z d)) by (apply rk_mono; rewrite V; exact L). lia.
Qed.
Definition automatic_result (w : Z) (m : msa) (c now : Z) : msa := recalc w (with_par (touch m now) (put (par m) 0 (par m 12))) c now.
Lemma eval_auto w m c now : on m = true -> f_eq (par m 8) (f_of_Z 0) = true -> prev_manual m = false ->
  let q := automatic_result w m c now in
  eval w m c now = (with_par q (put (put (par m) 0 (par m 12)) 10 (share (par m) (Uk q))), Some (share (par m) (Uk q))).
Proof.
  intros O M P q. unfold eval. rewrite O. cbv zeta. change (par (touch m now)) with (par m).
  change (with_par (touch m now) (put (par m) P_Z (par m P_task))) with (with_par (touch m now) (put (par m) 0 (par m 12))).
  rewrite (auto_eval w (with_par (touch m now) (put (par m) 0 (par m 12))) c now O M P). cbv zeta. fold (automatic_result w m c now). fold q.
  cbn [with_par par]. reflexivity.
Qed.

Theorem C147_law w ps t h c now : 0 <= w <= 64 -> f_eq (ps 8) (f_of_Z 0) = true -> good_settings ps -> good_history ps h ->
  let m := fst (mrun w (create ps t) h) in let f := settings_at ps h in let q := fst (eval w m c now) in
  on m = true -> small 30 c -> (f_val (f 4%Z) <= Qpower 2 20)%Q -> last_time m <= now <= last_time m + 2 ^ 64 ->
  (interval_ms f + 1 <= inject_Z (now - last_time m))%Q ->
  let law F := F (f_val (f 1%Z)) (integral_time (f_val (f 2%Z))) (f_val (f 3%Z)) (seconds (f_val (f 4%Z)))
                 (f_val (ek_1 q)) (f_val (ek_1 m)) (f_val (ek_2 m)) : Q in
  (Qabs (f_val (uk_1 q) - cut (f_val (uk_1 m) + law change)) <= (20 # 2 ^ 24) * (100 + law size))%Q /\
  ek_2 q = ek_1 m /\ last_time q = now /\
  (~ f_val (f 5%Z) == f_val (f 6%Z) ->
   let lo := f_val (f 6%Z) in let hi := f_val (f 5%Z) in let z := f_val (par m 12%Z) in
   Qabs (f_val (ek_1 q) - percent 1 z (f_val c) lo hi) <= (10 # 2 ^ 24) * (100 * (Qabs (z - f_val c) + 1) / Qabs (hi - lo)))%Q.
Proof.
  intros W M G H m f q O SC L T D law. destruct (fine_end w h ltac:(lia) ps (create ps t) (fine_create ps t M ltac:(apply G)) G H) as (FI & GS).
  fold m f in FI, GS. destruct (due_ms w m f now W FI GS L T) as (DU & _). specialize (DU D).
  pose proof (eval_auto w m c now O (fi_man f m FI) (fi_prev f m FI)) as E. cbv zeta in E.
  assert (Q : uk_1 q = uk_1 (automatic_result w m c now) /\ ek_1 q = ek_1 (automatic_result w m c now) /\ ek_2 q = ek_2 (automatic_result w m c now) /\
              last_time q = last_time (automatic_result w m c now)).
  { unfold q. rewrite E. cbn [fst with_par uk_1 ek_1 ek_2 last_time]. repeat split. }
  destruct Q as (Q1 & Q2 & Q3 & Q4). unfold law. rewrite Q1, Q2, Q3, Q4. unfold automatic_result. set (x := with_par _ _).
  assert (P : forall j, j <> 0 -> j <> 8 -> j <> 10 -> j <> 12 -> par x j = f j).
  { intros j J0 J8 J10 J12. cbn [x with_par par]. unfold put. destruct (j =? 0) eqn:Y; [apply Z.eqb_eq in Y; lia|]. apply (fi_par f m FI); assumption. }
  destruct GS as (GA & SI & SR & _).
  rewrite <- (P 1), <- (P 2), <- (P 3) in GA by lia. rewrite <- (P 4) in SI by lia. rewrite <- (P 5), <- (P 6) in SR by lia.
  destruct (recalc_law w x c now GA SI SR (fi_task f m FI) SC (fi_uk f m FI) (fi_e1 f m FI) (fi_e2 f m FI) DU) as (R1 & R2 & R3 & _ & _ & _ & R7).
  split; [|split; [exact R2|split; [exact R3|]]].
  - rewrite !P in R7 by lia. exact R7.
  - intros NE. cbv zeta. rewrite R1. rewrite <- (P 5), <- (P 6) in NE by lia.
    pose proof (error_near (as_pid (par x)) c 1 (or_introl eq_refl) (fi_task f m FI) SC SR NE) as EN. cbv zeta in EN. rewrite error_as in EN.
    destruct EN as (_ & EN & _). rewrite <- (P 5), <- (P 6) by lia. exact EN.
Qed.
Print Assumptions C147_law.

(** Before the interval is over nothing changes. *)
Theorem C147_interval w ps t h c now : 0 <= w <= 64 -> f_eq (ps 8) (f_of_Z 0) = true -> good_settings ps -> good_history ps h ->
  let m := fst (mrun w (create ps t) h) in let f := settings_at ps h in let q := fst (eval w m c now) in
  on m = true -> (f_val (f 4%Z) <= Qpower 2 20)%Q -> last_time m <= now <= last_time m + 2 ^ 64 ->
  (inject_Z (now - last_time m) <= interval_ms f - 1)%Q ->
  uk_1 q = uk_1 m /\ ek_1 q = ek_1 m /\ ek_2 q = ek_2 m /\ last_time q = last_time m /\ Uk q = Uk m.
Proof.
  intros W M G H m f q O L T D. destruct (fine_end w h ltac:(lia) ps (create ps t) (fine_create ps t M ltac:(apply G)) G H) as (FI & GS).
  fold m f in FI, GS. destruct (due_ms w m f now W FI GS L T) as (_ & DU). specialize (DU D).
  pose proof (eval_auto w m c now O (fi_man f m FI) (fi_prev f m FI)) as E. cbv zeta in E.
  assert (X : automatic_result w m c now = with_par (touch m now) (put (par m) 0 (par m 12))).
  { unfold automatic_result. set (x := with_par _ _). unfold recalc. cbv zeta.
    change (f_lt (f_mul (interval (par x)) (f_of_Z 1000)) (f_of_Z (get_delta_millisec w now (last_time x)))) with (due w m now). rewrite DU. reflexivity. }
  unfold q. rewrite E, X. cbn [fst with_par touch uk_1 ek_1 ek_2 last_time Uk]. repeat split.
Qed.
Print Assumptions C147_interval.

(** After the zone of acceleration, without a limit, the output is the result of the law. *)
Theorem C147_output w ps t h c now : 0 <= w <= 64 -> f_eq (ps 8) (f_of_Z 0) = true -> good_settings ps -> good_history ps h ->
  let m := fst (mrun w (create ps t) h) in let f := settings_at ps h in
  on m = true -> (f_val (f 4%Z) <= Qpower 2 20)%Q -> last_time m <= now <= last_time m + 2 ^ 64 ->
  (interval_ms f + 1 <= inject_Z (now - last_time m))%Q ->
  f_finite (f 7) = true -> start_time m <= now -> (f_val (f 7%Z) * 1000 <= inject_Z (now - start_time m))%Q -> (f_val (f 11%Z) < 1 # 10)%Q ->
  snd (eval w m c now) = Some (uk_1 (fst (eval w m c now))).
Proof.
  intros W M G H m f O L T D F7 ST ZO LI. destruct (fine_end w h ltac:(lia) ps (create ps t) (fine_create ps t M ltac:(apply G)) G H) as (FI & GS).
  fold m f in FI, GS. destruct (due_ms w m f now W FI GS L T) as (DU & _). specialize (DU D).
  rewrite (eval_auto w m c now O (fi_man f m FI) (fi_prev f m FI)). cbv zeta. cbn [fst snd with_par uk_1].
  assert (P7 : par m 7 = f 7) by (apply (fi_par f m FI); lia). assert (P11 : par m 11 = f 11) by (apply (fi_par f m FI); lia).
  rewrite (share_off (par m)) by (rewrite P11; (apply GS || exact LI)). f_equal. unfold automatic_result. set (x := with_par _ _). unfold recalc. cbv zeta.
  change (f_lt (f_mul (interval (par x)) (f_of_Z 1000)) (f_of_Z (get_delta_millisec w now (last_time x)))) with (due w m now). rewrite DU.
  cbn [Uk uk_1]. apply zone_over; change (par x 7) with (par m 7); change (start_time x) with (start_time m); rewrite ?P7; assumption.
Qed.
Print Assumptions C147_output.
Example ex_C147 :
  let m1 := fst (mrun 32 (create ex_settings 0) [MOn false 0; MEval (f_of_Z 20) 1100]) in
  let m2 := fst (eval 32 m1 (f_of_Z 30) 2200) in
  (* Errors 40 and 30 percent: 2 * 30 + 2 * (-1 + 2 * 1 / 10) * 40 = -4 is added to 80. *)
  (Qred (f_val (uk_1 m1)), Qred (f_val (ek_1 m1))) = (80, 40)%Q /\ (Qred (f_val (uk_1 m2)), Qred (f_val (ek_1 m2))) = (76, 30)%Q /\
  Qred (80 + change 2 10 0 1 30 40 0) = 76%Q.
Proof. vm_compute. repeat split. Qed.

(** * C148: manual mode *)

(** Manual mode starts with the last output, then gives the manual value, and automatic
    mode starts with the last manual value. *)
Theorem C148_manual w ps t h c0 t0 c1 t1 hm c2 t2 : 0 <= w -> f_eq (ps 8) (f_of_Z 0) = true -> good_settings ps -> good_history ps h ->
  let m := fst (mrun w (create ps t) h) in on m = true -> Forall manual_event hm ->
  exists v, snd (mrun w m ([MEval c0 t0; MPar 8 (f_of_Z 1); MEval c1 t1] ++ hm ++ [MPar 8 (f_of_Z 0); MEval c2 t2])) =
    [Some v; None; Some v] ++ manual_values v hm ++ [None; Some (last_manual v hm)].
Proof.
  intros W M G H m O F. destruct (fine_end w h W ps (create ps t) (fine_create ps t M ltac:(apply G)) G H) as (FI & _). fold m in FI.
  pose proof (eval_auto w m c0 t0 O (fi_man _ m FI) (fi_prev _ m FI)) as E. cbv zeta in E.
  assert (PV : prev_manual (automatic_result w m c0 t0) = false /\ on (automatic_result w m c0 t0) = true).
  { unfold automatic_result. set (x := with_par _ _). destruct (recalc_same w x c0 t0) as (_ & A & B & _). rewrite A, B. split; [apply FI|exact O]. }
  destruct PV as (PV & ON). set (a := automatic_result w m c0 t0) in *. clearbody a.
  set (v := share (par m) (Uk a)) in *. clearbody v. exists v.
  rewrite mrun_app. cbn [snd]. rewrite mrun_app. cbn [snd].
  assert (X : exists m3, mrun w m [MEval c0 t0; MPar 8 (f_of_Z 1); MEval c1 t1] = (m3, [Some v; None; Some v]) /\ in_manual m3 /\ par m3 9 = v).
  { cbn [mrun mstep]. rewrite E. clear E. set (b := with_par _ (put (par (with_par _ _)) 8 (f_of_Z 1))).
    assert (B10 : par b 10 = v) by reflexivity.
    destruct (enter_manual w b c1 t1 ON eq_refl PV) as (E1 & E2 & E3). rewrite B10 in E1, E3. clearbody b.
    destruct (eval w b c1 t1) as (m3, o). cbn [fst snd] in *. subst o. exists m3. split; [reflexivity|split; assumption]. }
  destruct X as (m3 & X & IM & P9). rewrite X. cbn [fst snd]. f_equal.
  destruct (manual_run w hm m3 IM F) as (R1 & R2 & R3). rewrite R1, P9. f_equal. rewrite P9 in R3.
  set (m4 := fst (mrun w m3 hm)) in *. clearbody m4. cbn [mrun mstep]. destruct R2 as (O4 & _ & P4).
  set (b := with_par m4 _). assert (E4 : snd (eval w b c2 t2) = Some (last_manual v hm)) by (rewrite <- R3; apply (leave_manual w b c2 t2 O4 eq_refl P4)).
  destruct (eval w b c2 t2) as (m5, o). cbn [snd] in *. subst o. reflexivity.
Qed.
Print Assumptions C148_manual.
Example ex_C148 :
  out_vals (snd (mrun 32 (create ex_settings 0) [MOn false 0; MEval (f_of_Z 20) 1100; MPar 8 (f_of_Z 1); MEval (f_of_Z 90) 2200; MPar 9 (f_of_Z 33);
    MEval (f_of_Z 90) 3300; MPar 8 (f_of_Z 0); MEval (f_of_Z 90) 4400])) =
  [None; Some 80; None; Some 80; None; Some 33; None; Some 33]%Q.
Proof. vm_compute. reflexivity. Qed.

(** Switched off in manual mode with 80 %, reset at the start of the next program: it
    starts with 80 % again although the measurement is above the task. *)
Theorem C148_refuted_reset : exists ps, f_eq (ps 8) (f_of_Z 0) = true /\ good_settings ps /\
  out_vals (snd (mrun 32 (create ps 0) [MOn false 0; MEval (f_of_Z 20) 1100; MPar 8 (f_of_Z 1); MEval (f_of_Z 20) 2200; MPar 9 (f_of_Z 80);
    MEval (f_of_Z 20) 3300; MOff; MReset 10000; MOn false 10000; MEval (f_of_Z 90) 12000])) =
  [None; Some 80; None; Some 80; None; Some 80; Some 0; None; None; Some 80]%Q.
Proof.
  exists ex_settings. split; [reflexivity|]. split.
  - unfold good_settings, sensible_gains, sensible_interval, sensible_range, small.
    repeat match goal with |- _ /\ _ => split end; try (vm_compute; reflexivity); try (vm_compute; discriminate);
      right; try (split; vm_compute; discriminate); vm_compute; discriminate.
  - vm_compute. reflexivity.
Qed.
Print Assumptions C148_refuted_reset.

(** * C149: the average *)

Theorem C149_average M w h : tops M -> 24 <= w -> Forall (fun p => f_finite (fst p) = true /\ (Qabs (f_val (fst p)) <= M)%Q) h -> growing 0 h ->
  let q := last_reading 0 h in let s := adds w cleared h in
  0 < q < 2 ^ 21 ->
  n s = q /\ f_finite (cn s) = true /\
  (Qabs (f_val (cn s) - weighted 0 h / inject_Z q) <= (7 # 2 ^ 25) * M * inject_Z (q + 1))%Q.
Proof.
  intros TM W F G q s Q. destruct (z_tiny M TM) as (_ & MP).
  assert (V0 : (f_val (cn cleared) == 0)%Q) by (vm_compute; reflexivity).
  destruct (adds_close M w TM W h cleared 0%Q F G eq_refl ltac:(cbn; lia) ltac:(cbn; apply Q) ltac:(reflexivity)) as (A & B & C).
  - change (inject_Z (n cleared)) with 0%Q. change (Qabs 0) with 0%Q. lra.
  - rewrite V0. change (inject_Z (n cleared)) with 0%Q. setoid_replace (0 * 0 - 0)%Q with 0%Q by ring. change (Qabs 0) with 0%Q. lra.
  - change (n cleared) with 0 in A, B, C. fold q s in A, B, C. split; [exact A|]. split; [exact B|].
    assert (QP : (0 < inject_Z q)%Q) by (change 0%Q with (inject_Z 0); rewrite <- Zlt_Qlt; apply Q).
    set (x := f_val (cn s)) in *. set (y := weighted 0 h) in *. set (r := inject_Z q) in *. set (k := inject_Z (q + 1)) in *. clearbody x y r k.
    assert (E : (x - y / r == (x * r - (0 + y)) / r)%Q) by (field; lra). rewrite E.
    unfold Qdiv. rewrite Qabs_Qmult. rewrite (Qabs_pos (/ r)) by (apply Qlt_le_weak, Qinv_lt_0_compat, QP).
    apply Qle_trans with ((7 # 2) * u * M * r * k * / r)%Q; [apply Qmult_le_compat_r; [exact C|apply Qlt_le_weak, Qinv_lt_0_compat, QP]|].
    assert (E2 : ((7 # 2) * u * M * r * k * / r == (7 # 2) * u * M * k)%Q) by (field; lra). rewrite E2.
    assert (E3 : ((7 # 2) * u == (7 # 2 ^ 25))%Q) by (vm_compute; reflexivity). rewrite E3. apply Qle_refl.
Qed.
Print Assumptions C149_average.

Lemma repeat_integrator w v k : forall s, integrator (repeat_add w v k s) = integrator s.
Proof. induction k as [|k IH]; intros s; [reflexivity|]. cbn [repeat_add]. rewrite IH. reflexivity. Qed.
Lemma add_integrator w s v q : integrator (add w s v q) = Z.max (integrator s) q.
Proof. unfold add. destruct (integrator s <? q) eqn:E; [apply Z.ltb_lt in E; rewrite repeat_integrator; cbn; lia|apply Z.ltb_ge in E; lia]. Qed.
Definition highest (h : list (Z * Z)) : Z := fold_left (fun m p => Z.max m (snd p)) h 0.
Lemma adds_integrator w h : forall s, integrator (adds w s h) = fold_left (fun m p => Z.max m (snd p)) h (integrator s).
Proof. induction h as [|(v, q) h IH]; intros s; [reflexivity|]. cbn [adds fold_left snd]. rewrite IH, add_integrator. reflexivity. Qed.
Lemma adds_app w a : forall s b, adds w s (a ++ b) = adds w (adds w s a) b.
Proof. induction a as [|(v, q) a IH]; intros s b; [reflexivity|]. cbn [adds app]. apply IH. Qed.
(** After the counter was set back nothing counts until it is above its highest reading. *)
Theorem C149_restart w h rest : Forall (fun p => snd p <= highest h) rest -> adds w cleared (h ++ rest) = adds w cleared h.
Proof.
  intros F. rewrite adds_app. pose proof (adds_integrator w h cleared) as I. change (integrator cleared) with 0 in I. fold (highest h) in I.
  set (s := adds w cleared h) in *. clearbody s. induction F as [|(v, q) r L F IH]; [reflexivity|]. cbn [adds]. cbn [snd] in L.
  assert (E : add w s v q = s). { unfold add. destruct (integrator s <? q) eqn:X; [apply Z.ltb_lt in X; lia|reflexivity]. }
  rewrite E. exact IH.
Qed.
Print Assumptions C149_restart.

(** The average of a constant is not the constant. *)
Theorem C149_refuted_constant : exists v, f_finite v = true /\ cn (adds 32 cleared [(v, 1); (v, 2)]) = v /\ cn (adds 32 cleared [(v, 1); (v, 2); (v, 3)]) <> v.
Proof. exists 1063675494. split; [reflexivity|]. split; [vm_compute; reflexivity|vm_compute; discriminate]. Qed.
Print Assumptions C149_refuted_constant.
Example ex_C149 :
  (* 1.5 for 10 l and 2.5 for 30 l: 2.2499998; the counter set back; 1.1 for 1000 l. *)
  Qred (f_val (cn (adds 32 cleared [(1069547520, 10); (1075838976, 40)]))) = (9437183 # 4194304)%Q /\
  adds 32 cleared [(1069547520, 10); (1075838976, 40); (0, 5); (0, 30)] = adds 32 cleared [(1069547520, 10); (1075838976, 40)] /\
  (let e := f_val (cn (adds 32 cleared [(1066192077, 1000)]%Z)) - (11 # 10) in -9 # 1000000 < e /\ e < -7 # 1000000)%Q.
Proof. vm_compute. repeat split. Qed.
