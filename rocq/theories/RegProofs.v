(** The steam valve and the permission of the pump. *)
From Coq Require Import ZArith List Bool Lia QArith Sorting.Sorted.
From Verif Require Import Base FTextModel FloatModel TimeModel RegModel RegSpec.
Import ListNotations.
Open Scope Z_scope.

Lemma lrun_snoc w h : forall l e, lrun w l (h ++ [e]) =
  (fst (lstep w (fst (lrun w l h)) e), snd (lrun w l h) ++ [snd (lstep w (fst (lrun w l h)) e)]).
Proof.
  induction h as [|x h IH]; intros l e; cbn [lrun app].
  - cbn [fst snd]. destruct (lstep w l e) as (l1, a). reflexivity.
  - destruct (lstep w l x) as (l1, a). rewrite IH. destruct (lrun w l1 h) as (l2, r). cbn [fst snd]. reflexivity.
Qed.
Lemma delta_order w s t : s <= t -> get_delta_millisec w t s = t - s.
Proof.
  intros H. unfold get_delta_millisec. destruct (t <? s) eqn:E; [apply Z.ltb_lt in E; lia|]. cbv zeta.
  destruct (s <=? t) eqn:F; [reflexivity|apply Z.leb_gt in F; lia].
Qed.
Lemma sorted_last l x : StronglySorted Z.le (l ++ [x]) -> StronglySorted Z.le l /\ forall y, In y l -> y <= x.
Proof.
  induction l as [|a l IH]; cbn; intros H; [split; [constructor|easy]|].
  inversion H as [|? ? S F]; subst. destruct (IH S) as (A & B). rewrite Forall_app in F. destruct F as (F1 & F2).
  split; [constructor; assumption|]. intros y [<-|Y]; [|apply B, Y]. inversion F2; assumption.
Qed.

Lemma order_call t0 h i : in_order t0 (h ++ [LCall i]) -> in_order t0 h /\ forall y, In y (t0 :: readings h) -> y <= i_now i.
Proof. unfold in_order, readings. rewrite flat_map_app. intros T. exact (sorted_last (_ :: _) _ T). Qed.
Lemma order_snoc t0 h e : in_order t0 (h ++ [e]) -> in_order t0 h.
Proof.
  destruct e as [i|e|e|b]; [intros T; apply (order_call _ _ _ T)| | |];
    unfold in_order, readings; rewrite flat_map_app; cbn [flat_map app]; rewrite app_nil_r; trivial.
Qed.

(** * Nothing else switches the heating *)

Lemma reset_on w m now : on (reset w m now) = on m.
Proof. unfold reset. destruct (_ <? _); reflexivity. Qed.
Lemma recalc_on w m c now : on (recalc w m c now) = on m.
Proof. unfold recalc. cbv zeta. destruct (f_lt _ _); reflexivity. Qed.
Lemma entered_on m : on (entered m) = on m.
Proof. unfold entered. destruct (_ && _); reflexivity. Qed.
Lemma pid_eval_on w m c now : on (fst (pid_eval w m c now)) = on m.
Proof.
  unfold pid_eval. destruct (on m) eqn:O; cbn [negb]; [|exact O]. cbv zeta.
  destruct (_ && _); cbn [fst].
  - cbn [left_manual on]. rewrite reset_on, entered_on, recalc_on. exact O.
  - unfold with_par. cbn [on]. rewrite entered_on, recalc_on. exact O.
Qed.
Lemma eval_on w m c now : on (fst (eval w m c now)) = on m.
Proof.
  unfold eval. destruct (on m) eqn:O; [|exact O]. cbv zeta.
  match goal with |- on (fst (let (_, _) := pid_eval ?w ?x ?c ?n in _)) = _ => pose proof (pid_eval_on w x c n) as H; destruct (pid_eval w x c n) end.
  cbn [fst] in *. rewrite H. exact O.
Qed.
Lemma eval_task_on w m c t now : on (fst (eval_task w m c t now)) = on m.
Proof.
  unfold eval_task. destruct (on m) eqn:O; [|exact O]. cbv zeta. destruct (f_eq _ _); [exact O|].
  match goal with |- on (fst (let (_, _) := pid_eval ?w ?x ?c ?n in _)) = _ => pose proof (pid_eval_on w x c n) as H; destruct (pid_eval w x c n) end.
  cbn [fst] in *. rewrite H. exact O.
Qed.
Lemma mstep_on w m e : on (fst (mstep w m e)) = match e with MOn _ _ => true | MOff => false | _ => on m end.
Proof.
  destruct e; cbn [mstep fst]; try reflexivity.
  - unfold pid_on. destruct (on m) eqn:O; [exact O|reflexivity].
  - apply reset_on.
  - apply eval_on.
  - apply eval_task_on.
Qed.
Lemma permission_on l i : on (heat (fst (permission l i))) = on (heat l) /\ steam_delay (fst (permission l i)) = steam_delay l.
Proof.
  unfold permission. destruct (negb (has_signal i)); [split; reflexivity|].
  destruct (negb (may_run i)); [split; reflexivity|]. cbv zeta. destruct (withdrawn l && i_wanted i); split; reflexivity.
Qed.
Lemma steam_parts w l i : on (heat (fst (steam w l i))) = on (heat l) /\
  steam_delay (fst (steam w l i)) = (if steam_wanted l i then steam_delay l else i_now i) /\
  withdrawn (fst (steam w l i)) = withdrawn l.
Proof. unfold steam. destruct (steam_wanted l i); repeat split; reflexivity. Qed.

(** One call in parts. *)
Definition before_permission (w : Z) (l : line) (i : inp) : line :=
  {| heat := fst (eval w (heat l) (i_temp i) (i_now i)); flow := fst (flow_part w l i); withdrawn := withdrawn l;
     steam_delay := steam_delay l |}.
Lemma eval_pids_parts w l i : eval_pids w l i =
  let p := permission (before_permission w l i) i in
  let s := steam w (fst p) i in
  (fst s, write AHeat (snd (eval w (heat l) (i_temp i) (i_now i))) ++ snd (flow_part w l i) ++ snd p ++ snd s).
Proof.
  unfold eval_pids, before_permission. destruct (eval w (heat l) (i_temp i) (i_now i)) as (h, o). cbn [fst snd].
  destruct (flow_part w l i) as (f, a2). cbn [fst snd]. destruct (permission _ i) as (l2, a3). cbn [fst snd].
  destruct (steam w l2 i) as (l3, a4). reflexivity.
Qed.

Definition quiet (l : list act) : Prop := forall a b, In a l -> valve_after b a = b.
Lemma quiet_app l1 l2 : quiet l1 -> quiet l2 -> quiet (l1 ++ l2).
Proof. intros A B a b I. apply in_app_or in I. destruct I; [apply A|apply B]; assumption. Qed.
Lemma quiet_fold l : quiet l -> forall b, fold_left valve_after l b = b.
Proof.
  induction l as [|a l IH]; intros Q b; [reflexivity|]. cbn [fold_left]. rewrite (Q a b (or_introl eq_refl)).
  apply IH. intros x y I. apply Q. right. exact I.
Qed.
Ltac quiet_tac := intros ? ? Hin; cbn in Hin; repeat (destruct Hin as [Hin|Hin]; [subst; reflexivity|]); contradiction.
Lemma write_quiet f o : (forall v b, valve_after b (f v) = b) -> quiet (write f o).
Proof. intros H. destruct o as [v|]; intros a b I; cbn in I; [destruct I as [<-|[]]; apply H|contradiction]. Qed.
Lemma flow_quiet w l i : quiet (snd (flow_part w l i)).
Proof.
  unfold flow_part. destruct (i_override i); [quiet_tac|].
  destruct (i_frequency i), (i_feedback i); cbv zeta; cbn [fst snd];
    try (apply write_quiet; reflexivity); try quiet_tac;
    destruct (i_pressure i); try destruct (f_lt _ _); cbn [fst snd]; apply write_quiet; reflexivity.
Qed.
Lemma permission_quiet l i : quiet (snd (permission l i)).
Proof.
  unfold permission. destruct (negb (has_signal i)); [quiet_tac|].
  destruct (negb (may_run i)); cbv zeta.
  - cbn [snd]. repeat apply quiet_app; try quiet_tac;
      repeat match goal with |- quiet (if ?b then _ else _) => destruct b end; quiet_tac.
  - destruct (withdrawn l && i_wanted i); cbn [snd]; repeat apply quiet_app; try quiet_tac;
      repeat match goal with |- quiet (if ?b then _ else _) => destruct b end; quiet_tac.
Qed.
Lemma call_valve w l i b : fold_left valve_after (snd (eval_pids w l i)) b =
  fold_left valve_after (snd (steam w (fst (permission (before_permission w l i) i)) i)) b.
Proof.
  rewrite eval_pids_parts. cbv zeta. cbn [snd]. rewrite !fold_left_app.
  rewrite (quiet_fold (write AHeat _)) by (apply write_quiet; reflexivity).
  rewrite (quiet_fold (snd (flow_part w l i))) by apply flow_quiet.
  rewrite (quiet_fold (snd (permission _ _))) by apply permission_quiet. reflexivity.
Qed.
Lemma call_state w l i : on (heat (fst (eval_pids w l i))) = on (heat l) /\
  (allowed (on (heat l)) i -> steam_delay (fst (eval_pids w l i)) = steam_delay l /\
     forall b, fold_left valve_after (snd (eval_pids w l i)) b = b || (1200 <? get_delta_millisec w (i_now i) (steam_delay l))) /\
  (~ allowed (on (heat l)) i -> steam_delay (fst (eval_pids w l i)) = i_now i /\
     forall b, fold_left valve_after (snd (eval_pids w l i)) b = false).
Proof.
  pose proof (permission_on (before_permission w l i) i) as (P1 & P2).
  pose proof (fun b => call_valve w l i b) as V.
  rewrite eval_pids_parts in *. cbv zeta in *. cbn [fst] in *.
  set (p := fst (permission (before_permission w l i) i)) in *.
  destruct (steam_parts w p i) as (S1 & S2 & _).
  cbn [before_permission heat steam_delay] in P1, P2. rewrite eval_on in P1.
  rewrite S1, P1, S2, P2. split; [reflexivity|].
  assert (W : steam_wanted p i = true <-> allowed (on (heat l)) i).
  { unfold steam_wanted, allowed. rewrite P1, !andb_true_iff, Z.eqb_eq. tauto. }
  split; intros A.
  - destruct W as (_ & W). specialize (W A). rewrite W. split; [reflexivity|]. intros b. rewrite V. unfold steam. rewrite W, P2.
    cbn [snd]. unfold STEAM_VALVE_MIN_DELAY. destruct (1200 <? _); cbn; destruct b; reflexivity.
  - assert (W' : steam_wanted p i = false). { destruct (steam_wanted p i); [exfalso; apply A, W; reflexivity|reflexivity]. }
    rewrite W'. split; [reflexivity|]. intros b. rewrite V. unfold steam. rewrite W'. reflexivity.
Qed.

(** * The history of the steam valve *)

Lemma heating_snoc h e : heating (h ++ [e]) = heating_after (heating h) e.
Proof. unfold heating. rewrite fold_left_app. reflexivity. Qed.
Lemma steam_open_snoc l a : steam_open (l ++ [a]) = fold_left valve_after a (steam_open l).
Proof. unfold steam_open. rewrite concat_app, fold_left_app. cbn [concat]. rewrite app_nil_r. reflexivity. Qed.
Lemma all_allowed_snoc h1 h2 e : all_allowed h1 h2 -> (forall i, e = LCall i -> allowed (heating (h1 ++ h2)) i) -> all_allowed h1 (h2 ++ [e]).
Proof.
  intros A E a i b H. destruct b as [|x b] using rev_ind.
  - apply app_inj_tail in H. destruct H as (H1 & H2). subst. apply E. reflexivity.
  - rewrite app_comm_cons, app_assoc in H. apply app_inj_tail in H. destruct H as (H1 & H2). apply (A a i b H1).
Qed.

Definition reason (w s : Z) (h2 : list lev) : Prop :=
  (exists i, In (LCall i) h2 /\ 1200 < i_now i - s) \/ In (LSteam true) h2.
Lemma reason_more w s h2 e : reason w s h2 -> reason w s (h2 ++ [e]).
Proof. intros [(i & I & T)|I]; [left; exists i; split; [apply in_or_app; left; exact I|exact T]|right; apply in_or_app; left; exact I]. Qed.

Lemma steam_inv w hp fp t0 h : in_order t0 h -> 
  let r := lrun w (new_line hp fp t0) h in
  on (heat (fst r)) = heating h /\
  exists h1 h2 s, h = h1 ++ h2 /\ refused_at t0 h1 s /\ all_allowed h1 h2 /\ steam_delay (fst r) = s /\ In s (t0 :: readings h) /\
    (steam_open (snd r) = true -> reason w s h2) /\
    ((exists i, In (LCall i) h2 /\ 1200 < i_now i - s) -> ~ In (LSteam false) h2 -> steam_open (snd r) = true).
Proof.
  induction h as [|e h IH] using rev_ind; intros T; cbv zeta.
  - split; [reflexivity|]. exists [], [], t0. split; [reflexivity|]. split; [left; split; reflexivity|].
    split; [intros a i b H; destruct a; discriminate|]. split; [reflexivity|]. split; [left; reflexivity|]. split.
    + discriminate.
    + intros (i & [] & _).
  - pose proof (order_snoc _ _ _ T) as T'.
    specialize (IH T'). cbv zeta in IH. destruct IH as (O & h1 & h2 & s & E & R & AA & D & IN & V1 & V2).
    rewrite lrun_snoc. cbn [fst snd]. set (l := fst (lrun w (new_line hp fp t0) h)) in *.
    set (acts := snd (lrun w (new_line hp fp t0) h)) in *. rewrite steam_open_snoc, heating_snoc.
    assert (INs : In s (t0 :: readings (h ++ [e]))).
    { unfold readings. rewrite flat_map_app, app_comm_cons. apply in_or_app. left. exact IN. }
    destruct e as [i|e|e|b]; cbn [lstep heating_after].
    + destruct (call_state w l i) as (C1 & C2 & C3). rewrite C1, O. split; [reflexivity|].
      assert (TS : s <= i_now i).
      { apply (order_call _ _ _ T), IN. }
      rewrite O in C2, C3.
      assert (DEC : allowed (heating h) i \/ ~ allowed (heating h) i).
      { unfold allowed. destruct (heating h), (f_lt (f_of_Z 1) (i_heat_shown i)), (f_lt (i_no_flow i) (i_flow i)), (Z.eq_dec (i_pump_shown i) 1); tauto || (right; intros (? & ? & ? & ?); congruence || contradiction). }
      destruct DEC as [A|A].
      * destruct (C2 A) as (C4 & C5). rewrite C5, C4, D, (delta_order w s _ TS).
        exists h1, (h2 ++ [LCall i]), s. split; [rewrite E, app_assoc; reflexivity|]. split; [exact R|].
        split. { apply all_allowed_snoc; [exact AA|]. intros j J. inversion J; subst j. rewrite <- E. exact A. }
        split; [reflexivity|]. split; [exact INs|]. split.
        -- intros H. apply orb_true_iff in H. destruct H as [H|H]; [apply reason_more, V1, H|].
           apply Z.ltb_lt in H. left. exists i. split; [apply in_or_app; right; left; reflexivity|exact H].
        -- intros (j & J & TJ) N. apply in_app_or in J. destruct J as [J|[J|[]]].
           ++ rewrite V2; [reflexivity|exists j; split; assumption|]. intros X. apply N, in_or_app. left. exact X.
           ++ inversion J; subst j. apply Z.ltb_lt in TJ. rewrite TJ. apply orb_true_r.
      * destruct (C3 A) as (C4 & C5). rewrite C5, C4. exists (h ++ [LCall i]), [], (i_now i).
        split; [rewrite app_nil_r; reflexivity|]. split. { right. exists h, i. repeat split; auto. }
        split. { intros a j b H. destruct a; discriminate. } split; [reflexivity|].
        split. { unfold readings. rewrite flat_map_app, app_comm_cons. apply in_or_app. right. left. reflexivity. }
        split; [discriminate|]. intros (j & [] & _).
    + pose proof (mstep_on w (heat l) e) as M. destruct (mstep w (heat l) e) as (m, o). cbn [fst snd heat steam_delay] in *.
      split. { rewrite M, O. destruct e; reflexivity. }
      exists h1, (h2 ++ [LHeat e]), s. split; [rewrite E, app_assoc; reflexivity|]. split; [exact R|].
      split. { apply all_allowed_snoc; [exact AA|]. discriminate. } split; [exact D|]. split; [exact INs|].
      rewrite (quiet_fold (write AHeat o)) by (apply write_quiet; reflexivity).
      split; [intros H; apply reason_more, V1, H|]. intros (j & J & TJ) N. apply V2.
      * exists j. split; [|exact TJ]. apply in_app_or in J. destruct J as [J|[J|[]]]; [exact J|discriminate].
      * intros X. apply N, in_or_app. left. exact X.
    + destruct (mstep w (flow l) e) as (m, o). cbn [fst snd heat steam_delay] in *.
      split; [exact O|].
      exists h1, (h2 ++ [LFlow e]), s. split; [rewrite E, app_assoc; reflexivity|]. split; [exact R|].
      split. { apply all_allowed_snoc; [exact AA|]. discriminate. } split; [exact D|]. split; [exact INs|].
      rewrite (quiet_fold (write AFreq o)) by (apply write_quiet; reflexivity).
      split; [intros H; apply reason_more, V1, H|]. intros (j & J & TJ) N. apply V2.
      * exists j. split; [|exact TJ]. apply in_app_or in J. destruct J as [J|[J|[]]]; [exact J|discriminate].
      * intros X. apply N, in_or_app. left. exact X.
    + cbn [fst snd fold_left]. split; [exact O|].
      exists h1, (h2 ++ [LSteam b]), s. split; [rewrite E, app_assoc; reflexivity|]. split; [exact R|].
      split. { apply all_allowed_snoc; [exact AA|]. discriminate. } split; [exact D|]. split; [exact INs|].
      destruct b; cbn [valve_after].
      * split; [intros _; right; apply in_or_app; right; left; reflexivity|reflexivity].
      * split; [discriminate|]. intros _ N. exfalso. apply N, in_or_app. right. left. reflexivity.
Qed.

(** * The pump *)

Lemma may_run_spec i : may_run i = false <-> forbidden i.
Proof. unfold may_run, forbidden. destruct (i_can_run i) as [[]|], (i_pause i) as [[]|]; cbn; intuition congruence. Qed.
Lemma may_run_true i : may_run i = true <-> ~ forbidden i.
Proof. rewrite <- may_run_spec. destruct (may_run i); intuition congruence. Qed.
Lemma has_signal_spec i : has_signal i = true <-> i_can_run i <> None \/ i_pause i <> None.
Proof. unfold has_signal. destruct (i_can_run i) as [[]|], (i_pause i) as [[]|]; cbn; intuition congruence. Qed.
Lemma permitted_spec i : permitted i <-> has_signal i && may_run i = true.
Proof. unfold permitted. rewrite andb_true_iff, has_signal_spec, may_run_true. tauto. Qed.
Lemma forbidden_signal i : forbidden i -> has_signal i = true /\ may_run i = false.
Proof. intros F. split; [apply has_signal_spec; destruct F as [->| ->]; [left|right]; discriminate|apply may_run_spec, F]. Qed.

Lemma last_of_app {A} (f : act -> option A) l1 l2 : last_of f (l1 ++ l2) = match last_of f l2 with Some v => Some v | None => last_of f l1 end.
Proof.
  unfold last_of. rewrite fold_left_app. generalize (fold_left (fun r a => match f a with Some v => Some v | None => r end) l1 None).
  induction l2 as [|a l2 IH] using rev_ind; intros o; [reflexivity|]. rewrite !fold_left_app. cbn [fold_left].
  destruct (f a); [reflexivity|]. apply IH.
Qed.
Lemma last_of_none {A} (f : act -> option A) l : (forall a, In a l -> f a = None) -> last_of f l = None.
Proof.
  induction l as [|a l IH] using rev_ind; intros H; [reflexivity|]. rewrite last_of_app, IH.
  - unfold last_of. cbn. rewrite H; [reflexivity|apply in_or_app; right; left; reflexivity].
  - intros x I. apply H, in_or_app. left. exact I.
Qed.
Lemma write_in f o a : In a (write f o) -> exists v, a = f v.
Proof. destruct o as [v|]; cbn; [intros [<-|[]]; exists v; reflexivity|intros []]. Qed.
Lemma flow_in w l i a : In a (snd (flow_part w l i)) -> (exists v, a = AFreq v) \/ exists v, a = APumpValue v.
Proof.
  unfold flow_part. destruct (i_override i); [intros []|].
  destruct (i_frequency i), (i_feedback i); cbv zeta; cbn [fst snd];
    try (intros I; apply write_in in I; left; exact I);
    try (intros [<-|[]]; right; eexists; reflexivity);
    destruct (i_pressure i); try destruct (f_lt _ _); cbn [fst snd]; intros I; apply write_in in I; left; exact I.
Qed.
Lemma steam_in w l i a : In a (snd (steam w l i)) -> a = ASteamOn \/ a = ASteamOff.
Proof.
  unfold steam. destruct (steam_wanted l i); cbn [snd]; [destruct (_ <? _); cbn; intuition|cbn; intuition].
Qed.
Lemma stop_written w l i : forbidden i -> let a := snd (eval_pids w l i) in
  last_of pump_cmd a = Some false /\ last_of pump_value a = Some (f_of_Z 0) /\ last_of heat_value a = Some (f_of_Z 0) /\
  ~ In APumpOn a /\ withdrawn (fst (eval_pids w l i)) = true.
Proof.
  intros F. cbv zeta. rewrite eval_pids_parts. cbv zeta. cbn [snd fst].
  set (bp := before_permission w l i). destruct (forbidden_signal i F) as (S & M).
  assert (P : exists t, snd (permission bp i) = [APumpOff; APumpValue (f_of_Z 0); AHeat (f_of_Z 0)] ++ t /\
     (forall a, In a t -> pump_cmd a = None /\ pump_value a = None /\ heat_value a = None) /\ withdrawn (fst (permission bp i)) = true).
  { unfold permission. rewrite S, M. cbn [negb]. eexists. cbn [fst snd]. rewrite <- app_assoc. split; [reflexivity|]. split; [|reflexivity].
    intros a I. repeat (apply in_app_or in I; destruct I as [I|I]);
      repeat match type of I with In _ (if ?b then _ else _) => destruct b end; cbn in I; try contradiction; destruct I as [<-|[]]; repeat split. }
  destruct P as (t & P & T & WD). rewrite P.
  assert (ST : forall a, In a (snd (steam w (fst (permission bp i)) i)) -> pump_cmd a = None /\ pump_value a = None /\ heat_value a = None).
  { intros a I. apply steam_in in I. destruct I as [->| ->]; repeat split. }
  split; [|split; [|split; [|split]]].
  1-3: rewrite !last_of_app, (last_of_none _ (snd (steam _ _ _))) by (intros a I; apply ST in I; tauto);
    rewrite (last_of_none _ t) by (intros a I; apply T in I; tauto); reflexivity.
  - intros I. repeat (apply in_app_or in I; destruct I as [I|I]).
    + apply write_in in I. destruct I as (v & I). discriminate.
    + apply flow_in in I. destruct I as [(v & I)|(v & I)]; discriminate.
    + cbn in I. intuition discriminate.
    + apply T in I. destruct I as (I & _). discriminate.
    + apply ST in I. destruct I as (I & _). discriminate.
  - destruct (steam_parts w (fst (permission bp i)) i) as (_ & _ & ->). exact WD.
Qed.
Lemma start_written w l i : (In APumpOn (snd (eval_pids w l i)) <-> permitted i /\ i_wanted i = true /\ withdrawn l = true) /\
  withdrawn (fst (eval_pids w l i)) = (if has_signal i then if may_run i then withdrawn l && negb (i_wanted i) else true else withdrawn l).
Proof.
  rewrite eval_pids_parts. cbv zeta. cbn [snd fst]. set (bp := before_permission w l i).
  destruct (steam_parts w (fst (permission bp i)) i) as (_ & _ & ->).
  assert (B : withdrawn bp = withdrawn l) by reflexivity.
  assert (X1 : ~ In APumpOn (write AHeat (snd (eval w (heat l) (i_temp i) (i_now i))))) by (intros I; apply write_in in I; destruct I; discriminate).
  assert (X2 : ~ In APumpOn (snd (flow_part w l i))) by (intros I; apply flow_in in I; destruct I as [(v & I)|(v & I)]; discriminate).
  assert (X3 : ~ In APumpOn (snd (steam w (fst (permission bp i)) i))) by (intros I; apply steam_in in I; destruct I; discriminate).
  assert (X : In APumpOn (snd (permission bp i)) <-> permitted i /\ i_wanted i = true /\ withdrawn l = true).
  { clear X1 X2 X3. rewrite permitted_spec, andb_true_iff. unfold permission. rewrite B.
    assert (Y : forall (b : bool) x, x <> APumpOn -> ~ In APumpOn (if b then [x] else [])) by (intros [] x N; cbn; [intros [Q|[]]; exact (N Q)|intros []]).
    destruct (has_signal i); cbn [negb snd]; [|split; [intros []|intros ((Q & _) & _); discriminate]].
    destruct (may_run i); cbn [negb].
    - cbv zeta. destruct (withdrawn l) eqn:WL, (i_wanted i) eqn:WI; cbn [andb snd]; rewrite !in_app_iff; cbn [In]; split.
      1: intros _; repeat split.
      1: intros _; left; right; left; reflexivity.
      1,3,5: intros Q; exfalso; decompose [or] Q; (eapply Y; [|eassumption]); discriminate.
      1-3: intros (_ & Q1 & Q2); discriminate.
    - cbn [snd]. rewrite !in_app_iff. cbn [In]. split; [|intros ((_ & Q) & _); discriminate].
      intros Q. exfalso. decompose [or] Q; try discriminate; try contradiction; (eapply Y; [|eassumption]); discriminate. }
  split.
  - rewrite <- X. rewrite !in_app_iff. clear X. tauto.
  - clear X X1 X2 X3. unfold permission. rewrite B. destruct (has_signal i); cbn [negb fst]; [|exact B].
    destruct (may_run i); cbn [negb fst withdrawn]; [|reflexivity]. cbv zeta.
    destruct (withdrawn l) eqn:WL, (i_wanted i) eqn:WI; cbn [andb fst withdrawn negb]; try reflexivity; exact B.
Qed.

Lemma pump_inv w hp fp t0 h : withdrawn (fst (lrun w (new_line hp fp t0) h)) = true <-> stopped_by_signal h.
Proof.
  induction h as [|e h IH] using rev_ind.
  - split; [discriminate|]. intros (a & i & b & H & _). destruct a; discriminate.
  - rewrite lrun_snoc. cbn [fst]. set (l := fst (lrun w (new_line hp fp t0) h)) in *.
    assert (OTHER : (forall i, e <> LCall i) -> (stopped_by_signal (h ++ [e]) <-> stopped_by_signal h)).
    { intros N. split.
      - intros (a & i & b & H & F & K). destruct b as [|x b] using rev_ind; [apply app_inj_tail in H; destruct H as (_ & H); elim (N i H)|].
        clear IHb. rewrite app_comm_cons, app_assoc in H. apply app_inj_tail in H. destruct H as (H & _). exists a, i, b. split; [exact H|]. split; [exact F|].
        intros j J. apply K, in_or_app. left. exact J.
      - intros (a & i & b & H & F & K). exists a, i, (b ++ [e]). split; [rewrite H, <- app_assoc; reflexivity|]. split; [exact F|].
        intros j J. apply in_app_or in J. destruct J as [J|[J|[]]]; [apply K, J|elim (N j J)]. }
    destruct e as [i|e|e|b]; cbn [lstep].
    + destruct (start_written w l i) as (_ & ->). split.
      * intros H. destruct (has_signal i) eqn:S; [destruct (may_run i) eqn:M|].
        -- apply andb_true_iff in H. destruct H as (H & W). apply IH in H. destruct H as (a & j & b & H & F & K).
           exists a, j, (b ++ [LCall i]). split; [rewrite H, <- app_assoc; reflexivity|]. split; [exact F|].
           intros x J. apply in_app_or in J. destruct J as [J|[J|[]]]; [apply K, J|]. inversion J; subst x. intros _. apply negb_true_iff, W.
        -- exists h, i, []. split; [reflexivity|]. split; [apply may_run_spec, M|]. intros j [].
        -- apply IH in H. destruct H as (a & j & b & H & F & K).
           exists a, j, (b ++ [LCall i]). split; [rewrite H, <- app_assoc; reflexivity|]. split; [exact F|].
           intros x J. apply in_app_or in J. destruct J as [J|[J|[]]]; [apply K, J|]. inversion J; subst x. intros P.
           apply permitted_spec in P. rewrite S in P. discriminate.
      * intros (a & j & b & H & F & K). destruct b as [|x b] using rev_ind.
        -- apply app_inj_tail in H. destruct H as (_ & H). inversion H; subst j. destruct (forbidden_signal i F) as (-> & ->). reflexivity.
        -- clear IHb. rewrite app_comm_cons, app_assoc in H. apply app_inj_tail in H. destruct H as (H & X). subst x.
           assert (SB : stopped_by_signal h). { exists a, j, b. split; [exact H|]. split; [exact F|]. intros y J. apply K, in_or_app. left. exact J. }
           apply IH in SB. rewrite SB. destruct (has_signal i) eqn:S; [|reflexivity]. destruct (may_run i) eqn:M; [|reflexivity].
           rewrite (K i); [reflexivity|apply in_or_app; right; left; reflexivity|]. apply permitted_spec. rewrite S, M. reflexivity.
    + rewrite OTHER by discriminate. rewrite <- IH. destruct (mstep w (heat l) e). reflexivity.
    + rewrite OTHER by discriminate. rewrite <- IH. destruct (mstep w (flow l) e). reflexivity.
    + rewrite OTHER by discriminate. exact IH.
Qed.
