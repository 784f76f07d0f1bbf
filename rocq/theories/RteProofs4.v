(** Proofs about the valves of a step that goes on: sorting, the tank of water. *)
From Coq Require Import ZArith List Bool Lia.
From Verif Require Import TimeModel CipModel CipSpec RteModel RteSpec RteProofs2.
Import ListNotations.
Open Scope Z_scope.

Lemma delta_ge w n t : 0 <= t <= n -> get_delta_millisec w n t = n - t.
Proof. intros H. unfold get_delta_millisec. replace (n <? t) with false by lia. replace (t <=? n) with true by lia. reflexivity. Qed.

(** * A condition remembered for some time *)

Definition latch (w hold : Z) (f : env -> bool) (st : bool * Z) (e : env) : bool * Z :=
  if f e then (true, now e)
  else if fst st && (hold <? get_delta_millisec w (now e) (snd st)) then (false, snd st) else st.
(** After the calls [pre], the last of them at time [t]. *)
Definition kept (hold : Z) (f : env -> bool) (t : Z) (pre : list env) (st : bool * Z) : Prop :=
  if fst st
  then t - hold <= snd st <= t /\ 0 <= snd st /\ (exists d, In d pre /\ f d = true /\ now d = snd st)
       /\ (forall d, In d pre -> f d = true -> now d <= snd st)
  else forall d, In d pre -> f d = true -> hold < t - now d.
Lemma kept_lately : forall hold f t pre st, kept hold f t pre st -> fst st = lately f hold t pre.
Proof.
  intros hold f t pre [b s] K. unfold kept in K. cbn [fst snd] in *. symmetry. destruct b.
  - destruct K as (A & _ & (d & I & F & E) & _). apply existsb_exists. exists d. split; [exact I|]. rewrite F. cbn [andb]. apply Z.leb_le. lia.
  - destruct (lately f hold t pre) eqn:L; [|reflexivity]. apply existsb_exists in L. destruct L as (d & I & F).
    apply andb_prop in F. destruct F as [F1 F2]. apply Z.leb_le in F2. specialize (K d I F1). lia.
Qed.
Lemma latch_kept : forall w hold f t pre st e, 0 <= hold -> kept hold f t pre st -> t <= now e -> 0 <= now e ->
  kept hold f (now e) (pre ++ [e]) (latch w hold f st e).
Proof.
  intros w hold f t pre [b s] e H0 K T N. unfold latch. cbn [fst snd]. destruct (f e) eqn:F.
  { unfold kept. cbn [fst snd].
    assert (P : forall d, In d pre -> f d = true -> now d <= now e).
    { intros d I Fd. unfold kept in K. cbn [fst snd] in K. destruct b; [destruct K as (A & _ & _ & B); specialize (B d I Fd); lia|].
      specialize (K d I Fd). lia. }
    repeat split; try lia.
    - exists e. rewrite in_app_iff. cbn. auto.
    - intros d I Fd. apply in_app_or in I. destruct I as [I|[<-|[]]]; [apply P; assumption|lia]. }
  assert (X : forall d, In d (pre ++ [e]) -> f d = true -> In d pre).
  { intros d I Fd. apply in_app_or in I. destruct I as [I|[<-|[]]]; [exact I|congruence]. }
  unfold kept in K. cbn [fst snd] in K. destruct b; cbn [andb].
  - destruct K as (A & S0 & (d & I & Fd & E) & B). rewrite delta_ge by lia. destruct (hold <? now e - s) eqn:L.
    + unfold kept. cbn [fst snd]. intros d' I' F'. apply Z.ltb_lt in L. specialize (B d' (X d' I' F') F'). lia.
    + apply Z.ltb_ge in L. unfold kept. cbn [fst snd]. repeat split; try lia.
      * exists d. rewrite in_app_iff. auto.
      * intros d' I' F'. apply B; auto.
  - unfold kept. cbn [fst snd]. intros d' I' F'. specialize (K d' (X d' I' F') F'). lia.
Qed.
Lemma kept_init : forall hold f t s, kept hold f t [] (false, s).
Proof. intros hold f t s d []. Qed.

Definition rets : list vlv := [V07; V08; V09; V10; V11; V12].
Lemma apply_app : forall a b v, apply (a ++ b) v = apply b (apply a v).
Proof. intros. apply fold_left_app. Qed.

(** * Sorting *)

Definition tank_place (n : Z) : place := if has n [24; 33; 34; 35; 111] then TankS else TankK.
Definition forced (n : Z) : bool := has n [111; 121].
(** What sorting remembers. *)
Definition sm (m : mem) : bool * Z * (Z * bool) := (full m, full_t m, (sdelay m, force m)).
Lemma sort_sm : forall w e t f m m', sm m = sm m' -> fst (sort w e t f m) = fst (sort w e t f m') /\ sm (snd (sort w e t f m)) = sm (snd (sort w e t f m')).
Proof.
  intros w e t f m m' H. unfold sm in H. inversion H as [[H1 H2 H3 H4]]. unfold sort. rewrite H3, H4.
  destruct (_ && negb (force m')); [split; [reflexivity|exact H]|]. cbv zeta. cbn [fst snd].
  destruct (_ && negb f); unfold sm; cbn [set_full set_sort full full_t sdelay force].
  - rewrite ?H1, ?H2. destruct (_ && (20000 <? _)); split; reflexivity.
  - rewrite H1, H2. destruct (_ && (20000 <? _)); split; cbn; rewrite ?H1, ?H2; reflexivity.
Qed.
Definition untouched (cs : list order) : Prop := forall x, In x rets -> told cs x = None.
Lemma refill_rets : forall e, untouched (refill e).
Proof. intros e x H. unfold refill. destruct (lm e), (lh e), x; cbn in H |- *; try reflexivity; intuition discriminate. Qed.
Lemma draw_rets : forall w e m, untouched (fst (draw w e m)).
Proof.
  intros w e m x H. unfold draw. cbv zeta. cbn [fst]. destruct (empty _); [|destruct x; cbn in H |- *; try reflexivity; intuition discriminate].
  unfold refill. destruct (lm e), (lh e), x; cbn in H |- *; try reflexivity; intuition discriminate.
Qed.
Lemma draw_sm : forall w e m, sm (snd (draw w e m)) = sm m.
Proof. intros w e m. unfold draw. cbv zeta. cbn [snd]. destruct (wempty e); [reflexivity|]. destruct (_ && _); reflexivity. Qed.
Lemma untouched_app : forall cs v x, untouched cs -> In x rets -> apply cs v x = v x.
Proof. intros cs v x U I. rewrite apply_told, (U x I). reflexivity. Qed.
Lemma apply_ext : forall cs v v' x, v x = v' x -> apply cs v x = apply cs v' x.
Proof. intros cs v v' x H. rewrite !apply_told. destruct (told cs x); [reflexivity|exact H]. Qed.
(** The result of a call as far as sorting is concerned. *)
Definition same_sort (w : Z) (e : env) (n : Z) (m : mem) (r : list order * mem) : Prop :=
  let s := sort w e (tank_place n) (forced n) m in
  sm (snd r) = sm (snd s) /\ forall v x, In x rets -> apply (fst r) v x = apply (fst s) v x.
Lemma pre_sort : forall w e n m a b, untouched (fst a) -> sm (snd a) = sm m -> b = sort w e (tank_place n) (forced n) (snd a) ->
  same_sort w e n m (fst a ++ fst b, snd b).
Proof.
  intros w e n m a b U S ->. unfold same_sort. cbv zeta. cbn [fst snd]. destruct (sort_sm w e (tank_place n) (forced n) (snd a) m S) as [E1 E2].
  split; [exact E2|]. intros v x I. rewrite apply_app, E1. apply apply_ext. apply untouched_app; assumption.
Qed.
Lemma post_sort : forall w e n m b, untouched b ->
  same_sort w e n m (fst (sort w e (tank_place n) (forced n) m) ++ b, snd (sort w e (tank_place n) (forced n) m)).
Proof.
  intros w e n m b U. unfold same_sort. cbv zeta. cbn [fst snd]. split; [reflexivity|]. intros v x I.
  rewrite apply_app. apply untouched_app; assumption.
Qed.
Lemma nil_untouched : untouched []. Proof. intros x I. reflexivity. Qed.
Definition sorting : list Z := [24; 33; 34; 35; 111; 44; 53; 54; 55; 121].
Lemma media_cases : forall e, media e = TankW \/ media e = Water.
Proof. intros e. unfold media. destruct (_ && _); auto. Qed.
Lemma sort_call : forall w e n m, In n sorting -> err e = false -> 
  if looks n e then same_sort w e n m (do_orders w e n m) else fst (do_orders w e n m) = [] /\ snd (do_orders w e n m) = m.
Proof.
  intros w e n m I E. unfold looks. rewrite E. cbn [negb andb].
  assert (ID : forall k, same_sort w e k m (sort w e (tank_place k) (forced k) m)) by (intros k; split; reflexivity).
  assert (TO : forall k from, In from [TankW; Water] -> forced k = false ->
    same_sort w e k m (do_to w e from (tank_place k) m)).
  { intros k from Hf Hk. unfold do_to. cbv zeta.
    replace (match tank_place k with TankW => _ | TankS | TankK => sort w e (tank_place k) false _ | _ => _ end)
      with (sort w e (tank_place k) (forced k) (snd (match from with Water => (refill e, m) | TankW => draw w e m | _ => ([], m) end)))
      by (rewrite Hk; unfold tank_place; destruct (has _ _); reflexivity).
    destruct Hf as [<-|[<-|[]]]; apply pre_sort; try reflexivity; try apply draw_rets; try apply draw_sm. cbn [fst]. apply refill_rets. }
  assert (FR : forall k from, In from [TankW; Water] -> forced k = false -> quit e = false ->
    same_sort w e k m (do_from w e from (tank_place k) m)).
  { intros k from Hf Hk Q. unfold do_from. rewrite Q. cbv zeta.
    destruct Hf as [<-|[<-|[]]].
    - replace (match tank_place k with TankW => _ | TankS | TankK => sort w e (tank_place k) false _ | _ => _ end)
        with (sort w e (tank_place k) (forced k) (snd (draw w e m))) by (rewrite Hk; unfold tank_place; destruct (has _ _); reflexivity).
      apply pre_sort; try reflexivity; [apply draw_rets|apply draw_sm].
    - replace (match tank_place k with TankW => _ | TankS | TankK => sort w e (tank_place k) false _ | _ => _ end)
        with (sort w e (tank_place k) (forced k) (snd (refill e, m))) by (rewrite Hk; unfold tank_place; destruct (has _ _); reflexivity).
      apply (pre_sort w e k m (refill e, m)); try reflexivity. apply refill_rets. }
  assert (MI : In (media e) [TankW; Water]) by (destruct (media_cases e) as [-> | ->]; cbn; auto).
  cbn [sorting In] in I.
  repeat (destruct I as [<-|I]; [cbn [has existsb Z.eqb Pos.eqb orb do_orders]|]); [..|destruct I].
  - unfold do_from. destruct (quit e); [split; reflexivity|]. cbn [negb andb]. destruct (lsl e); [|split; reflexivity].
    cbn [negb]. apply (post_sort w e 24). exact nil_untouched.
  - apply (TO 33); [exact MI|reflexivity].
  - unfold do_oporcip. destruct (isline e); [split; reflexivity|]. apply (ID 34).
  - destruct (quit e) eqn:Q; [unfold do_from; rewrite Q; split; reflexivity|]. apply (FR 35); [exact MI|reflexivity|reflexivity].
  - unfold do_opolrr. cbv zeta. apply (post_sort w e 111). destruct (quit e); [exact nil_untouched|apply refill_rets].
  - unfold do_from. destruct (quit e); [split; reflexivity|]. cbn [negb andb]. destruct (lkl e); [|split; reflexivity].
    cbn [negb]. apply (post_sort w e 44). exact nil_untouched.
  - apply (TO 53); [right; left; reflexivity|reflexivity].
  - unfold do_oporcip. destruct (isline e); [split; reflexivity|]. apply (ID 54).
  - destruct (quit e) eqn:Q; [unfold do_from; rewrite Q; split; reflexivity|]. apply (FR 55); [right; left; reflexivity|reflexivity|reflexivity].
  - unfold do_opolrr. cbv zeta. apply (post_sort w e 121). destruct (quit e); [exact nil_untouched|apply refill_rets].
Qed.

Lemma sort_wait : forall w e t f m, force m = false -> get_delta_millisec w (now e) (sdelay m) < 3000 -> sort w e t f m = ([], m).
Proof. intros w e t f m F D. unfold sort. rewrite F. replace (_ <? 3000) with true by lia. reflexivity. Qed.
Definition tank_valve (n : Z) : vlv := if has n [24; 33; 34; 35; 111] then V09 else V08.
Definition dest (n : Z) (e : env) (fl : bool) : vlv :=
  if rich e && negb fl then tank_valve n else if some e && negb (noneutro e) then V12 else V11.
Lemma full_level : forall n e, In n sorting -> tank_full n e = (match tank_place n with TankS => lsh e | _ => lkh e end) && negb (forced n).
Proof.
  intros n e I. cbn [sorting In] in I. repeat (destruct I as [<-|I]; [cbn; try rewrite andb_true_r; try rewrite andb_false_r; reflexivity|]). destruct I.
Qed.
Lemma sort_does : forall w e n m, In n sorting -> force m = true \/ 3000 <= get_delta_millisec w (now e) (sdelay m) -> 0 <= now e ->
  let s := sort w e (tank_place n) (forced n) m in
  let st := latch w 20000 (tank_full n) (full m, full_t m) e in
  sm (snd s) = (st, (now e, false)) /\ forall v x, In x rets -> apply (fst s) v x = veqb x (dest n e (fst st)).
Proof.
  intros w e n m I F T. cbv zeta. unfold sort.
  replace (_ && negb (force m)) with false by (destruct F as [-> |F]; [rewrite andb_false_r; reflexivity|]; replace (_ <? 3000) with false by lia; reflexivity).
  cbv zeta. cbn [fst snd]. unfold latch. cbn [fst snd]. rewrite (full_level n e I).
  set (lv := _ && negb (forced n)).
  set (m2 := if lv then set_full true (now e) (set_sort (now e) false m) else set_sort (now e) false m).
  set (m3 := if full m2 && _ then _ else m2).
  assert (E : sm m3 = (if lv then (true, now e) else if full m && (20000 <? get_delta_millisec w (now e) (full_t m)) then (false, full_t m) else (full m, full_t m), (now e, false))).
  { unfold m3, m2. destruct lv; cbn -[get_delta_millisec].
    - rewrite delta_ge by lia. rewrite Z.sub_diag. reflexivity.
    - destruct (full m) eqn:Q; cbn -[get_delta_millisec]; [|unfold sm; cbn; rewrite Q; reflexivity].
      destruct (20000 <? _); unfold sm; cbn; rewrite ?Q; reflexivity. }
  split; [exact E|]. intros v x J.
  assert (Fl : full m3 = fst (if lv then (true, now e) else if full m && (20000 <? get_delta_millisec w (now e) (full_t m)) then (false, full_t m) else (full m, full_t m))).
  { apply (f_equal (fun s => fst (fst s))) in E. exact E. }
  rewrite <- Fl. unfold dest, tank_valve, tank_place. generalize (full m3). intros fl. rewrite apply_told.
  cbn [rets In] in J.
  destruct (has n [24; 33; 34; 35; 111]), (rich e), fl, (some e), (noneutro e); cbn [negb andb];
    repeat (destruct J as [<-|J]; [reflexivity|]); destruct J.
Qed.
(** After some samples [ss]. *)
Definition sampled (n : Z) (last : option Z) (ss : list env) (p : plant) : Prop :=
  match last with
  | None => ss = [] /\ force (memo p) = true /\ full (memo p) = false
  | Some t => force (memo p) = false /\ sdelay (memo p) = t /\ 0 <= t /\ kept 20000 (tank_full n) t ss (full (memo p), full_t (memo p))
              /\ exists d ss', ss = ss' ++ [d] /\ now d = t /\ forall x, In x rets -> vs p x = veqb x (sorted_to n (tank_valve n) ss d)
  end.
Lemma sampled_ext : forall n last ss p q, sm (memo q) = sm (memo p) -> (forall x, In x rets -> vs q x = vs p x) -> sampled n last ss p -> sampled n last ss q.
Proof.
  intros n last ss p q E V. unfold sm in E. inversion E as [[E1 E2 E3 E4]]. unfold sampled. rewrite E1, E2, E3, E4.
  destruct last; [|exact (fun H => H)]. intros (A & B & C & D & d & ss' & F & G & H). repeat (split; [assumption|]).
  exists d, ss'. repeat (split; [assumption|]). intros x I. rewrite (V x I). apply H, I.
Qed.
Lemma sample_step : forall w n last ss p e, In n sorting -> err e = false -> looks n e = true -> 0 <= now e -> (forall t, last = Some t -> t <= now e) ->
  sampled n last ss p ->
  let q := react w p (Do n, e) in
  if match last with None => true | Some t => 3000 <=? now e - t end then sampled n (Some (now e)) (ss ++ [e]) q else sampled n last ss q.
Proof.
  intros w n last ss p e I E L N O S q. pose proof (sort_call w e n (memo p) I E) as C. rewrite L in C. destruct C as [C1 C2].
  unfold q, react. cbn [fst snd]. rewrite E. cbn [memo vs].
  match goal with |- context [{| vs := ?a; memo := ?b; cur := ?c |}] => set (r := {| vs := a; memo := b; cur := c |}) end.
  destruct (match last with None => true | Some t => 3000 <=? now e - t end) eqn:B.
  - assert (F : force (memo p) = true \/ 3000 <= get_delta_millisec w (now e) (sdelay (memo p))).
    { destruct last as [t|]; [|left; apply S]. destruct S as (_ & -> & T & _). right. rewrite delta_ge by (specialize (O t eq_refl); lia). apply Z.leb_le, B. }
    pose proof (sort_does w e n (memo p) I F N) as [D1 D2]. rewrite D1 in C1.
    set (st := latch w 20000 (tank_full n) (full (memo p), full_t (memo p)) e) in *.
    assert (K : kept 20000 (tank_full n) (now e) (ss ++ [e]) st).
    { destruct last as [t|].
      - destruct S as (_ & _ & T & K & _). apply (latch_kept w 20000 (tank_full n) t ss); auto; lia.
      - destruct S as (-> & _ & FL). unfold st. rewrite FL. apply (latch_kept w 20000 (tank_full n) (now e) []); auto; try lia. apply kept_init. }
    pose proof (f_equal fst C1 : (full (memo r), full_t (memo r)) = st) as X1.
    pose proof (f_equal (fun k => fst (snd k)) C1 : sdelay (memo r) = now e) as X2.
    pose proof (f_equal (fun k => snd (snd k)) C1 : force (memo r) = false) as X3.
    unfold sampled. rewrite X1. split; [exact X3|]. split; [exact X2|]. split; [exact N|]. split; [exact K|].
    exists e, ss. split; [reflexivity|]. split; [reflexivity|]. intros x J. cbn [vs r].
    rewrite (C2 _ x J), (D2 _ x J). unfold dest, sorted_to. rewrite (kept_lately _ _ _ _ _ K). reflexivity.
  - destruct last as [t|]; [|discriminate B]. pose proof S as (S1 & S2 & S3 & _).
    assert (W : sort w e (tank_place n) (forced n) (memo p) = ([], memo p)).
    { apply sort_wait; [exact S1|]. rewrite S2, delta_ge by (specialize (O t eq_refl); lia). apply Z.leb_gt, B. }
    rewrite W in C1, C2. apply (sampled_ext n (Some t) ss p r); [exact C1| |exact S]. intros x J. exact (C2 _ x J).
Qed.
Lemma look_err : forall n e, looks n e = true -> err e = false.
Proof. intros n e H. unfold looks in H. destruct (err e); [discriminate H|reflexivity]. Qed.
Lemma sort_run : forall w n, In n sorting -> forall l last ss p t0, 0 <= t0 -> (forall t, last = Some t -> t <= t0) ->
  ordered t0 (filter (looks n) l) -> sampled n last ss p ->
  exists last', sampled n last' (ss ++ samples last (filter (looks n) l)) (react_all w p (calls n l)).
Proof.
  intros w n I l. induction l as [|e r IH]; intros last ss p t0 T0 O D S.
  - cbn. rewrite app_nil_r. exists last. exact S.
  - change (react_all w p (calls n (e :: r))) with (react_all w (react w p (Do n, e)) (calls n r)). cbn [filter] in *.
    destruct (looks n e) eqn:L.
    + cbn [ordered] in D. destruct D as [D1 D2]. pose proof (look_err n e L) as E.
      pose proof (sample_step w n last ss p e I E L ltac:(lia) ltac:(intros t Ht; specialize (O t Ht); lia) S) as ST. cbv zeta in ST.
      cbn [samples]. destruct (match last with None => true | Some t => 3000 <=? now e - t end) eqn:B.
      * destruct (IH (Some (now e)) (ss ++ [e]) _ (now e) ltac:(lia) ltac:(intros t Ht; inversion Ht; lia) D2 ST) as (l' & A1).
        exists l'. rewrite <- app_assoc in A1. exact A1.
      * apply (IH last ss _ (now e)); [lia|intros t Ht; specialize (O t Ht); lia|exact D2|exact ST].
    + apply (IH last ss _ t0); [exact T0|exact O|exact D|].
      destruct (err e) eqn:E; [unfold react; cbn [fst snd]; rewrite E; exact S|].
      pose proof (sort_call w e n (memo p) I E) as C. rewrite L in C. destruct C as [C1 C2].
      unfold react. cbn [fst snd]. rewrite E, C1, C2. apply (sampled_ext n last ss p); [reflexivity|reflexivity|exact S].
Qed.
Definition final (t : Z) (ss : list env) : Z := fold_left (fun _ d => now d) ss t.
Lemma recent : forall l t t0, t <= t0 -> ordered t0 l ->
  t <= final t (samples (Some t) l) /\ forall e, In e l -> now e - final t (samples (Some t) l) < 3000.
Proof.
  induction l as [|e r IH]; intros t t0 T O; [split; [cbn; lia|intros e []]|]. cbn [ordered] in O. destruct O as [O1 O2]. cbn [samples].
  destruct (3000 <=? now e - t) eqn:B.
  - change (final t (e :: samples (Some (now e)) r)) with (final (now e) (samples (Some (now e)) r)).
    destruct (IH (now e) (now e) ltac:(lia) O2) as [A1 A2]. split; [lia|]. intros x [<-|Hx]; [lia|exact (A2 x Hx)].
  - destruct (IH t (now e) ltac:(lia) O2) as [A1 A2]. split; [lia|]. intros x [<-|Hx]; [lia|exact (A2 x Hx)].
Qed.
Lemma recent_first : forall l t0 ss d, ordered t0 l -> samples None l = ss ++ [d] -> forall e, In e l -> now e - now d < 3000.
Proof.
  intros [|a r] t0 ss d O E; [intros e []|]. cbn [ordered samples] in *. destruct O as [O1 O2].
  destruct (recent r (now a) (now a) ltac:(lia) O2) as [A1 A2].
  assert (F : final (now a) (samples (Some (now a)) r) = now d).
  { change (final (now a) (samples (Some (now a)) r)) with (final 0 (a :: samples (Some (now a)) r)). rewrite E.
    unfold final. rewrite fold_left_app. reflexivity. }
  rewrite F in A1, A2. intros e [<-|He]; [lia|exact (A2 e He)].
Qed.
Lemma sorts : forall w n tank p ag e0 l ss d, sort_tank n = Some tank -> 0 <= now e0 -> ordered (now e0) (filter (looks n) l) ->
  samples None (filter (looks n) l) = ss ++ [d] ->
  forall x, In x rets -> vs (react_all w p ((Init n ag, e0) :: calls n l)) x = veqb x (sorted_to n tank (ss ++ [d]) d).
Proof.
  intros w n tank p ag e0 l ss d T N O E.
  assert (I : In n sorting /\ tank = tank_valve n).
  { unfold sort_tank in T. unfold tank_valve. destruct (has n [24; 33; 34; 35; 111]) eqn:H1.
    - inversion T. split; [|reflexivity]. apply existsb_exists in H1. destruct H1 as (k & Hk & Ek). apply Z.eqb_eq in Ek. subst.
      unfold sorting. cbn [In] in *. tauto.
    - destruct (has n [44; 53; 54; 55; 121]) eqn:H2; [|discriminate T]. inversion T. split; [|reflexivity].
      apply existsb_exists in H2. destruct H2 as (k & Hk & Ek). apply Z.eqb_eq in Ek. subst. unfold sorting. cbn [In] in *. tauto. }
  destruct I as [I ->]. change (react_all w p ((Init n ag, e0) :: calls n l)) with (react_all w (react w p (Init n ag, e0)) (calls n l)).
  assert (S : sampled n None [] (react w p (Init n ag, e0))).
  { split; [reflexivity|]. cbn [react fst snd memo]. unfold init_mem.
    replace (one_of n [11; 28; 48; 66; 77]) with false; [split; reflexivity|].
    symmetry. cbn [sorting In] in I. repeat (destruct I as [<-|I]; [reflexivity|]). destruct I. }
  destruct (sort_run w n I l None [] _ (now e0) N ltac:(discriminate) O S) as (last & K). cbn [app] in K. rewrite E in K.
  destruct last as [t|]; [|destruct K as (K & _); destruct ss; discriminate K].
  destruct K as (_ & _ & _ & _ & d' & ss' & K1 & _ & K2). apply app_inj_tail in K1. destruct K1 as [-> ->]. exact K2.
Qed.
