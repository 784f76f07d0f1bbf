(** Proofs about the routes: which valves may be open. *)
From Coq Require Import ZArith List Bool Lia.
From Verif Require Import CipModel CipSpec CipProofs CipProofs2 CipProofs3 RteModel RteSpec RteProofs.
Import ListNotations.
Open Scope Z_scope.

Lemma veqb_eq : forall x y, veqb x y = true <-> x = y.
Proof. intros x y. destruct x, y; cbn; split; congruence. Qed.
(** The last order to a valve. *)
Fixpoint told (cs : list order) (x : vlv) : option bool :=
  match cs with
  | [] => None
  | c :: r => match told r x with Some b => Some b | None => if veqb x (fst c) then Some (snd c) else None end
  end.
Lemma apply_told : forall cs v x, apply cs v x = match told cs x with Some b => b | None => v x end.
Proof.
  induction cs as [|c r IH]; intros v x; [reflexivity|]. change (apply (c :: r) v x) with (apply r (obey v c) x). rewrite IH.
  cbn [told]. destruct (told r x); [reflexivity|]. unfold obey. destruct (veqb x (fst c)); reflexivity.
Qed.

Definition nested {A B C : Type} (ks : list A) (bs : A -> list B) (ts : A -> list C) (f : B -> A -> C -> bool) : bool :=
  forallb (fun m => (fun t => forallb (fun n => forallb (f n m) t) (bs m)) (ts m)) ks.
Lemma nested_use : forall {A B C : Type} (ks : list A) (bs : A -> list B) (ts : A -> list C) (f : B -> A -> C -> bool),
  nested ks bs ts f = true -> forall n m t, In m ks -> In n (bs m) -> In t (ts m) -> f n m t = true.
Proof.
  intros A B C ks bs ts f H n m t Hm Hn Ht. unfold nested in H. rewrite forallb_forall in H. specialize (H m Hm).
  cbv beta in H. rewrite forallb_forall in H. specialize (H n Hn). rewrite forallb_forall in H. exact (H t Ht).
Qed.

(** * What may be open in a step *)

Section Neutral.
Context (nn : bool).
Definition watched : list vlv := [V01; V02; V03; V04; V07; V08; V09; V10; V11; V12].
Definition isin (x : vlv) (l : list vlv) : bool := existsb (veqb x) l.
Definition route (n : Z) : list vlv := filter (fun x => negb (nn && veqb x V12)) (sources n ++ returns n).
Definition excl (n : Z) (x y : vlv) : bool :=
  negb (veqb x y)
  && ((isin x [V07; V08; V09] && isin y [V07; V08; V09])
      || (isin x [V07; V08; V09; V10; V11; V12] && isin y [V07; V08; V09; V10; V11; V12] && negb (fills_buffer n))).
Definition inv (n : Z) (v : valves) : Prop :=
  (forall x, In x watched -> v x = true -> isin x (route n) = true)
  /\ (forall x y, excl n x y = true -> v x = true -> v y = true -> False).
Definition pairs (l : list vlv) : list (vlv * vlv) := flat_map (fun x => map (pair x) l) l.
Definition check (n m : Z) (c : vlv -> option bool) : bool :=
  let may x := match c x with Some b => b | None => isin x (route n) end in
  let carried x := match c x with None => true | _ => false end in
  forallb (fun x => negb (may x) || isin x (route m)) watched
  && forallb (fun xy => negb (excl m (fst xy) (snd xy)) || negb (may (fst xy) && may (snd xy))
                        || (carried (fst xy) && carried (snd xy) && excl n (fst xy) (snd xy))) (pairs watched).
Lemma in_pairs : forall l x y, In x l -> In y l -> In (x, y) (pairs l).
Proof. intros l x y Hx Hy. apply in_flat_map. exists x. split; [exact Hx|]. apply in_map, Hy. Qed.
Lemma excl_watched : forall n x y, excl n x y = true -> In x watched /\ In y watched.
Proof. intros n x y H. destruct x, y; cbn in H; try discriminate H; unfold watched; cbn [In]; tauto. Qed.
Lemma check_sound : forall n m cs v, check n m (told cs) = true -> inv n v -> inv m (apply cs v).
Proof.
  intros n m cs v C [A B]. unfold check in C. apply andb_prop in C. destruct C as [C1 C2].
  rewrite forallb_forall in C1, C2.
  assert (M : forall x, In x watched -> apply cs v x = true -> match told cs x with Some b => b | None => isin x (route n) end = true).
  { intros x W H. rewrite apply_told in H. destruct (told cs x); [exact H|apply A; assumption]. }
  split.
  - intros x W H. specialize (C1 x W). rewrite (M x W H) in C1. exact C1.
  - intros x y E Hx Hy. destruct (excl_watched m x y E) as [Wx Wy]. specialize (C2 (x, y) (in_pairs _ _ _ Wx Wy)).
    cbn [fst snd] in C2. rewrite E, (M x Wx Hx), (M y Wy Hy) in C2. cbn [negb orb andb] in C2.
    rewrite apply_told in Hx, Hy. destruct (told cs x); [discriminate C2|]. destruct (told cs y); [discriminate C2|].
    exact (B x y C2 Hx Hy).
Qed.

(** * Setting up a step *)

Definition env_of (a b c d e f h i j k : bool) : env :=
  {| now := 0; ll := false; lm := a; lh := false; lwh := b; lkh := false; lsh := false; lkl := false; lsl := false;
     wempty := false; rich := false; some := false; tankw := c; progk := d; rinse := e; isline := f; noneutro := nn;
     scold := h; circs := i; circk := j; feeds := false; feedk := false; feedw := false; nostop := false; most := 0;
     keep := k; err := false; quit := false |}.
Lemma init_env : forall e n, noneutro e = nn -> init_orders e n
  = init_orders (env_of (lm e) (lwh e) (tankw e) (progk e) (rinse e) (isline e) (scold e) (circs e) (circk e) (keep e)) n.
Proof. intros e n H. unfold env_of. rewrite <- H. reflexivity. Qed.
Definition bools : list bool := [true; false].
Lemma in_bools : forall b, In b bools. Proof. intros []; cbn; auto. Qed.
(** Which inputs matter in a step: the others are set to [false]. *)
Definition all_envs : list env :=
  flat_map (fun a => flat_map (fun b => flat_map (fun c => flat_map (fun d => flat_map (fun e => flat_map (fun f =>
  flat_map (fun h => flat_map (fun i => flat_map (fun j => map (fun k => env_of a b c d e f h i j k) bools)
  bools) bools) bools) bools) bools) bools) bools) bools) bools.
Lemma in_all : forall a b c d e f h i j k, In (env_of a b c d e f h i j k) all_envs.
Proof.
  intros. unfold all_envs.
  do 9 (apply in_flat_map; eexists; split; [apply in_bools|]; cbv beta).
  apply in_map_iff. eexists. split; [reflexivity|apply in_bools].
Qed.
Definition tell (cs : list order) : list (option bool) := map (told cs) watched.
Fixpoint look (x : vlv) (ws : list vlv) (ts : list (option bool)) : option bool :=
  match ws, ts with w :: r, t :: u => if veqb x w then t else look x r u | _, _ => None end.
Lemma look_tell : forall cs x ws, In x ws -> look x ws (map (told cs) ws) = told cs x.
Proof.
  intros cs x ws. induction ws as [|w r IH]; intros H; [destruct H|]. cbn [look map].
  destruct (veqb x w) eqn:E; [apply veqb_eq in E; subst; reflexivity|]. apply IH. destruct H as [<-|H]; [|exact H].
  rewrite (proj2 (veqb_eq w w) eq_refl) in E. discriminate E.
Qed.
Lemma check_ext : forall n m c d, (forall x, In x watched -> c x = d x) -> check n m c = check n m d.
Proof.
  intros n m c d H. unfold check. f_equal.
  - assert (X : forall l, (forall x, In x l -> In x watched) ->
      forallb (fun x => negb match c x with Some b => b | None => isin x (route n) end || isin x (route m)) l
      = forallb (fun x => negb match d x with Some b => b | None => isin x (route n) end || isin x (route m)) l).
    { induction l as [|x l IH]; intros Q; [reflexivity|]. cbn [forallb]. rewrite (H x) by (apply Q; left; reflexivity).
      rewrite IH by (intros; apply Q; right; assumption). reflexivity. }
    apply X. auto.
  - assert (X : forall l, (forall xy, In xy l -> In (fst xy) watched /\ In (snd xy) watched) ->
      forallb (fun xy => negb (excl m (fst xy) (snd xy)) || negb (match c (fst xy) with Some b => b | None => isin (fst xy) (route n) end && match c (snd xy) with Some b => b | None => isin (snd xy) (route n) end)
                        || (match c (fst xy) with None => true | _ => false end && match c (snd xy) with None => true | _ => false end && excl n (fst xy) (snd xy))) l
      = forallb (fun xy => negb (excl m (fst xy) (snd xy)) || negb (match d (fst xy) with Some b => b | None => isin (fst xy) (route n) end && match d (snd xy) with Some b => b | None => isin (snd xy) (route n) end)
                        || (match d (fst xy) with None => true | _ => false end && match d (snd xy) with None => true | _ => false end && excl n (fst xy) (snd xy))) l).
    { induction l as [|x l IH]; intros Q; [reflexivity|]. cbn [forallb]. destruct (Q x (or_introl eq_refl)) as [Q1 Q2].
      rewrite (H _ Q1), (H _ Q2). rewrite IH by (intros; apply Q; right; assumption). reflexivity. }
    apply X. intros [x y] I. unfold pairs in I. apply in_flat_map in I. destruct I as (a & Ia & J). apply in_map_iff in J.
    destruct J as (b & E & Ib). inversion E; subst. auto.
Qed.
(** The different lists of last orders that the settings lead to. *)
Definition tbeq (a b : list (option bool)) : bool :=
  if list_eq_dec (fun x y : option bool => ltac:(decide equality; apply bool_dec) : {x = y} + {x <> y}) a b then true else false.
Definition distinct (ts : list (list (option bool))) : list (list (option bool)) :=
  fold_left (fun acc t => if existsb (tbeq t) acc then acc else t :: acc) ts [].
Lemma distinct_in : forall ts acc t, In t ts \/ In t acc -> In t (fold_left (fun acc t => if existsb (tbeq t) acc then acc else t :: acc) ts acc).
Proof.
  induction ts as [|u r IH]; intros acc t H; cbn [fold_left]; [destruct H as [[]|H]; exact H|]. apply IH.
  destruct H as [[<-|H]|H]; [|left; exact H|right; destruct (existsb _ _); [exact H|right; exact H]].
  right. destruct (existsb (tbeq u) acc) eqn:E; [|left; reflexivity]. apply existsb_exists in E. destruct E as (v & Iv & Ev).
  unfold tbeq in Ev. destruct (list_eq_dec _ u v) as [-> |]; [exact Iv|discriminate Ev].
Qed.
Lemma in_distinct : forall ts t, In t ts -> In t (distinct ts).
Proof. intros ts t H. unfold distinct. apply distinct_in. left. exact H. Qed.
Definition befores (m : Z) : list Z := filter (fun n => (m =? n) || (m =? 555) || has m (nexts n)) known.
Definition tells (m : Z) : list (list (option bool)) := distinct (map (fun e => tell (init_orders e m)) all_envs).
Definition ok3 (n m : Z) (t : list (option bool)) : bool := check n m (fun x => look x watched t).
Lemma ok3_use : forall n m cs, ok3 n m (tell cs) = true -> check n m (told cs) = true.
Proof.
  intros n m cs H. unfold ok3 in H. rewrite <- H. apply check_ext. intros x W. symmetry. exact (look_tell cs x watched W).
Qed.
Lemma tells_in : forall m e, In e all_envs -> In (tell (init_orders e m)) (tells m).
Proof. intros m e E. unfold tells. generalize dependent all_envs. intros l E. apply in_distinct. exact (in_map (fun e => tell (init_orders e m)) l e E). Qed.
Lemma init_ok_use : nested known befores tells ok3 = true -> forall n m e, In m known -> In n (befores m) -> In e all_envs ->
  check n m (told (init_orders e m)) = true.
Proof.
  intros C n m e Km B E.
  pose proof (tells_in m e E) as T.
  pose proof (nested_use known befores tells ok3 C n m (tell (init_orders e m)) Km B T) as D. exact (ok3_use _ _ _ D).
Qed.
End Neutral.
Lemma init_ok_1 : nested known befores (tells true) (ok3 true) = true.
Proof. vm_compute. reflexivity. Qed.
Lemma init_ok_2 : nested known befores (tells false) (ok3 false) = true.
Proof. vm_compute. reflexivity. Qed.
Lemma init_check : forall nn n m e, In m known -> In n (befores m) -> In e (all_envs nn) ->
  check nn n m (told (init_orders e m)) = true.
Proof. intros []; [exact (init_ok_use true init_ok_1)|exact (init_ok_use false init_ok_2)]. Qed.
Lemma known_steps : forall m, isknown m = true -> In m known.
Proof. intros m H. apply one_of_in, H. Qed.
Lemma init_inv : forall nn e n m v, noneutro e = nn -> isknown n = true -> isknown m = true ->
  m = n \/ m = 555 \/ In m (nexts n) -> inv nn n v -> inv nn m (apply (init_orders e m) v).
Proof.
  intros nn e n m v N Kn Km H V. apply (check_sound nn n m); [|exact V].
  rewrite (init_env nn e m N). apply init_check; [exact (known_steps m Km)| |apply in_all].
  apply filter_In. split; [exact (known_steps n Kn)|]. destruct H as [-> |[-> |H]].
  - rewrite Z.eqb_refl. reflexivity.
  - rewrite orb_true_r. reflexivity.
  - apply orb_true_iff. right. apply existsb_exists. exists m. split; [exact H|apply Z.eqb_refl].
Qed.
