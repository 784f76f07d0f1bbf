(** Lemmas about valves: one valve seen in a history of all of them. *)
From Coq Require Import ZArith List Bool Lia.
From Verif Require Import Base TimeModel ValveModel ValveSpec.
Import ListNotations.
Open Scope Z_scope.

Fixpoint cnt (d : Z) (q : list Z) : nat :=
  match q with [] => O | x :: r => if x =? d then S (cnt d r) else cnt d r end.
Fixpoint dues (w : Z) (k : kind) (now : Z) (i : din) (dl : Z) (n : nat) (s : vst) : vst :=
  match n with O => s | S m => dues w k now i dl m (due w k now i dl s) end.
Fixpoint fins (w : Z) (k : kind) (now : Z) (i : din) (md : Z) (n : nat) (s : vst) : nat * vst :=
  match n with
  | O => (O, s)
  | S m =>
      let a := finished w k now i md s in
      let r := fins w k now i md m (snd a) in
      ((if fst a then fst r else S (fst r)), snd r)
  end.
Definition eval1 (w : Z) (k : kind) (E : env) (i : din) (s : vst) (n : nat) : vst * nat :=
  let s := match k with Bist => bist_eval w (now E) i s | _ => s end in
  let s := dues w k (now E) i (delay E) n s in
  let r := fins w k (now E) i (mdelay E) n s in
  (snd r, fst r).
Definition step1 (w : Z) (k : kind) (d : Z) (a : vst * nat) (x : order * env) : vst * nat :=
  let E := snd x in let s := fst a in let n := snd a in let i := ins E d in
  match fst x with
  | On y => if y =? d then (on k (now E) i s, n) else a
  | Off y => if y =? d then let r := off k (now E) i s in (fst r, if snd r then S n else n) else a
  | Instant y => if y =? d then (instant_off k (now E) i s, n) else a
  | Set_ y m => if y =? d then (set_state k (now E) i m s, n) else a
  | Seat y u => if y =? d then (open_seat k u (now E) i s, n) else a
  | Cmd y m => if y =? d then (direct_set_state k (now E) i m s, n) else a
  | Man y m =>
      if y =? d then if m =? 0 then (wman false s, n) else if m =? 1 then (wman true s, n) else a else a
  | Poll y => if y =? d then (snd (get_state w k (now E) i s), n) else a
  | Eval => eval1 w k E i s n
  end.
Definition view (p : plant) (d : Z) : vst * nat := (vs p d, cnt d (queue p)).

Lemma cnt_app d q r : cnt d (q ++ r) = (cnt d q + cnt d r)%nat.
Proof. induction q; cbn; [reflexivity|]. destruct (a =? d); rewrite IHq; reflexivity. Qed.

Lemma fold_bist w E B p d :
  let p' := fold_left (fun p d => upd p d (bist_eval w (now E) (ins E d) (vs p d))) B p in
  queue p' = queue p /\
  ((In d B -> vs p' d = bist_eval w (now E) (ins E d) (vs p d)) /\ (~ In d B -> vs p' d = vs p d)).
Proof.
  assert (Hidem : forall s, bist_eval w (now E) (ins E d) (bist_eval w (now E) (ins E d) s)
    = bist_eval w (now E) (ins E d) s).
  { intros s. unfold bist_eval.
    destruct s as [a b c rg ts mn au sw tf mi tm st op cl]. cbn [o0 o1 t_sw].
    destruct a, b, (di0 (ins E d)), (di1 (ins E d)), (p_time (ins E d) <? get_delta_millisec w (now E) ts) eqn:L;
      cbn [andb orb w0 w1 o0 o1 t_sw]; rewrite ?L; reflexivity. }
  revert p. induction B as [|x B IH]; intros p; cbn [fold_left].
  { cbn. split; [reflexivity|]. split; [intros []|reflexivity]. }
  specialize (IH (upd p x (bist_eval w (now E) (ins E x) (vs p x)))).
  cbn zeta in IH |- *. destruct IH as (Hq & Hin & Hout). cbn [upd queue vs] in Hq, Hin, Hout.
  split; [exact Hq|]. split.
  - intros Hd. destruct (in_dec Z.eq_dec d B) as [I|I].
    + rewrite (Hin I). destruct (d =? x) eqn:Ex; [|reflexivity].
      apply Z.eqb_eq in Ex. subst x. apply Hidem.
    + rewrite (Hout I). destruct Hd as [->|]; [|contradiction]. rewrite Z.eqb_refl. reflexivity.
  - intros Hd. cbn in Hd. rewrite Hout by tauto.
    destruct (d =? x) eqn:Ex; [apply Z.eqb_eq in Ex; subst; tauto|reflexivity].
Qed.

Lemma fold_due w K E q p d :
  let p' := fold_left (fun p d => upd p d (due w (K d) (now E) (ins E d) (delay E) (vs p d))) q p in
  queue p' = queue p /\ vs p' d = dues w (K d) (now E) (ins E d) (delay E) (cnt d q) (vs p d).
Proof.
  revert p. induction q as [|x q IH]; intros p; cbn [fold_left cnt]; [split; reflexivity|].
  specialize (IH (upd p x (due w (K x) (now E) (ins E x) (delay E) (vs p x)))).
  cbn zeta in IH |- *. destruct IH as (Hq & Hv). split; [exact Hq|]. rewrite Hv. cbn [upd vs].
  rewrite (Z.eqb_sym d x). destruct (x =? d) eqn:Ex; [|reflexivity].
  apply Z.eqb_eq in Ex. subst x. reflexivity.
Qed.

Lemma sweep_view w K E q p d :
  view (sweep w K E q p) d =
  let r := fins w (K d) (now E) (ins E d) (mdelay E) (cnt d q) (vs p d) in (snd r, fst r).
Proof.
  revert p. induction q as [|x q IH]; intros p; cbn [sweep cnt]; [reflexivity|].
  set (a := finished w (K x) (now E) (ins E x) (mdelay E) (vs p x)).
  specialize (IH (upd p x (snd a))). unfold view in IH |- *. cbn [vs queue] in IH |- *.
  injection IH as Iv Ic. cbn [upd vs] in Iv, Ic.
  rewrite Iv. rewrite (Z.eqb_sym d x) in *.
  destruct (x =? d) eqn:Ex.
  - apply Z.eqb_eq in Ex. subst x. cbn [fins]. fold a. cbv zeta. cbn [fst snd].
    destruct (fst a); cbn [cnt]; rewrite ?Z.eqb_refl, ?Ic; reflexivity.
  - destruct (fst a); cbn [cnt]; rewrite ?Ex, ?Ic; reflexivity.
Qed.

Section One.
Variables (w : Z) (K : Z -> kind) (B : list Z).
Hypothesis HB : forall d, In d B <-> K d = Bist.

Lemma eval_view E p d :
  view (evaluate w K B E p) d = eval1 w (K d) E (ins E d) (vs p d) (cnt d (queue p)).
Proof.
  unfold evaluate.
  pose proof (fold_bist w E B p d) as H. cbn zeta in H.
  set (p1 := fold_left _ B p) in *. destruct H as (Hq & Hin & Hout).
  assert (Hv : vs p1 d = match K d with Bist => bist_eval w (now E) (ins E d) (vs p d) | _ => vs p d end).
  { destruct (in_dec Z.eq_dec d B) as [I|I].
    - rewrite (Hin I). apply HB in I. rewrite I. reflexivity.
    - rewrite (Hout I). destruct (K d) eqn:Kd; try reflexivity. exfalso. apply I, HB, Kd. }
  destruct (queue p1) as [|y q] eqn:Eq.
  - rewrite <- Hq. unfold view. rewrite Hv, Eq. unfold eval1. cbn. reflexivity.
  - cbv zeta. rewrite sweep_view.
    pose proof (fold_due w K E (y :: q) p1 d) as D. cbn zeta in D. destruct D as (_ & D).
    rewrite D, Hv. rewrite <- Hq. unfold eval1. cbv zeta. reflexivity.
Qed.

Lemma step_view x p d : view (step w K B p x) d = step1 w (K d) d (view p d) x.
Proof.
  destruct x as (o, E). unfold step, step1. cbn [fst snd].
  destruct o as [y|y|y|y m|y u|y m|y m|y|]; cbn [view fst snd];
    try (unfold view; cbn [upd vs queue]; rewrite (Z.eqb_sym d y); destruct (y =? d) eqn:Ey;
         [apply Z.eqb_eq in Ey; subst y|]; reflexivity).
  - cbv zeta. unfold view. destruct (snd (off (K y) (now E) (ins E y) (vs p y))) eqn:So; cbn [upd vs queue];
      rewrite (Z.eqb_sym d y), ?cnt_app; cbn [cnt]; (destruct (y =? d) eqn:Ey;
        [apply Z.eqb_eq in Ey; subst y; rewrite So, ?Nat.add_1_r|rewrite ?Nat.add_0_r]); reflexivity.
  - unfold view. destruct (m =? 0); [|destruct (m =? 1)]; cbn [upd vs queue]; rewrite ?(Z.eqb_sym d y);
      (destruct (y =? d) eqn:Ey; [apply Z.eqb_eq in Ey; subst y|]); reflexivity.
  - apply eval_view.
Qed.

Lemma run_view l p d : view (run w K B p l) d = fold_left (step1 w (K d) d) l (view p d).
Proof.
  revert p. induction l as [|x l IH]; intros p; cbn [fold_left]; [reflexivity|].
  unfold run in *. cbn [fold_left]. rewrite IH, step_view. reflexivity.
Qed.
Lemma run_vs l p d : vs (run w K B p l) d = fst (fold_left (step1 w (K d) d) l (view p d)).
Proof. rewrite <- run_view. reflexivity. Qed.
End One.
