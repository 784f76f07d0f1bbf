(** Proofs about the actions of a step: what one device is told. *)
From Coq Require Import ZArith List Bool Lia QArith.
From Verif Require Import Base FTextModel FloatModel FloatProofs FloatProofs2 AioProofs TimeModel OpModel OpSpec ActModel ActSpec.
Import ListNotations.
Open Scope Z_scope.

(** * The last word *)

Lemma over_assoc x y z : over (over x y) z = over x (over y z).
Proof. destruct x, y, z; reflexivity. Qed.
Lemma over_none x : over x None = x.
Proof. reflexivity. Qed.
Lemma none_over x : over None x = x.
Proof. destruct x; reflexivity. Qed.
Lemma heard_over o x y : heard o (over x y) = heard (heard o x) y.
Proof. destruct x, y; reflexivity. Qed.

Lemma latest_app {A} (f : A -> option Z) l m : latest f (l ++ m) = over (latest f l) (latest f m).
Proof. induction l as [|x r IH]; cbn; [now rewrite none_over|]. rewrite IH, over_assoc. reflexivity. Qed.
Lemma latest_map {A B} (f : B -> option Z) (g : A -> B) l : latest f (map g l) = latest (fun x => f (g x)) l.
Proof. induction l as [|x r IH]; cbn; [reflexivity|]. rewrite IH. reflexivity. Qed.
Lemma latest_flat {A B} (f : B -> option Z) (g : A -> list B) l : latest f (flat_map g l) = latest (fun x => latest f (g x)) l.
Proof. induction l as [|x r IH]; cbn; [reflexivity|]. rewrite latest_app, IH. reflexivity. Qed.
Lemma latest_ext {A} (f g : A -> option Z) l : (forall x, In x l -> f x = g x) -> latest f l = latest g l.
Proof. induction l as [|x r IH]; cbn; [reflexivity|]. intros H. rewrite IH, H; auto. Qed.
Lemma latest_none {A} (f : A -> option Z) l : (forall x, In x l -> f x = None) -> latest f l = None.
Proof. induction l as [|x r IH]; cbn; [reflexivity|]. intros H. rewrite IH, H; auto. Qed.
Lemma latest_const d (c : option Z) l : latest (fun x => if d =? x then c else None) l = if has d l then c else None.
Proof.
  induction l as [|x r IH]; cbn; [reflexivity|]. rewrite IH. unfold has. destruct (d =? x), (existsb _ r), c; reflexivity.
Qed.
Lemma latest_number {A} (f : nat -> A -> option Z) l n :
  latest (fun x => f (fst x) (snd x)) (number n l) = latest_at f n l.
Proof. revert n. induction l as [|x r IH]; intros n; cbn; [reflexivity|]. rewrite IH. reflexivity. Qed.
Lemma latest_at_ext {A} (f g : nat -> A -> option Z) l n : (forall k x, In x l -> f k x = g k x) -> latest_at f n l = latest_at g n l.
Proof. revert n. induction l as [|x r IH]; intros n H; cbn; [reflexivity|]. rewrite H by (left; reflexivity). rewrite IH; [reflexivity|]. intros k z I. apply H. right. exact I. Qed.
Lemma latest_at_none {A} (f : nat -> A -> option Z) l n : (forall k x, In x l -> f k x = None) -> latest_at f n l = None.
Proof. revert n. induction l as [|x r IH]; intros n H; cbn; [reflexivity|]. rewrite H by (left; reflexivity). rewrite IH; [reflexivity|]. intros k z I. apply H. right. exact I. Qed.

Lemma has_In d l : has d l = true <-> In d l.
Proof.
  unfold has. rewrite existsb_exists. split.
  - intros (x & I & E). apply Z.eqb_eq in E. subst. exact I.
  - intros I. exists d. split; [exact I|apply Z.eqb_refl].
Qed.
Lemma has_not d l : has d l = false <-> ~ In d l.
Proof. rewrite <- has_In. destruct (has d l); split; congruence. Qed.

(** * Commands *)

Definition ws (d : Z) (c : cmd) : option Z :=
  match c with
  | On x => if d =? x then Some 1 else None
  | Off x => if d =? x then Some 0 else None
  | SetState x n => if d =? x then Some n else None
  | _ => None
  end.
Definition wv (d : Z) (c : cmd) : option Z :=
  match c with
  | Off x => if d =? x then Some 0 else None
  | SetValue x v => if d =? x then Some v else None
  | _ => None
  end.
(** 1: the flag is set, 0: it is reset. *)
Definition wf (d : Z) (c : cmd) : option Z :=
  match c with Seat x b => if d =? x then Some (if b then 1 else 0) else None | _ => None end.
Definition flag_of (b : bool) (x : option Z) : bool := match x with Some v => v =? 1 | None => b end.

Lemma zero_bits : f_of_Z 0 = 0. Proof. reflexivity. Qed.
Lemma minus_bits : f_of_Z (-1) = 3212836864. Proof. vm_compute. reflexivity. Qed.

Lemma exec_state h d l D : h d = false -> d_state (exec h l D d) = heard (d_state (D d)) (latest (ws d) l).
Proof.
  intros H. unfold exec. revert D. induction l as [|c r IH]; intros D; cbn [fold_left latest]; [reflexivity|].
  rewrite IH, heard_over. f_equal.
  destruct c as [x|x|x n|x v|x b]; cbn [apply ws]; try (destruct (h x) eqn:X); unfold put;
    destruct (Z.eqb_spec d x); subst; cbn; congruence.
Qed.
Lemma exec_value h d l D : h d = false -> d_value (exec h l D d) = heard (d_value (D d)) (latest (wv d) l).
Proof.
  intros H. unfold exec. revert D. induction l as [|c r IH]; intros D; cbn [fold_left latest]; [reflexivity|].
  rewrite IH, heard_over. f_equal.
  destruct c as [x|x|x n|x v|x b]; cbn [apply wv]; try (destruct (h x) eqn:X); unfold put;
    destruct (Z.eqb_spec d x); subst; cbn; try congruence.
Qed.
Lemma exec_seat h d l D : d_seat (exec h l D d) = flag_of (d_seat (D d)) (latest (wf d) l).
Proof.
  unfold exec. revert D. induction l as [|c r IH]; intros D; cbn [fold_left latest]; [reflexivity|].
  rewrite IH. replace (d_seat (apply h D c d)) with (flag_of (d_seat (D d)) (wf d c)).
  { destruct (wf d c), (latest (wf d) r); reflexivity. }
  destruct c as [x|x|x n|x v|x b]; cbn [apply wf]; try (destruct (h x)); unfold put;
    destruct (Z.eqb_spec d x); subst; try (destruct b); reflexivity.
Qed.
(** In manual mode only the flag can change. *)
Lemma exec_held h d l D : h d = true -> d_state (exec h l D d) = d_state (D d) /\ d_value (exec h l D d) = d_value (D d).
Proof.
  intros H. unfold exec. revert D. induction l as [|c r IH]; intros D; cbn [fold_left]; [auto|].
  destruct (IH (apply h D c)) as [-> ->].
  destruct c as [x|x|x n|x v|x b]; cbn [apply]; try (destruct (h x) eqn:X); unfold put; auto;
    destruct (Z.eqb_spec d x); subst; auto; congruence.
Qed.

(** * Lists of an action that is empty *)

Lemma main_row (g : groups) : main g = row g.
Proof. destruct g; reflexivity. Qed.
Lemma empty_row (g : groups) l : is_empty g = true -> In l (row g) -> l = [].
Proof.
  unfold is_empty. destruct g as [|x r]; cbn; [intros _ []|]. intros H I. apply andb_prop in H as [H _].
  rewrite forallb_forall in H. apply H in I. destruct l; [reflexivity|discriminate].
Qed.
Lemma empty_any (g : groups) x l : is_empty g = true -> In x g -> In l x -> l = [].
Proof.
  unfold is_empty. rewrite forallb_forall. intros H I J. apply H in I. rewrite forallb_forall in I.
  apply I in J. destruct l; [reflexivity|discriminate].
Qed.
Lemma empty_col (g : groups) x k : is_empty g = true -> In x g -> col k x = [].
Proof.
  intros E I. unfold col. destruct (nth_in_or_default k x []) as [J|J]; [|exact J]. exact (empty_any g x _ E I J).
Qed.
Lemma empty_col0 (g : groups) k : is_empty g = true -> col k (row g) = [].
Proof.
  intros E. destruct g as [|x r]; [destruct k; reflexivity|]. apply (empty_col _ _ _ E). left. reflexivity.
Qed.
Lemma sub_col k l : sub k l = col k l. Proof. reflexivity. Qed.

(** * Delays *)

Lemma late_over w i start pars n : 0 <= start <= i_now i -> i_now i - start < 2 ^ 24 ->
  late w i start pars n = delay_over i start pars n.
Proof.
  intros R B. unfold late, delay_over. destruct (0 <? nth n pars 0); [|reflexivity].
  unfold get_delta_millisec. replace (i_now i <? start) with false by lia. replace (start <=? i_now i) with true by lia.
  set (e := i_now i - start) in *. set (b := i_par i _). unfold passed, f_le.
  assert (F : f_finite (f_of_Z e) = true) by (apply fz; lia).
  destruct (finite_not _ F) as [N _]. rewrite N. cbn [negb andb].
  destruct (f_isnan b) eqn:Nb; [reflexivity|]. cbn [negb andb].
  destruct (f_isinf b) eqn:Ib.
  - rewrite (key_inf b Ib). pose proof (proj1 (key_finite _) F) as K. destruct (f_neg b); lia.
  - f_equal. assert (Fb : f_finite b = true) by (apply not_isinf; assumption).
    pose proof (val_le _ _ F Fb) as V. rewrite vz in V by lia.
    destruct (Qle_bool (inject_Z e) (f_val b)) eqn:Q.
    + apply Qle_bool_iff in Q. apply V in Q. lia.
    + destruct (Z.leb_spec (key (f_of_Z e)) (key b)) as [L|L]; [|reflexivity]. apply V in L. apply Qle_bool_iff in L. congruence.
Qed.
