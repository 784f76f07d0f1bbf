(** Recipes: storages and their files. *)
From Coq Require Import ZArith List Bool Lia QArith Qabs.
From Verif Require Import Base TimeModel FTextModel FTextSpec FTextProofs FTextProofs2 RecModel RecSpec.
Import ListNotations.
Open Scope Z_scope.

Definition oin (l : list Z) : stream := open_in l.

Lemma stops32 l : stops (32 :: l).
Proof. cbn. repeat split; try discriminate. Qed.

Lemma float_sep b c r : number b -> stops (c :: r) ->
  get_float (open_in (show_float b ++ c :: r)) = (Some (short b), open_in (c :: r)).
Proof. intros [B F] S. rewrite get_float_show by assumption. reflexivity. Qed.

Lemma read_pars_show l : forall r w, Forall number l -> l <> [] -> (w = [] \/ w = [32]) ->
  read_pars (List.length l) (open_in (w ++ show_pars l ++ r)) = (map (fun b => Some (short b)) l, open_in (32 :: r)).
Proof.
  induction l as [|b l IH]; intros r w H N W; [congruence|]. inversion H; subst.
  assert (E : forall x, get_float (open_in (w ++ x)) = get_float (open_in x)).
  { intros x. destruct W as [->| ->]; [reflexivity|]. cbn [app]. apply get_float_ws. reflexivity. }
  cbn [List.length read_pars]. rewrite E. unfold show_pars. cbn [flat_map]. fold (show_pars l).
  rewrite <- !app_assoc. cbn [app].
  rewrite float_sep by (assumption || apply stops32).
  destruct l as [|b' l].
  - cbn [List.length read_pars map show_pars flat_map app]. reflexivity.
  - change (32 :: show_pars (b' :: l) ++ r) with ([32] ++ show_pars (b' :: l) ++ r).
    rewrite IH by (auto; discriminate). reflexivity.
Qed.

Lemma line_one name r : one_line name -> line (name ++ 10 :: r) = (name, r, true).
Proof.
  induction name as [|c name IH]; intros H; cbn [app line]; [reflexivity|].
  rewrite (proj2 (Z.eqb_neq c 10)) by (intros ->; apply H; left; reflexivity).
  rewrite IH by (intros X; apply H; right; exact X). reflexivity.
Qed.
Lemma getline_one name r : one_line name -> getline (open_in (name ++ 10 :: r)) = (name, open_in r).
Proof.
  intros H. unfold getline. cbn [good open_in fail eof negb andb FTextModel.left].
  pose proof (line_one name r H) as L. destruct (name ++ 10 :: r) eqn:E; [destruct name; discriminate|]. rewrite L. reflexivity.
Qed.
Lemma ignore_one c r : ignore (open_in (c :: r)) = open_in r.
Proof. reflexivity. Qed.

Lemma read_recipe_show r rest : one_line (r_name r) -> Forall number (r_par r) -> r_par r <> [] ->
  read_recipe (List.length (r_par r)) (open_in (10 :: show_recipe r ++ rest)) =
  (r_name r, map (fun b => Some (short b)) (r_par r), open_in (10 :: rest)).
Proof.
  intros H F N. unfold read_recipe, show_recipe. rewrite ignore_one, <- !app_assoc.
  cbn [app]. rewrite getline_one by exact H.
  pose proof (read_pars_show (r_par r) (10 :: rest) [] F N (or_introl eq_refl)) as R. cbn [app] in R. rewrite R.
  reflexivity.
Qed.

Definition parsed (r : recipe) : list Z * list (option Z) := (r_name r, map (fun b => Some (short b)) (r_par r)).

Lemma read_recipes_show pc l : forall rest, (0 < pc)%nat ->
  Forall (fun r => one_line (r_name r) /\ Forall number (r_par r)) l ->
  Forall (fun r => List.length (r_par r) = pc) l ->
  read_recipes (List.length l) pc (open_in (10 :: flat_map show_recipe l ++ rest)) = map parsed l.
Proof.
  induction l as [|r l IH]; intros rest P H L; [reflexivity|]. inversion H; subst. inversion L; subst.
  destruct H2 as [H2a H2b]. cbn [List.length read_recipes flat_map map]. rewrite <- app_assoc.
  rewrite read_recipe_show; [|assumption|assumption|intros X; rewrite X in P; cbn in P; lia].
  rewrite IH by assumption. reflexivity.
Qed.

(** The parameters of a recipe of another size. *)
Definition resized (n : nat) (l : list Z) : list Z := firstn n l ++ repeat 0 (n - List.length l).

Lemma fill_some n : forall l, fill n (map Some l) = Some (resized n l).
Proof.
  induction n as [|n IH]; intros l; [reflexivity|]. destruct l as [|v l]; [reflexivity|].
  cbn [map fill]. rewrite IH. unfold resized. cbn [option_map firstn app List.length Nat.sub]. reflexivity.
Qed.
Lemma fill_all_parsed n l :
  fill_all n (map parsed l) = Some (map (fun r => mkR (r_name r) (resized n (map short (r_par r)))) l).
Proof.
  induction l as [|r l IH]; [reflexivity|]. cbn [map fill_all]. unfold parsed at 1.
  replace (map (fun b => Some (short b)) (r_par r)) with (map Some (map short (r_par r))) by (rewrite map_map; reflexivity).
  rewrite fill_some, IH. reflexivity.
Qed.

Lemma serialize_read s : sized s -> writable s -> 0 < s_pcnt s -> forall s0,
  deserialize s0 (Some (serialize s)) =
  Some (with_recs s0 (overlay (s_recs s0)
     (map (fun r => mkR (r_name r) (resized (Z.to_nat (s_pcnt s0)) (map short (r_par r)))) (s_recs s)))).
Proof.
  intros (C & P & LR & LP & _) W P1 s0. unfold deserialize, serialize.
  rewrite get_int_show by (cbn; (lia || reflexivity)).
  change {| FTextModel.left := [32] ++ ?x; fail := false; eof := at_end ([32] ++ ?x) |} with (open_in (32 :: x)).
  rewrite get_int_ws by reflexivity. rewrite get_int_show by (cbn; (lia || reflexivity)).
  change {| FTextModel.left := [10] ++ ?x; fail := false; eof := at_end ([10] ++ ?x) |} with (open_in (10 :: x)).
  replace (Z.to_nat (s_cnt s)) with (List.length (s_recs s)) by lia.
  rewrite <- (app_nil_r (flat_map show_recipe (s_recs s))).
  rewrite read_recipes_show; [|lia|exact W|].
  - rewrite fill_all_parsed. reflexivity.
  - eapply Forall_impl; [|exact LP]. cbn. intros r H. lia.
Qed.

Lemma overlay_all {A} (old new : list A) : List.length old = List.length new -> overlay old new = new.
Proof.
  revert new. induction old as [|a old IH]; intros [|b new] H; try discriminate; [reflexivity|].
  cbn [overlay]. rewrite IH by (cbn in H; lia). reflexivity.
Qed.
Lemma resized_same n l : List.length l = n -> resized n l = l.
Proof. intros H. unfold resized. rewrite <- H, firstn_all, Nat.sub_diag. apply app_nil_r. Qed.

Definition shorten (s : storage) : list recipe := map (fun r => mkR (r_name r) (map short (r_par r))) (s_recs s).

Lemma deserialize_same s s0 : sized s -> writable s -> 0 < s_pcnt s ->
  s_cnt s0 = s_cnt s -> s_pcnt s0 = s_pcnt s -> List.length (s_recs s0) = List.length (s_recs s) ->
  deserialize s0 (Some (serialize s)) = Some (with_recs s0 (shorten s)).
Proof.
  intros S W P E1 E2 E3. rewrite serialize_read by assumption.
  rewrite overlay_all by (rewrite map_length; exact E3). do 2 f_equal. unfold shorten. apply map_ext_in.
  intros r R. f_equal. apply resized_same. destruct S as (_ & _ & _ & LP & _). rewrite Forall_forall in LP. specialize (LP r R).
  rewrite map_length. lia.
Qed.
Lemma fresh_len cnt pcnt : List.length (s_recs (fresh cnt pcnt)) = Z.to_nat cnt.
Proof. unfold fresh. cbn [s_recs]. apply repeat_length. Qed.

Lemma create_serialize s : sized s -> writable s -> 0 < s_pcnt s ->
  create (s_cnt s) (s_pcnt s) (Some (serialize s)) = Some (mkS (s_cnt s) (s_pcnt s) 0 false (shorten s)).
Proof.
  intros S W P. unfold create. rewrite (deserialize_same s); try assumption; try reflexivity.
  rewrite fresh_len. destruct S as (_ & _ & L & _). lia.
Qed.

Lemma number_close b : number b -> same_value b (short b).
Proof. intros [B F]. split; [apply short_close; assumption|intros; apply short_exact; assumption]. Qed.
Lemma same_value_refl b : number b -> same_value b b.
Proof.
  intros [B F]. split; [|reflexivity]. repeat split; try assumption; try (apply B).
  assert (E : (real b - real b == 0)%Q) by ring. rewrite E. apply Qmult_le_0_compat; [apply Qabs_nonneg|discriminate].
Qed.
Lemma same_shorten s : writable s -> Forall2 same_recipe (s_recs s) (shorten s).
Proof.
  unfold writable, shorten. intros H. induction H as [|r l [_ H] _ IH]; constructor; [|exact IH].
  split; [reflexivity|]. cbn [r_par]. clear - H. induction H; constructor; [apply number_close; assumption|assumption].
Qed.

(** * Sizes *)

Lemma upd_len {A} (l : list A) i v : List.length (upd l i v) = List.length l.
Proof. revert i. induction l as [|a l IH]; intros [|i]; cbn; auto. Qed.
Lemma upd_same {A} (l : list A) i v : (i < List.length l)%nat -> nth_error (upd l i v) i = Some v.
Proof. revert i. induction l as [|a l IH]; intros [|i] H; cbn in *; try lia; [reflexivity|apply IH; lia]. Qed.
Lemma upd_other {A} (l : list A) i j v : i <> j -> nth_error (upd l i v) j = nth_error l j.
Proof. revert i j. induction l as [|a l IH]; intros [|i] [|j] H; cbn; try congruence; try reflexivity. apply IH. congruence. Qed.
Lemma upd_none {A} (l : list A) i v : nth_error l i = None -> upd l i v = l.
Proof. revert i. induction l as [|a l IH]; intros [|i] H; cbn in *; try congruence; try reflexivity. rewrite IH by exact H. reflexivity. Qed.
Lemma upd_Forall {A} (P : A -> Prop) l i v : Forall P l -> P v -> Forall P (upd l i v).
Proof. intros H. revert i. induction H; intros [|i] V; cbn; constructor; auto. Qed.
Lemma nth_len {A} (l : list A) i : (i < List.length l)%nat -> exists x, nth_error l i = Some x.
Proof. intros H. destruct (nth_error l i) eqn:E; [eauto|]. apply nth_error_None in E. lia. Qed.
Lemma Forall_nth {A} (P : A -> Prop) l i x : Forall P l -> nth_error l i = Some x -> P x.
Proof. intros H E. rewrite Forall_forall in H. apply H. eapply nth_error_In. exact E. Qed.

Lemma put_some s i j v : sized s -> (i < Z.to_nat (s_cnt s))%nat -> (j < Z.to_nat (s_pcnt s))%nat ->
  exists r old, nth_error (s_recs s) i = Some r /\ nth_error (r_par r) j = Some old /\
    put s i j v = Some (if fne old v
                then mkS (s_cnt s) (s_pcnt s) (s_act s) true (upd (s_recs s) i (mkR (r_name r) (upd (r_par r) j v)))
                else s).
Proof.
  intros (C & P & L & LP & _) I J. destruct (nth_len (s_recs s) i ltac:(lia)) as [r R].
  pose proof (Forall_nth _ _ _ _ LP R) as LR. cbn beta in LR.
  destruct (nth_len (r_par r) j ltac:(lia)) as [old O]. exists r, old. unfold put. rewrite R, O. auto.
Qed.
Lemma put_sized s i j v s1 : sized s -> put s i j v = Some s1 -> sized s1 /\ s_cnt s1 = s_cnt s /\ s_pcnt s1 = s_pcnt s /\ s_act s1 = s_act s.
Proof.
  intros S H. unfold put in H. destruct (nth_error (s_recs s) i) as [r|] eqn:R; [|discriminate].
  destruct (nth_error (r_par r) j) as [old|] eqn:O; [|discriminate].
  assert (E : s1 = if fne old v
                then mkS (s_cnt s) (s_pcnt s) (s_act s) true (upd (s_recs s) i (mkR (r_name r) (upd (r_par r) j v)))
                else s) by congruence. clear H.
  destruct (fne old v); subst s1; [|auto]. cbn [s_cnt s_pcnt s_act]. split; [|auto].
  destruct S as (C & P & L & LP & A). unfold sized. cbn [s_cnt s_pcnt s_act s_recs].
  split; [exact C|]. split; [exact P|]. rewrite upd_len. split; [exact L|]. split; [|exact A].
  apply upd_Forall; [exact LP|]. cbn [r_par]. rewrite upd_len. exact (Forall_nth _ _ _ _ LP R).
Qed.
Lemma put_writable s i j v s1 : writable s -> number v -> put s i j v = Some s1 -> writable s1.
Proof.
  intros W V H. unfold put in H. destruct (nth_error (s_recs s) i) as [r|] eqn:R; [|discriminate].
  destruct (nth_error (r_par r) j) as [old|] eqn:O; [|discriminate].
  pose proof (Forall_nth _ _ _ _ W R) as [R1 R2].
  destruct (fne old v); [|congruence]. assert (E : s1 = mkS (s_cnt s) (s_pcnt s) (s_act s) true (upd (s_recs s) i (mkR (r_name r) (upd (r_par r) j v)))) by congruence.
  subst s1. unfold writable. cbn [s_recs]. apply upd_Forall; [exact W|]. cbn [r_name r_par]. split; [exact R1|].
  apply upd_Forall; assumption.
Qed.
(** A store either changes nothing or marks the storage. *)
Lemma put_marks s i j v s1 : put s i j v = Some s1 -> s1 = s \/ s_changed s1 = true.
Proof.
  intros H. unfold put in H. destruct (nth_error (s_recs s) i) as [r|]; [|discriminate].
  destruct (nth_error (r_par r) j) as [old|]; [|discriminate]. destruct (fne old v).
  - right. assert (E : s1 = mkS (s_cnt s) (s_pcnt s) (s_act s) true (upd (s_recs s) i (mkR (r_name r) (upd (r_par r) j v)))) by congruence.
    subst s1. reflexivity.
  - left. congruence.
Qed.

Lemma store_total s r p v : sized s -> exists s1, setRecPar s r p v = Some s1.
Proof.
  intros S. unfold setRecPar. destruct ((r <=? s_cnt s) && (p <=? s_pcnt s) && (0 <? r) && (0 <? p)) eqn:E; [|eauto].
  destruct (put_some s (Z.to_nat (r - 1)) (Z.to_nat (p - 1)) v S ltac:(lia) ltac:(lia)) as (? & ? & _ & _ & ->). eauto.
Qed.
Lemma store_sized s r p v s1 : sized s -> setRecPar s r p v = Some s1 ->
  sized s1 /\ s_cnt s1 = s_cnt s /\ s_pcnt s1 = s_pcnt s /\ s_act s1 = s_act s.
Proof.
  intros S H. unfold setRecPar in H. destruct ((r <=? s_cnt s) && (p <=? s_pcnt s) && (0 <? r) && (0 <? p)).
  - eapply put_sized; eassumption.
  - assert (s1 = s) by congruence. subst. auto.
Qed.

(** Reading, as a position. *)
Lemma get_at s r p : sized s -> 0 <= r < 2 ^ 31 -> 0 <= p < 2 ^ 31 ->
  getRecPar s r p = if (r <=? s_cnt s) && (p <=? s_pcnt s) && (0 <? r) && (0 <? p)
    then match nth_error (s_recs s) (Z.to_nat (r - 1)) with Some x => nth_error (r_par x) (Z.to_nat (p - 1)) | None => None end
    else Some 0.
Proof.
  intros S R P. unfold getRecPar. assert (E : forall x, 0 <= x < 2 ^ 31 -> s32 x = x).
  { intros x X. unfold s32. rewrite Z.mod_small by lia. lia. }
  rewrite (E r R), (E p P). reflexivity.
Qed.

Lemma get_within s r p : sized s -> within s r p -> exists x, getRecPar s r p = Some x.
Proof.
  intros S [R P]. pose proof S as (C & PP & L & LP & _). rewrite get_at by (assumption || lia).
  replace ((r <=? s_cnt s) && (p <=? s_pcnt s) && (0 <? r) && (0 <? p)) with true by lia.
  destruct (nth_len (s_recs s) (Z.to_nat (r - 1)) ltac:(lia)) as [x X]. rewrite X.
  pose proof (Forall_nth _ _ _ _ LP X) as LX. cbn beta in LX.
  apply nth_len. lia.
Qed.

Lemma fne_false a b : is_float a -> is_float b -> fne a b = false -> same_number b a.
Proof.
  unfold fne, same_number. intros A B H. apply orb_false_iff in H. destruct H as [H1 H2].
  destruct (Z.eqb_spec a b); [left; auto|]. cbn [negb andb] in H2. right. lia.
Qed.

Lemma store_get s r p v s1 r' p' : sized s -> setRecPar s r p v = Some s1 -> within s r' p' ->
  exists x y, getRecPar s r' p' = Some x /\ getRecPar s1 r' p' = Some y /\
    (if (r' =? r) && (p' =? p) then y = if fne x v then v else x else y = x).
Proof.
  intros S H Wt. pose proof S as (C & PP & L & LP & _). destruct Wt as [R' P'].
  destruct (get_within s r' p' S (conj R' P')) as [x X]. exists x.
  destruct (store_sized s r p v s1 S H) as (S1 & C1 & PC1 & _).
  rewrite get_at in X by (assumption || lia). rewrite !get_at by (assumption || lia). rewrite C1, PC1.
  replace ((r' <=? s_cnt s) && (p' <=? s_pcnt s) && (0 <? r') && (0 <? p')) with true in * by lia.
  unfold setRecPar in H.
  destruct ((r <=? s_cnt s) && (p <=? s_pcnt s) && (0 <? r) && (0 <? p)) eqn:E.
  2: { assert (s1 = s) by congruence. subst s1. exists x. split; [exact X|]. split; [exact X|].
       destruct ((r' =? r) && (p' =? p)) eqn:EE; [lia|reflexivity]. }
  destruct (put_some s (Z.to_nat (r - 1)) (Z.to_nat (p - 1)) v S ltac:(lia) ltac:(lia)) as (rr & old & RR & OO & PU).
  rewrite PU in H. assert (E1 : s1 = if fne old v
                then mkS (s_cnt s) (s_pcnt s) (s_act s) true (upd (s_recs s) (Z.to_nat (r - 1)) (mkR (r_name rr) (upd (r_par rr) (Z.to_nat (p - 1)) v)))
                else s) by congruence. clear H PU.
  destruct (Z.eq_dec r' r) as [ER|NR].
  - subst r'. rewrite RR in X.  rewrite Z.eqb_refl. cbn [andb]. destruct (Z.eqb_spec p' p) as [EP|NP].
    + subst p'. assert (old = x) by congruence. subst old. exists (if fne x v then v else x).
      split; [rewrite RR; exact X|]. split; [|reflexivity]. subst s1. destruct (fne x v); cbn [s_recs].
      * rewrite upd_same by (apply nth_error_Some; congruence). cbn [r_par]. apply upd_same. apply nth_error_Some. congruence.
      * rewrite RR. exact X.
    + exists x. split; [rewrite RR; exact X|]. split; [|reflexivity]. subst s1. destruct (fne old v); cbn [s_recs].
      * rewrite upd_same by (apply nth_error_Some; congruence). cbn [r_par]. rewrite upd_other by lia. exact X.
      * rewrite RR. exact X.
  - rewrite (proj2 (Z.eqb_neq r' r)) by exact NR. cbn [andb]. exists x. split; [exact X|]. split; [|reflexivity].
    subst s1. destruct (fne old v); cbn [s_recs]; [|exact X]. rewrite upd_other by lia. exact X.
Qed.

Lemma stores_get h : forall s s1 r p x, sized s -> stores s h = Some s1 -> within s r p -> getRecPar s r p = Some x ->
  is_float x -> Forall (fun e => is_float (snd e)) h ->
  exists y, getRecPar s1 r p = Some y /\ is_float y /\ same_number (last_stored h r p x) y.
Proof.
  induction h as [|[[r' p'] v] h IH]; intros s s1 r p x S H W X FX FH; cbn [stores last_stored] in *.
  - assert (s1 = s) by congruence. subst. exists x. split; [exact X|]. split; [exact FX|left; reflexivity].
  - destruct (setRecPar s r' p' v) as [s2|] eqn:E; [|discriminate]. inversion FH; subst. cbn [snd] in *.
    destruct (store_sized _ _ _ _ _ S E) as (S2 & C2 & P2 & _).
    destruct (store_get s r' p' v s2 r p S E W) as (x' & y & X' & Y & D). rewrite X in X'. assert (x' = x) by congruence. subst x'.
    assert (W2 : within s2 r p) by (unfold within in *; rewrite C2, P2; exact W).
    assert (G : forall y0 z, is_float y0 -> is_float z -> same_number z y0 -> getRecPar s2 r p = Some y0 ->
       exists y1, getRecPar s1 r p = Some y1 /\ is_float y1 /\ same_number (last_stored h r p z) y1).
    { intros y0 z F0 FZ SN Y0. destruct (IH s2 s1 r p y0 S2 H W2 Y0 F0 H3) as (y1 & Y1 & F1 & N1). exists y1. split; [exact Y1|]. split; [exact F1|].
      clear - SN N1. revert SN N1. generalize y0 z. clear y0 z. induction h as [|[[a b] c] h IHh]; intros y0 z SN N1; cbn [last_stored] in *.
      - destruct N1 as [->|[N1 N2]]; destruct SN as [->|[S1 S2]]; unfold same_number in *; auto.
      - destruct ((r =? a) && (p =? b)); eapply IHh; try exact N1; [left; reflexivity|exact SN]. }
    destruct ((r =? r') && (p =? p')) eqn:EE.
    + apply (G y v); [|assumption| |exact Y].
      * subst y. destruct (fne x v); assumption.
      * subst y. destruct (fne x v) eqn:FN; [left; reflexivity|]. apply fne_false; assumption.
    + subst y. apply (G x x); try assumption. left. reflexivity.
Qed.
