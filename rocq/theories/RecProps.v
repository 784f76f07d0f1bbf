(** Properties C35 to C40 and C64 to C66: recipes. *)
From Coq Require Import ZArith List Bool Lia String.
From Verif Require Import Base TimeModel FTextModel FTextSpec FTextProofs FTextProofs2 RecModel RecSpec RecProofs RecProofs2 RecProofs3 RecProofs4 RecProofs5 RecProofs6 RecProofs7.
Import ListNotations.
Open Scope list_scope.
Open Scope Z_scope.

(** Some floats. *)
Definition f1 : Z := 1065353216.
Definition f2 : Z := 1073741824.
Definition minus0 : Z := 2 ^ 31.
Definition fnan : Z := 2143289344.
Definition finf : Z := 2139095040.

(** A check of [writable] by computation, for the examples. *)
Local Lemma writable_check s :
  forallb (fun r => forallb (fun c => negb (c =? 10)) (r_name r) &&
                    forallb (fun b => (0 <=? b) && (b <? 2 ^ 32) && f_finite b) (r_par r)) (s_recs s) = true -> writable s.
Proof.
  intros H. apply Forall_forall. intros r R. apply (proj1 (forallb_forall _ _) H) in R. apply andb_true_iff in R. destruct R as [A B].
  split.
  - intros I. apply (proj1 (forallb_forall _ _) A) in I. discriminate.
  - apply Forall_forall. intros b I. apply (proj1 (forallb_forall _ _) B) in I. apply andb_true_iff in I. destruct I as [I1 I2].
    split; [unfold is_float; lia|exact I2].
Qed.

(** * C35: the last value stored is read *)

(** Every history of stores is carried out, and a place within the storage then
    holds the last value stored there, or one the program takes for equal. *)
Theorem C35_last_store s h r p : sized s -> within s r p -> Forall (fun e => is_float (snd e)) h ->
  forall x, getRecPar s r p = Some x -> is_float x ->
  exists s1 y, stores s h = Some s1 /\ getRecPar s1 r p = Some y /\ same_number (last_stored h r p x) y.
Proof.
  intros S W F x G FX.
  assert (T : forall h s, sized s -> exists s1, stores s h = Some s1).
  { clear. induction h as [|[[r p] v] h IH]; intros s S; cbn [stores]; [eauto|].
    destruct (store_total s r p v S) as [s1 E]. rewrite E. apply IH. apply (store_sized s r p v s1 S E). }
  destruct (T h s S) as [s1 E]. destruct (stores_get h s s1 r p x S E W G FX F) as (y & A & _ & B). exists s1, y. auto.
Qed.

(** Numbers that do not exist: a store changes nothing, a read gives zero. *)
Theorem C35_outside s r p v : sized s -> 0 <= r < 2 ^ 32 -> 0 <= p < 2 ^ 32 -> ~ within s r p ->
  setRecPar s (s32 r) (s32 p) v = Some s /\ getRecPar s r p = Some 0.
Proof.
  intros S R P W. pose proof S as (C & PC & _). unfold setRecPar, getRecPar, within in *.
  destruct ((s32 r <=? s_cnt s) && (s32 p <=? s_pcnt s) && (0 <? s32 r) && (0 <? s32 p)) eqn:E; [|split; reflexivity].
  rewrite (s32_pos r), (s32_pos p) in E by lia. lia.
Qed.

(** The value is not always the one stored: minus zero is not stored over zero. *)
Theorem C35_bits_refuted : exists s v s1, sized s /\ within s 1 1 /\ setRecPar s 1 1 v = Some s1 /\ getRecPar s1 1 1 <> Some v.
Proof.
  exists (fresh 1 1), minus0, (fresh 1 1). split; [apply fresh_sized; lia|]. vm_compute. repeat split; congruence.
Qed.

Example C35_example :
  let h := [(1, 2, f1); (2, 2, f2); (1, 2, f2); (7, 2, f1); (2, 0, f1); (2, 2, f1)] in
  exists s1, stores (fresh 2 3) h = Some s1 /\ getRecPar s1 1 2 = Some f2 /\ getRecPar s1 2 2 = Some f1 /\
             getRecPar s1 1 1 = Some 0 /\ getRecPar s1 3 1 = Some 0 /\ sized (fresh 2 3).
Proof. eexists. split; [vm_compute; reflexivity|]. repeat split; try reflexivity; try (cbn; lia). repeat constructor. Qed.

(** * C36: the active recipe exists *)

Theorem C36_active_exists w g0 l g i s : booted g0 -> rrun w g0 l = Some g -> nth_error (g_st g) i = Some s ->
  1 <= getActiveRecipe s <= s_cnt s /\ nth_error (s_recs s) (Z.to_nat (getActiveRecipe s - 1)) <> None.
Proof.
  intros B R H. pose proof (booted_shape _ B) as SH.
  assert (P : forall l g g1, shape g -> peopled g -> rrun w g l = Some g1 -> shape g1 /\ peopled g1).
  { clear. induction l as [|e l IH]; intros g g1 S P R; cbn [rrun] in R; [split; congruence|].
    destruct (rstep w g e) as [g2|] eqn:E; [|discriminate]. apply (IH g2); eauto using shape_step, peopled_step. }
  destruct (P l g0 g SH (booted_peopled _ B) R) as [(S1 & _) P1].
  pose proof (Forall_nth _ _ _ _ S1 H) as (C & _ & L & _ & A & _ & A2). pose proof (Forall_nth _ _ _ _ P1 H) as PO. cbn beta in PO. specialize (A2 PO).
  unfold getActiveRecipe. split; [lia|]. apply nth_error_Some. lia.
Qed.

(** A selection of an existing recipe is followed, every other one ignored. *)
Theorem C36_selection s n : sized s ->
  getActiveRecipe (fst (setActiveRecipe s n)) = (if (1 <=? n) && (n <=? s_cnt s) then n else getActiveRecipe s) /\
  s_recs (fst (setActiveRecipe s n)) = s_recs s.
Proof.
  intros _. unfold getActiveRecipe, setActiveRecipe.
  destruct ((n - 1 <? s_cnt s) && (0 <? n)) eqn:E.
  - replace ((1 <=? n) && (n <=? s_cnt s)) with true by lia. destruct (Z.eqb_spec (s_act s) (n - 1)); cbn [negb fst with_act s_act s_recs]; split; (lia || reflexivity).
  - replace ((1 <=? n) && (n <=? s_cnt s)) with false by lia. split; reflexivity.
Qed.

Definition ad0 : adapter := mkA 0 [mkM 1 2 2] [1; 1; 1] false false false [] [[]] false.
Definition ob0 : tobj := mkO [0; 0; 0; 0] [0; 0; 0; 0] 0 [].
Definition g0 : mgr := mkG [fresh 3 2; fresh 1 1] [ad0] [ob0] 0 0 0 [None; None] [None] None.
Lemma booted0 : booted g0.
Proof.
  assert (W : forall c p, writable (fresh c p)).
  { intros c p. apply Forall_forall. intros r R. apply repeat_spec in R. subst r. split; [intros [H|[H|[H|[H|[]]]]]; discriminate|].
    apply Forall_forall. intros x X. apply repeat_spec in X. subst x. split; [split; [|reflexivity]|reflexivity]; discriminate. }
  split; [|split].
  - unfold g0. cbn [g_st f_rec]. constructor; [exists 3, 2|constructor; [exists 1, 1|constructor]];
      (split; [lia|split; [lia|split; [reflexivity|apply W]]]).
  - reflexivity.
  - constructor; [|constructor]. exists (fresh 3 2). split; reflexivity.
Qed.

Example C36_example :
  let l := [Active 0 3; Active 0 4; Cmd 0 (codes "NMR") 0 f2 []; Active 0 0; Active 0 (-5)] in
  exists g, rrun 32 g0 l = Some g /\ map getActiveRecipe (g_st g) = [2; 1].
Proof. eexists. split; vm_compute; reflexivity. Qed.

(** * C37: changes are not forgotten *)

(** At every moment a storage is marked or its file holds what it holds. *)
Theorem C37_marked_or_on_disk w b l g i s : booted b -> Forall orderly l -> rrun w b l = Some g ->
  nth_error (g_st g) i = Some s -> s_changed s = true \/ on_disk s (nth i (f_rec g) None).
Proof.
  intros B O R H. apply paired_disk.
  apply (files_run w l b g (booted_shape _ B) (booted_files _ B) (orderly_all _ O) R i s H).
Qed.

(** Storage number [i] is on disk after [i + 1] evaluations more than 10 s apart. *)
Theorem C37_saved_in_the_end w b l g i s nows : booted b -> Forall orderly l -> rrun w b l = Some g ->
  nth_error (g_st g) i = Some s -> spaced w (t_rec g) nows -> (i < List.length nows)%nat ->
  exists g1 s1, rrun w g (map (fun n => Tick n true) nows) = Some g1 /\ nth_error (g_st g1) i = Some s1 /\
    s_recs s1 = s_recs s /\ on_disk s1 (nth i (f_rec g1) None).
Proof.
  intros B O R H SP N. pose proof (shape_run w l b g (booted_shape _ B) R) as SH.
  pose proof (files_run w l b g (booted_shape _ B) (booted_files _ B) (orderly_all _ O) R) as F.
  destruct (ticks_progress w true nows g SH SP) as (g1 & R1 & SH1 & M).
  destruct (ticks_content w true i s nows g g1 SH R1 H) as (s1 & H1 & C). exists g1, s1. split; [exact R1|]. split; [exact H1|]. split; [exact C|].
  assert (F1 : files_ok g1).
  { apply (files_run w (map (fun n => Tick n true) nows) g g1 SH F); [|exact R1]. apply Forall_forall. intros e E. apply in_map_iff in E. destruct E as (n & <- & _). reflexivity. }
  destruct (paired_disk _ _ (F1 i s1 H1)) as [X|X]; [|exact X]. exfalso.
  assert (Z : s_changed s1 = false); [|congruence]. apply (marked_at (g_st g1) i s1 H1). rewrite M.
  assert (LE : forall k (q : list storage), (marked (firstn k q) <= k)%nat).
  { induction k as [|k IH]; intros q; [cbn; lia|]. destruct q as [|x q]; [cbn; lia|]. cbn [firstn marked]. specialize (IH q). destruct (s_changed x); lia. }
  specialize (LE (Datatypes.S i) (g_st g)). lia.
Qed.

(** A change that cannot be written is forgotten: the mark is gone, the file is not
    there, and the next start finds the old content. *)
Theorem C37_failed_write_refuted : exists l g s, rrun 32 g0 l = Some g /\ nth_error (g_st g) 0 = Some s /\
  s_changed s = false /\ getRecPar s 1 1 = Some f1 /\
  forall s', restarted s (nth 0 (f_rec g) None) s' -> getRecPar s' 1 1 = Some 0.
Proof.
  exists [SetPar 0 1 1 f1; Tick 20000 false]. eexists. eexists. split; [vm_compute; reflexivity|]. split; [reflexivity|].
  split; [reflexivity|]. split; [reflexivity|]. intros s' R. vm_compute in R. injection R as <-. reflexivity.
Qed.

(** A storage is never written, however long the program runs, if the one before
    it changes before each evaluation. *)
Theorem C37_waiting_for_ever_refuted w nows : spaced w 0 nows ->
  exists s1, s_changed s1 = true /\ getRecPar s1 1 1 = Some f1 /\
  exists g, rrun w (mkG [one_par false f1; s1] [] [] 0 0 0 [None; None] [] None) (busy false nows) = Some g /\
    nth_error (g_st g) 1 = Some s1 /\ nth 1 (f_rec g) None = None.
Proof.
  intros SP. exists (one_par true f1). split; [reflexivity|]. split; [reflexivity|].
  destruct (busy_run w [] None [] 0 0 (one_par true f1) None eq_refl nows false 0 None SP) as (f0' & t' & R).
  eexists. split; [exact R|]. split; reflexivity.
Qed.
Example C37_waiting_example : spaced 32 0 [11000; 22000; 33000; 44000].
Proof. vm_compute. repeat split; reflexivity. Qed.

(** A power failure during writing: if the file is still empty the next start uses
    values never set; if it ends within a number another value is loaded. *)
Theorem C37_power_failure_refuted : exists s, sized s /\ writable s /\ on_disk s (Some (serialize s)) /\
  (forall s', ~ restarted s (Some (cut 0 (serialize s))) s') /\
  exists n s', restarted s (Some (cut n (serialize s))) s' /\ getRecPar s 2 1 = Some 1092616192 (* 10.0 *) /\ getRecPar s' 2 1 = Some f1.
Proof.
  set (s := mkS 2 1 0 false [mkR (codes "A") [f1]; mkR (codes "B") [1092616192]]). exists s.
  assert (S : sized s) by (repeat split; try (cbn; lia); repeat constructor).
  assert (W : writable s) by (apply writable_check; reflexivity).
  split; [exact S|]. split; [exact W|]. split; [|split].
  - eexists. split; [apply create_serialize; [exact S|exact W|cbn; lia]|apply same_shorten; exact W].
  - intros s' R. vm_compute in R. discriminate.
  - exists 12%nat. eexists. split; [vm_compute; reflexivity|]. split; reflexivity.
Qed.

Example C37_example :
  let l := [SetPar 0 2 1 f1; SetPar 1 1 1 f2; Tick 500 true; Tick 11000 true] in
  exists g, rrun 32 g0 l = Some g /\ Forall orderly l /\ map s_changed (g_st g) = [false; true] /\
    map (fun f => match f with Some _ => true | None => false end) (f_rec g) = [true; false] /\ t_rec g = 11000 /\ spaced 32 11000 [22000; 33000].
Proof.
  eexists. split; [vm_compute; reflexivity|]. split; [repeat (constructor; [cbn; try reflexivity; repeat split; discriminate|]); constructor|].
  repeat split; reflexivity.
Qed.

(** * C38: the file of recipes *)

(** What was saved is restored: names exactly, values to six digits. *)
Theorem C38_round_trip s : sized s -> writable s -> 0 < s_pcnt s -> on_disk s (Some (serialize s)).
Proof.
  intros S W P. eexists. split; [apply create_serialize; assumption|apply same_shorten; exact W].
Qed.

(** Loading and saving again gives the same file, so values do not drift. *)
Theorem C38_no_drift s s' : sized s -> writable s -> 0 < s_pcnt s -> restarted s (Some (serialize s)) s' ->
  serialize s' = serialize s.
Proof.
  intros S W P R. unfold restarted in R. rewrite create_serialize in R by assumption.
  assert (s' = mkS (s_cnt s) (s_pcnt s) 0 false (shorten s)) by congruence. subst s'. unfold serialize. cbn [s_cnt s_pcnt s_recs].
  do 4 f_equal. unfold shorten. unfold writable in W. induction W as [|r l [_ R1] _ IH]; [reflexivity|]. cbn [map flat_map]. rewrite IH. f_equal.
  unfold show_recipe. cbn [r_name r_par]. do 3 f_equal. unfold show_pars. clear IH.
  induction R1 as [|b t [B1 B2] _ IH]; [reflexivity|]. cbn [map flat_map]. rewrite IH, short_same_text by assumption. reflexivity.
Qed.

(** A file of another size: the recipes present in both are restored, parameters
    present in both are restored, the others keep their initial value. *)
Theorem C38_resized s cnt pcnt : sized s -> writable s -> 0 < s_pcnt s ->
  exists s', create cnt pcnt (Some (serialize s)) = Some s' /\ s_cnt s' = cnt /\ s_pcnt s' = pcnt /\
  forall i, (i < Z.to_nat cnt)%nat -> exists r', nth_error (s_recs s') i = Some r' /\
    match nth_error (s_recs s) i with
    | None => r' = mkR (codes "none") (repeat 0 (Z.to_nat pcnt))
    | Some r => r_name r' = r_name r /\ List.length (r_par r') = Z.to_nat pcnt /\
        forall j, (j < Z.to_nat pcnt)%nat ->
          match nth_error (r_par r) j with
          | None => nth_error (r_par r') j = Some 0
          | Some v => exists v', nth_error (r_par r') j = Some v' /\ same_value v v'
          end
    end.
Proof.
  intros S W P. eexists. split; [apply serialize_read; assumption|]. split; [reflexivity|]. split; [reflexivity|].
  cbn [with_recs s_recs fresh s_pcnt]. intros i I.
  assert (OV : forall A (o n : list A) i, (i < List.length o)%nat -> nth_error (overlay o n) i = match nth_error n i with Some x => Some x | None => nth_error o i end).
  { clear. induction o as [|x o IH]; intros [|y n] [|i] H; cbn in *; try lia; try reflexivity. apply IH. lia. }
  rewrite OV by (rewrite repeat_length; exact I). rewrite nth_error_map. destruct (nth_error (s_recs s) i) as [r|] eqn:R; cbn [option_map].
  - eexists. split; [reflexivity|]. cbn [r_name r_par]. split; [reflexivity|].
    assert (LEN : List.length (resized (Z.to_nat pcnt) (map short (r_par r))) = Z.to_nat pcnt).
    { unfold resized. rewrite app_length, firstn_length, repeat_length, map_length. lia. }
    split; [exact LEN|]. intros j J. pose proof (Forall_nth _ _ _ _ W R) as [_ N]. unfold resized.
    destruct (nth_error (r_par r) j) as [v|] eqn:V.
    + exists (short v). split; [|apply number_close; exact (Forall_nth _ _ _ _ N V)].
      assert (JL : (j < List.length (r_par r))%nat) by (apply nth_error_Some; congruence).
      rewrite nth_error_app1 by (rewrite firstn_length, map_length; lia).
      assert (FN : forall A (l : list A) n j, (j < n)%nat -> nth_error (firstn n l) j = nth_error l j).
      { clear. induction l as [|x l IH]; intros [|n] [|j] H; cbn; try lia; try reflexivity. apply IH. lia. }
      rewrite FN by exact J. rewrite nth_error_map, V. reflexivity.
    + apply nth_error_None in V. rewrite nth_error_app2 by (rewrite firstn_length, map_length; lia).
      rewrite firstn_length, map_length. apply nth_error_repeat. lia.
  - exists (mkR (codes "none") (repeat 0 (Z.to_nat pcnt))). split; [apply nth_error_repeat; exact I|reflexivity].
Qed.

(** A name with a line break (a Lua project or another system can set one) and a
    value that is not finite make the next start use values never set; recipes
    without parameters lose the first character of every name but the first; and a
    whole number of eight digits does not survive. *)
Theorem C38_line_break_refuted : exists s, sized s /\ 0 < s_pcnt s /\ Forall (fun r => Forall number (r_par r)) (s_recs s) /\
  ~ on_disk s (Some (serialize s)).
Proof.
  exists (mkS 2 1 0 false [mkR [65; 10; 66] [f1]; mkR (codes "C") [f2]]). split; [repeat split; try (cbn; lia); repeat constructor|].
  split; [cbn; lia|].
  split; [repeat (constructor; [constructor; [split; [split; [discriminate|reflexivity]|reflexivity]|constructor]|]); constructor|].
  intros (s' & R & F). vm_compute in R. discriminate.
Qed.
Theorem C38_not_a_number_refuted v : v = fnan \/ v = finf ->
  exists s, sized s /\ 0 < s_pcnt s /\ Forall (fun r => one_line (r_name r)) (s_recs s) /\
    getRecPar s 1 1 = Some v /\ getRecPar s 2 1 = Some f2 /\
    forall s', ~ restarted s (Some (serialize s)) s'.
Proof.
  intros V. exists (mkS 2 1 0 false [mkR (codes "A") [v]; mkR (codes "C") [f2]]). split; [repeat split; try (cbn; lia); repeat constructor|].
  split; [cbn; lia|]. split; [apply Forall_forall; intros r [<-|[<-|[]]] [H|[]]; discriminate|]. split; [destruct V; subst; reflexivity|]. split; [destruct V; subst; reflexivity|].
  intros s' R. destruct V as [-> | ->]; vm_compute in R; discriminate.
Qed.
Theorem C38_no_parameters_refuted : exists s s', sized s /\ writable s /\ s_pcnt s = 0 /\ restarted s (Some (serialize s)) s' /\
  map r_name (s_recs s) = [codes "AB"; codes "CD"; codes "EF"] /\ map r_name (s_recs s') = [codes "AB"; codes "D"; codes "F"].
Proof.
  exists (mkS 3 0 0 false [mkR (codes "AB") []; mkR (codes "CD") []; mkR (codes "EF") []]). eexists.
  split; [repeat split; try (cbn; lia); repeat constructor|].
  split; [apply writable_check; reflexivity|].
  split; [reflexivity|]. split; [vm_compute; reflexivity|]. split; reflexivity.
Qed.
Theorem C38_exact_refuted : exists s s' v', sized s /\ writable s /\ 0 < s_pcnt s /\ restarted s (Some (serialize s)) s' /\
  getRecPar s 1 1 = Some 1266679808 (* 16777216.0 *) /\ getRecPar s' 1 1 = Some v' /\ v' <> 1266679808.
Proof.
  exists (mkS 1 1 0 false [mkR (codes "A") [1266679808]]). eexists. eexists. split; [repeat split; try (cbn; lia); repeat constructor|].
  split; [apply writable_check; reflexivity|]. split; [cbn; lia|].
  split; [vm_compute; reflexivity|]. split; [reflexivity|]. split; [vm_compute; reflexivity|]. discriminate.
Qed.

Example C38_example :
  let s := mkS 2 2 1 true [mkR (codes "Milk 3") [f1; 1036831949 (* 0.1 *)]; mkR [] [3296329728 (* -1000.0 *); 507307272 (* 1e-20 *)]] in
  serialize s = codes "2 2" ++ [10] ++ codes "Milk 3" ++ [10] ++ codes "1 0.1 " ++ [10; 10] ++ codes "-1000 1e-20 " ++ [10] /\
  exists s', restarted s (Some (serialize s)) s' /\ s_recs s' = s_recs s.
Proof. split; [vm_compute; reflexivity|]. eexists. split; vm_compute; reflexivity. Qed.

(** * C39: loading a recipe into an object *)

Local Lemma load_guard s os obj n (o : tobj) : sized s -> 1 <= obj -> nth_error os (Z.to_nat (obj - 1)) = Some o -> 1 <= n <= s_cnt s ->
  (Z.of_nat (List.length os) <? obj) || (obj <? 1) = false /\ (s_cnt s <? s32 n) || (n =? 0) = false /\ s32 n = n.
Proof.
  intros S OB O RN. assert (Z.to_nat (obj - 1) < List.length os)%nat by (apply nth_error_Some; congruence).
  pose proof S as (C & _). assert (E : s32 n = n) by (unfold s32; rewrite Z.mod_small by lia; lia).
  rewrite E. repeat split; lia.
Qed.

(** All mappings fit: exactly the mapped parameters get the values of the recipe,
    the object notes its number and name, and the parameters are saved. *)
Theorem C39_load a s os obj n o rc : sized s -> 1 <= obj -> nth_error os (Z.to_nat (obj - 1)) = Some o -> 1 <= n <= s_cnt s ->
  nth_error (s_recs s) (Z.to_nat (n - 1)) = Some rc -> Z.of_nat (List.length (o_par o)) < 2 ^ 31 ->
  Forall plain (a_maps a) -> Forall (accepted s (Z.of_nat (List.length (o_par o)))) (a_maps a) ->
  exists l, loadParams a s os obj n = Some (upd os (Z.to_nat (obj - 1)) (mkO l l n (r_name rc)), true) /\
    List.length l = List.length (o_par o) /\
    forall j, 1 <= j -> nth (Z.to_nat (j - 1)) l 0 = target (a_maps a) rc j (nth (Z.to_nat (j - 1)) (o_par o) 0).
Proof.
  intros S OB O RN RC LEN PL AC. destruct (load_guard s os obj n o S OB O RN) as (G1 & G2 & G3).
  destruct (copy_maps_pre s n rc S RN RC (a_maps a) [] (o_par o) PL AC LEN) as (l & C & L & X). rewrite app_nil_r in C. cbn [copy_maps] in C.
  exists l. split; [|split; assumption]. unfold loadParams. rewrite G1, G2, O, C, RC, G3. reflexivity.
Qed.

(** The first mapping that is not accepted stops the loading: those before it
    have been applied, nothing is noted or saved. *)
Theorem C39_stopped a s os obj n o rc pre m post : sized s -> 1 <= obj -> nth_error os (Z.to_nat (obj - 1)) = Some o -> 1 <= n <= s_cnt s ->
  nth_error (s_recs s) (Z.to_nat (n - 1)) = Some rc -> Z.of_nat (List.length (o_par o)) < 2 ^ 31 ->
  a_maps a = pre ++ m :: post -> Forall plain pre -> plain m ->
  Forall (accepted s (Z.of_nat (List.length (o_par o)))) pre -> ~ accepted s (Z.of_nat (List.length (o_par o))) m ->
  exists l, loadParams a s os obj n = Some (upd os (Z.to_nat (obj - 1)) (mkO l (o_saved o) (o_nmr o) (o_name o)), false) /\
    List.length l = List.length (o_par o) /\
    forall j, 1 <= j -> nth (Z.to_nat (j - 1)) l 0 = target pre rc j (nth (Z.to_nat (j - 1)) (o_par o) 0).
Proof.
  intros S OB O RN RC LEN E PL PM AC NA. destruct (load_guard s os obj n o S OB O RN) as (G1 & G2 & G3).
  destruct (copy_maps_pre s n rc S RN RC pre (m :: post) (o_par o) PL AC LEN) as (l & C & L & X).
  exists l. split; [|split; assumption]. unfold loadParams. rewrite G1, G2, O, E, C. cbn [copy_maps].
  destruct (plain_s32 m PM) as (E1 & E2 & E3). rewrite E1, E2, E3. rewrite L.
  replace ((s_pcnt s + 1 <? m_rec m + m_qty m) || (Z.of_nat (List.length (o_par o)) <? m_obj m + m_qty m)) with true; [reflexivity|].
  unfold accepted in NA. lia.
Qed.

(** An object or recipe that does not exist: nothing happens. *)
Theorem C39_no_such a s os obj n : sized s -> 0 <= n < 2 ^ 31 -> ~ (1 <= obj <= Z.of_nat (List.length os) /\ 1 <= n <= s_cnt s) ->
  loadParams a s os obj n = Some (os, false).
Proof.
  intros S N H. unfold loadParams. destruct ((Z.of_nat (List.length os) <? obj) || (obj <? 1)) eqn:E; [reflexivity|].
  assert (E2 : s32 n = n) by (unfold s32; rewrite Z.mod_small by lia; lia). rewrite E2.
  replace ((s_cnt s <? n) || (n =? 0)) with true by lia. reflexivity.
Qed.

(** The command with number 1000 * object + recipe is a loading. *)
Theorem C39_command w g k a i v str obj n : nth_error (g_ad g) k = Some a -> nth_error (g_st g) (a_st a) <> None ->
  1 <= obj -> 0 <= n < 1000 -> 1 <= n \/ 2 <= obj -> to_int v = Some (1000 * obj + n) ->
  set_cmd g k (codes "CMD") i v str = rstep w g (Load k obj n).
Proof.
  intros A S OB N P V. unfold set_cmd. cbn [rstep]. rewrite A. destruct (nth_error (g_st g) (a_st a)) as [s|]; [|congruence].
  change (eqtext (codes "CMD") (codes "ACT")) with false. change (eqtext (codes "CMD") (codes "CMD")) with true. cbv beta iota. rewrite V.
  rewrite (proj2 (Z.eqb_neq (1000 * obj + n) 789)) by lia. rewrite (proj2 (Z.ltb_lt 1000 (1000 * obj + n))) by lia.
  replace ((1000 * obj + n) / 1000) with obj by (apply (Z.div_unique_pos _ _ obj n); lia).
  replace ((1000 * obj + n) mod 1000) with n by (apply (Z.mod_unique_pos _ _ obj n); lia).
  reflexivity.
Qed.

(** A mapping that ends exactly at the last parameter of the object fits, but is
    refused. *)
Theorem C39_last_parameter_refuted a s os obj n o m : nth_error os (Z.to_nat (obj - 1)) = Some o -> a_maps a = [m] -> plain m ->
  m_obj m + m_qty m - 1 = Z.of_nat (List.length (o_par o)) -> 1 <= obj -> sized s -> 1 <= n <= s_cnt s ->
  loadParams a s os obj n = Some (os, false).
Proof.
  intros O A P E OB S N. unfold loadParams.
  destruct ((Z.of_nat (List.length os) <? obj) || (obj <? 1)); [reflexivity|]. destruct ((s_cnt s <? s32 n) || (n =? 0)); [reflexivity|].
  rewrite O, A. cbn [copy_maps]. destruct (plain_s32 m P) as (_ & _ & E3). rewrite E3.
  replace (Z.of_nat (List.length (o_par o)) <? m_obj m + m_qty m) with true by lia. rewrite orb_true_r.
  assert (upd os (Z.to_nat (obj - 1)) (mkO (o_par o) (o_saved o) (o_nmr o) (o_name o)) = os) as ->; [|reflexivity].
  destruct o. cbn. apply upd_id. exact O.
Qed.

(** A negative recipe number passes the check: a recipe outside of the list is
    used. *)
Theorem C39_negative_refuted : exists a s os n, sized s /\ 0 <= n < 2 ^ 32 /\ Forall plain (a_maps a) /\ loadParams a s os 1 n = None.
Proof.
  exists ad0, (fresh 3 2), [ob0], (2 ^ 32 - 1). split; [apply fresh_sized; lia|]. split; [lia|].
  split; [repeat constructor; cbn; lia|]. unfold loadParams.
  replace (nth_error [ob0] (Z.to_nat (1 - 1))) with (Some ob0) by reflexivity.
  replace (copy_maps (a_maps ad0) (fresh 3 2) (2 ^ 32 - 1) (o_par ob0)) with (Some ([0; 0; 0; 0], true)) by (vm_compute; reflexivity).
  replace (nth_error (s_recs (fresh 3 2)) (Z.to_nat (2 ^ 32 - 1 - 1))) with (@None recipe);
    [reflexivity|symmetry; apply nth_error_None; rewrite fresh_len; lia].
Qed.

Example C39_example :
  let s := mkS 2 3 0 false [mkR (codes "A") [f1; f1; f1]; mkR (codes "B") [f1; f2; minus0]] in
  let a := mkA 0 [mkM 1 1 2; mkM 3 2 1] [1; 1] false false false [] [] false in
  loadParams a s [ob0; mkO [7; 7; 7; 7] [] 0 []] 2 2 =
  Some ([ob0; mkO [f1; minus0; 7; 7] [f1; minus0; 7; 7] 2 (codes "B")], true) /\
  Forall plain (a_maps a) /\ Forall (accepted s 4) (a_maps a).
Proof. split; [vm_compute; reflexivity|]. split; repeat constructor; cbn; lia. Qed.
Example C39_stopped_example :
  let s := mkS 1 2 0 false [mkR (codes "A") [f1; f2]] in
  let a := mkA 0 [mkM 1 1 2; mkM 2 3 1; mkM 2 4 1] [1] false false false [] [] false in
  loadParams a s [ob0] 1 1 = Some ([mkO [f1; f2; f2; 0] [0; 0; 0; 0] 0 []], false).
Proof. vm_compute. reflexivity. Qed.

(** * C40: lists of recipes *)

Theorem C40_one_list a s : sized s -> Z.of_nat (List.length (a_active a)) = s_cnt s -> a_sep a = false ->
  exists b, refreshRecipeList a s = Some b /\ a_list b = listing 0 (a_active a) (s_recs s) /\ a_lists b = a_lists a.
Proof.
  intros (C & _ & L & _) A SEP. unfold refreshRecipeList. rewrite SEP, firstn_all2 by lia. rewrite refresh_joined by lia.
  eexists. split; [reflexivity|]. split; reflexivity.
Qed.

Fixpoint refreshed (n : nat) (a : adapter) (s : storage) : option adapter :=
  match n with
  | O => Some a
  | Datatypes.S m => match refreshRecipeList a s with Some b => refreshed m b s | None => None end
  end.

(** With separate lists each refresh adds the recipes of each group of ten to the
    list of this group once more. *)
Theorem C40_separate_lists n : forall a s, sized s -> Z.of_nat (List.length (a_active a)) = s_cnt s -> a_sep a = true ->
  exists b, refreshed n a s = Some b /\ List.length (a_lists b) = List.length (a_lists a) /\ a_active b = a_active a /\
  forall k, (k < List.length (a_lists a))%nat ->
    nth k (a_lists b) [] = nth k (a_lists a) [] ++
      List.concat (repeat (listing (10 * Z.of_nat k) (firstn 10 (skipn (10 * k) (a_active a))) (firstn 10 (skipn (10 * k) (s_recs s)))) n).
Proof.
  induction n as [|n IH]; intros a s S A SEP.
  - exists a. split; [reflexivity|]. split; [reflexivity|]. split; [reflexivity|]. intros k K. cbn. rewrite app_nil_r. reflexivity.
  - cbn [refreshed]. unfold refreshRecipeList. pose proof S as (C & _ & L & _). rewrite SEP, firstn_all2 by lia.
    destruct (refresh_sep (s_recs s) (a_active a) 0 [] (a_lists a) ltac:(lia) ltac:(lia)) as (ls1 & E & L1 & X). rewrite E.
    destruct (IH (mkA (a_st a) (a_maps a) (a_active a) (a_changed a) (a_loaded a) (a_refresh a) [] ls1 true) s S A eq_refl) as (b & R & LB & AB & Y).
    cbn [a_active a_lists] in *. exists b. split; [exact R|]. split; [lia|]. split; [exact AB|]. intros k K. rewrite Y by lia. rewrite X by exact K.
    rewrite listing_group by lia. replace (Z.to_nat (10 * Z.of_nat k)) with (10 * k)%nat by lia. cbn [repeat List.concat]. rewrite app_assoc. reflexivity.
Qed.

(** So the lists do not show what there is. *)
Theorem C40_separate_refuted : exists a s b, sized s /\ Z.of_nat (List.length (a_active a)) = s_cnt s /\ a_sep a = true /\
  a_lists a = [[]] /\ refreshed 2 a s = Some b /\ nth 0 (a_lists b) [] = codes "1##none||1##none||" /\
  listing 0 (a_active a) (s_recs s) = codes "1##none||".
Proof.
  exists (mkA 0 [] [1] false false false [] [[]] true), (fresh 1 1). eexists. split; [apply fresh_sized; lia|].
  split; [reflexivity|]. split; [reflexivity|]. split; [reflexivity|]. split; [vm_compute; reflexivity|]. split; vm_compute; reflexivity.
Qed.

Example C40_example :
  let s := mkS 3 1 0 false [mkR (codes "Milk") [0]; mkR (codes "Water") [0]; mkR (codes "Acid") [0]] in
  exists b, refreshRecipeList (mkA 0 [] [1; 0; 1] false false false (codes "old") [] false) s = Some b /\
            a_list b = codes "1##Milk||3##Acid||".
Proof. eexists. split; vm_compute; reflexivity. Qed.

(** * C64: commands of the monitoring system as text *)

(** A text is a command exactly if it has the form
      __RECMAN[n]:set_cmd( "NAME", index, value )
    where the value is a quoted text or digits and points. *)
Theorem C64_recognised l : parse_cmd l <> Ignored <-> exists n v i x, proper n v i x /\ l = form n v i x.
Proof.
  split.
  - intros H. unfold parse_cmd in H. destruct (rm_match l) as [[[[n v] i] x]|] eqn:E; [|congruence].
    apply match_inv in E. exists n, v, i, x. tauto.
  - intros (n & v & i & x & P & ->) H. unfold parse_cmd in H. rewrite (match_form _ _ _ _ P) in H.
    destruct (stoi n), (stoi i), x; try discriminate. destruct (stof l); discriminate.
Qed.
(** It says one thing only. *)
Theorem C64_unambiguous n v i x n' v' i' x' : proper n v i x -> proper n' v' i' x' ->
  form n v i x = form n' v' i' x' -> n = n' /\ v = v' /\ i = i' /\ x = x'.
Proof.
  intros P P' E. apply match_form in P. apply match_form in P'. rewrite E, P' in P. repeat split; congruence.
Qed.

Local Lemma stoi_show v : 0 <= v < 2 ^ 31 -> stoi (show_int v) = Some v /\ Forall (fun c => isdigit c = true) (show_int v) /\ show_int v <> [].
Proof.
  intros V. unfold show_int. rewrite (proj2 (Z.ltb_ge v 0)) by lia. assert (B : 0 <= v < 10 ^ Z.of_nat 20) by (split; [lia|apply Z.lt_trans with (2 ^ 31); [lia|reflexivity]]).
  destruct (udec_spec 20 v B ltac:(lia)) as (A & N & E). clear B.
  split; [|split; assumption]. unfold stoi. rewrite <- (app_nil_r (udec 20 v)), eat_digits by exact A. cbn [eat]. rewrite E.
  rewrite (proj2 (Z.ltb_lt v (2 ^ 31))) by lia. reflexivity.
Qed.
(** The command with numbers in decimal is carried out by the adapter with that
    number, if there is one. *)
Theorem C64_carried_out g n v i x : 1 <= n < 2 ^ 31 -> 0 <= i < 2 ^ 31 -> proper (show_int n) v (show_int i) x ->
  forall value str, match x with inl t => value = 0 /\ str = t | inr d => stof d = Some value /\ str = [] end ->
  parseDriverCmd g (form (show_int n) v (show_int i) x) =
  (if n <=? Z.of_nat (List.length (g_ad g)) then set_cmd g (Z.to_nat (n - 1)) v i value str else Some g, 1).
Proof.
  intros N I P value str X. unfold parseDriverCmd, parse_cmd. rewrite (match_form _ _ _ _ P).
  rewrite (proj1 (stoi_show n ltac:(lia))), (proj1 (stoi_show i I)).
  destruct x as [t|d]; destruct X as [X ->]; [subst value|rewrite X];
    (destruct (Z.leb_spec n (Z.of_nat (List.length (g_ad g))));
     [rewrite (proj2 (Z.ltb_lt (n - 1) _)) by lia; rewrite (proj2 (Z.eqb_neq n 0)) by lia; reflexivity|
      rewrite (proj2 (Z.ltb_ge (n - 1) _)) by lia; reflexivity]).
Qed.
(** Everything else changes nothing, and the answer tells the two apart. *)
Theorem C64_answer g l : (snd (parseDriverCmd g l) = 1 -> parse_cmd l <> Ignored) /\
  (parse_cmd l = Ignored -> parseDriverCmd g l = (Some g, 0)).
Proof. unfold parseDriverCmd. destruct (parse_cmd l); split; intros H; cbn in *; congruence. Qed.

(** A value written with or without a point reaches the adapter as the nearest
    float, if that is a normal one. *)
Theorem C64_nearest a b : a <> [] -> alld a -> alld b ->
  let x := QArith_base.Qmult (QArith_base.inject_Z (value (a ++ b) 0)) (p10 (- Z.of_nat (List.length b))) in
  value (a ++ b) 0 <> 0 -> 2 ^ 23 <= nearest x < 255 * 2 ^ 23 ->
  stof (a ++ 46 :: b) = Some (nearest x) /\ (b = [] -> stof a = Some (nearest x)).
Proof.
  intros NE A B x V R.
  assert (L : 0 < Z.of_nat (List.length a)) by (destruct a; [congruence|cbn [List.length]; lia]).
  assert (E1 : forall r, stops_int r -> eat (a ++ r) 0 0 = (Z.of_nat (List.length a), value a 0, r)).
  { intros r S. rewrite eat_digits, Z.add_0_l by exact A. apply eat_end. exact S. }
  assert (E2 : eat b 0 (value a 0) = (Z.of_nat (List.length b), value (a ++ b) 0, [])).
  { rewrite <- (app_nil_r b) at 1. rewrite eat_digits, Z.add_0_l, value_app by exact B. reflexivity. }
  assert (T : forall n2, (255 * 2 ^ 23 <=? nearest x) = false /\ ((nearest x <? 2 ^ 23) = false) /\
              (0 <= n2 -> (Z.of_nat (List.length a) + n2 =? 0) = false)) by (intros; lia).
  split.
  - unfold stof. rewrite E1 by reflexivity. rewrite E2. destruct (T (Z.of_nat (List.length b))) as (T1 & T2 & T3).
    rewrite T3 by lia. rewrite (proj2 (Z.eqb_neq _ 0) V). cbv zeta. fold x. rewrite T1, T2. reflexivity.
  - intros ->. unfold stof. rewrite <- (app_nil_r a) at 1. rewrite E1 by exact I. cbv beta iota.
    destruct (T 0) as (T1 & T2 & T3). rewrite T3 by lia.
    assert (V' : value a 0 <> 0) by (rewrite app_nil_r in V; exact V).
    rewrite (proj2 (Z.eqb_neq _ 0) V'). cbv zeta. change (p10 (- 0)) with (p10 (- Z.of_nat (List.length (@nil Z)))).
    assert (EX : QArith_base.Qmult (QArith_base.inject_Z (value a 0)) (p10 (- Z.of_nat (List.length (@nil Z)))) = x)
      by (unfold x; rewrite app_nil_r; reflexivity).
    rewrite EX, T1, T2. reflexivity.
Qed.
Print Assumptions C64_nearest.
Example C64_nearest_example :
  stof [49; 46; 53] = Some 1069547520 /\ stof [50] = Some 1073741824.
Proof. vm_compute. auto. Qed.

(** From its start on, the program carries out every sequence of calls in which
    numbers fit [int], adapters are counted from one and texts are free of
    exceptions. *)
Theorem C64_defined w b l : booted b -> Forall orderly l -> Forall sane l -> exists g, rrun w b l = Some g.
Proof.
  intros B O S. apply run_total; auto using booted_shape, booted_files, booted_peopled, orderly_all.
Qed.

(** Texts from the network that end the program: number 0 reaches an adapter before
    the first; too large numbers, a lone point and too small or large values throw
    an exception that nothing catches. *)
Theorem C64_fatal_refuted l : In l
   [codes "__RECMAN[0]:set_cmd( ""NMR"", 0, 1 )"; codes "__RECMAN[4000000000]:set_cmd( ""NMR"", 0, 1 )";
    codes "__RECMAN[1]:set_cmd( ""NMR"", 4000000000, 1 )"; codes "__RECMAN[1]:set_cmd( ""NMR"", 0, . )";
    codes "__RECMAN[1]:set_cmd( ""PAR"", 1, 0.00000000000000000000000000000000000000000001 )";
    codes "__RECMAN[1]:set_cmd( ""NMR"", 1, 5000000000 )"] ->
  fst (parseDriverCmd g0 l) = None.
Proof. intros [<-|[<-|[<-|[<-|[<-|[<-|[]]]]]]]; vm_compute; reflexivity. Qed.

Example C64_example :
  let l := codes "__RECMAN[1]:set_cmd( ""NAME"", 0, ""Milk "" ) 3%"" )" in
  exists g, parseDriverCmd g0 l = (Some g, 1) /\
    map r_name (s_recs (nth 0 (g_st g) (fresh 0 0))) = [codes "Milk "" ) 3%"; codes "none"; codes "none"] /\
    parse_cmd (codes "__RECMAN[1]:set_cmd( ""PAR"", 2, 0.1 )") = Call 1 (codes "PAR") 2 1036831949 [] /\
    parse_cmd (codes "__RECMAN[1]:set_cmd( ""PAR"", 2, -1 )") = Ignored.
Proof. eexists. split; [vm_compute; reflexivity|]. repeat split; vm_compute; reflexivity. Qed.
(** Negative values cannot be sent at all. *)
Theorem C64_no_negative l n v i f s : parse_cmd l = Call n v i f s -> f_neg f = false.
Proof.
  unfold parse_cmd. destruct (rm_match l) as [[[[dn dv] di] x]|]; [|discriminate]. destruct (stoi dn), (stoi di); try discriminate.
  destruct x as [t|d]; [intros H; assert (f = 0) by congruence; subst; reflexivity|].
  destruct (stof d) as [m|] eqn:E; [|discriminate]. intros H. assert (f = m) by congruence. subst.
  unfold stof in E. destruct (eat d 0 0) as [[n1 v1] r1]. destruct (match r1 with 46 :: r => eat r 0 v1 | _ => (0, v1, r1) end) as [[n2 v2] r2].
  destruct (n1 + n2 =? 0); [discriminate|]. destruct (v2 =? 0); [assert (m = 0) by congruence; subst; reflexivity|]. cbv zeta in E.
  destruct (255 * 2 ^ 23 <=? nearest _) eqn:B; [discriminate|]. destruct (_ && _); [discriminate|].
  assert (m = nearest (QArith_base.Qmult (QArith_base.inject_Z v2) (p10 (- n2)))) by congruence. rewrite <- H0 in B. unfold f_neg. lia.
Qed.

(** * C65: the flags of an adapter *)

(** What was saved is restored, for the recipes present in both. *)
Theorem C65_flags_round_trip old act : Forall is_int act -> Z.of_nat (List.length act) < 2 ^ 31 ->
  exists new, des_adapter old (Some (ser_adapter act)) = Some new /\ List.length new = List.length old /\
  forall i, (i < List.length old)%nat -> nth_error new i = nth_error (if Nat.ltb i (List.length act) then act else old) i.
Proof.
  intros H L. exists (overlay old act). split; [apply adapter_file; assumption|]. split; [apply overlay_len|].
  clear. revert act. induction old as [|x old IH]; intros [|y act] [|i] H; cbn [List.length] in H; try lia; try reflexivity.
  change (nth_error (overlay (x :: old) (y :: act)) (Datatypes.S i)) with (nth_error (overlay old act) i). rewrite IH by lia.
  change (Nat.ltb (Datatypes.S i) (List.length (y :: act))) with (Nat.ltb i (List.length act)). destruct (Nat.ltb i (List.length act)); reflexivity.
Qed.
(** An empty file, left by a power failure, makes the next start use values never
    set. *)
Theorem C65_empty_file_refuted act : des_adapter act (Some (cut 0 (ser_adapter act))) = None.
Proof. reflexivity. Qed.
Example C65_example : ser_adapter [1; 0; 1] = codes "3" ++ [10] ++ codes "1 0 1 " /\
  des_adapter [1; 1; 1; 1] (Some (ser_adapter [1; 0; 1])) = Some [1; 0; 1; 1].
Proof. split; vm_compute; reflexivity. Qed.

(** * C66: the recipes loaded last *)

(** Number and name are restored for every object; the parameters stay. *)
Theorem C66_last_loaded os os' : Forall (fun o => one_line (o_name o) /\ is_int (o_nmr o)) os' -> Z.of_nat (List.length os') < 2 ^ 31 ->
  let new := load_tech os (Some (show_tech os')) in
  List.length new = List.length os /\
  forall i o, nth_error os i = Some o -> exists o1, nth_error new i = Some o1 /\ o_par o1 = o_par o /\ o_saved o1 = o_saved o /\
    (o_nmr o1, o_name o1) = match nth_error os' i with Some x => (o_nmr x, o_name x) | None => (o_nmr o, o_name o) end.
Proof.
  intros H L. cbv zeta. rewrite tech_file by assumption. clear. revert os'.
  induction os as [|o os IH]; intros [|o' os']; cbn [note_all]; split; try reflexivity.
  - intros [|i] o H; discriminate.
  - intros [|i] o H; discriminate.
  - intros i x H. exists x. split; [exact H|]. destruct i; auto.
  - cbn [List.length]. f_equal. apply IH.
  - intros [|i] x H; cbn [nth_error] in *.
    + assert (o = x) by congruence. subst. exists (noted x o'). auto.
    + destruct (IH os') as [_ X]. apply X. exact H.
Qed.
(** A name with a line break shifts everything that follows. *)
Theorem C66_line_break_refuted : exists os, map o_nmr (load_tech os (Some (show_tech os))) <> map o_nmr os.
Proof. exists [mkO [] [] 3 [65; 10; 66]; mkO [] [] 4 (codes "C")]. vm_compute. congruence. Qed.
Example C66_example :
  let os := [mkO [f1] [] 3 (codes "Milk 3%"); mkO [] [] 12 []] in
  show_tech os = codes "2" ++ [10] ++ codes "Milk 3%" ++ [10] ++ codes "3" ++ [10; 10] ++ codes "12" ++ [10] /\
  map (fun o => (o_nmr o, o_name o)) (load_tech [ob0; ob0; ob0] (Some (show_tech os))) = [(3, codes "Milk 3%"); (12, []); (0, [])].
Proof. split; vm_compute; reflexivity. Qed.

Print Assumptions C35_last_store.
Print Assumptions C37_saved_in_the_end.
Print Assumptions C38_round_trip.
Print Assumptions C38_resized.
Print Assumptions C39_load.
Print Assumptions C40_separate_lists.
Print Assumptions C64_recognised.
Print Assumptions C64_defined.
