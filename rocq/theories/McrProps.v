(** Properties of the recipes of washing lines. *)
From Coq Require Import ZArith List Bool Lia.
From Verif Require Import Base TimeModel UtfModel UtfSpec RecModel McrModel McrSpec McrProofs McrProofs2 McrProofs3.
Import ListNotations.
Open Scope Z_scope.

(** A proper start. *)
Definition starts (t : Z) (f : Z -> Z) (g : Z -> recipe) : Prop := 0 <= t /\ file_of f g /\ forall r, 0 <= r < 25 -> sane (g r).
Lemma from_boot : forall w t j f g ds js, starts t f g -> Forall proper ds -> timely t ds -> length js = length ds ->
  exists s0 s, boot w t j f None = Some s0 /\ run w s0 (combine (map call ds) js) = Some s /\ rel (last_time t ds) s (s_run (s_boot t g) ds).
Proof.
  intros w t j f g ds js (T & F & S) P M L. destruct (boot_ok w t j f None g None T F S I) as (s0 & E0 & R0).
  destruct (run_rel w ds t s0 _ js R0 P M L) as (s & E & R). exists s0, s. split; [exact E0|]. split; [exact E|exact R].
Qed.

(** * C133: the book of recipes *)

Theorem C133_book : forall w t j f g ds js, starts t f g -> Forall proper ds -> timely t ds -> length js = length ds ->
  exists s0 s, boot w t j f None = Some s0 /\ run w s0 (combine (map call ds) js) = Some s /\ agrees w s (s_run (s_boot t g) ds).
Proof.
  intros w t j f g ds js S P M L. destruct (from_boot w t j f g ds js S P M L) as (s0 & s & E0 & E & R).
  exists s0, s. split; [exact E0|]. split; [exact E|]. exact (rel_agrees w _ _ _ R).
Qed.
Print Assumptions C133_book.

(** Recipes that are not edited stay as they are. *)
Theorem C133_others : forall w t j f g ds js s0 s r v jv, starts t f g -> Forall proper ds -> timely t ds -> length js = length ds ->
  boot w t j f None = Some s0 -> run w s0 (combine (map call ds) js) = Some s ->
  1 <= r < 25 -> 0 <= v < 120 -> ~ In (SGo r) ds -> ~ In SReload ds ->
  get w jv (mem s) r v = get w jv f r v /\ read_name (mem s) r = read_name f r.
Proof.
  intros w t j f g ds js s0 s r v jv S P M L B E Hr V G NR. destruct (from_boot w t j f g ds js S P M L) as (s0' & s' & B' & E' & R).
  rewrite B in B'. injection B' as <-. rewrite E in E'. injection E' as <-.
  assert (K : recs (s_run (s_boot t g) ds) r = g r) by (apply other_kept; cbn; auto; lia).
  assert (Q : 0 <= r < 25) by lia. pose proof (r_mem _ _ _ R r Q) as H1. rewrite K in H1. destruct S as (T & F & S). pose proof (F r Q) as H2. split.
  - unfold get. rewrite val_inside by lia. cbv zeta. rewrite (holds_val (mem s) r (g r) v V H1), (holds_val f r (g r) v V H2). reflexivity.
  - rewrite (holds_name (mem s) r (g r) Q (proj1 (S r Q)) H1), (holds_name f r (g r) Q (proj1 (S r Q)) H2). reflexivity.
Qed.
Print Assumptions C133_others.

(** When the controller is switched off the name that is shown is kept, too. *)
Theorem C133_shutdown : forall w t j f g ds js s0 s j1, starts t f g -> Forall proper ds -> timely t ds -> length js = length ds ->
  boot w t j f None = Some s0 -> run w s0 (combine (map call ds) js) = Some s ->
  exists f1, shut j1 s = Some f1 /\
    let b := s_run (s_boot t g) ds in file_of f1 (put_rec (place b) (with_name (shown b) (recs b (place b))) (recs b)).
Proof.
  intros w t j f g ds js s0 s j1 S P M L B E. destruct (from_boot w t j f g ds js S P M L) as (s0' & s' & B' & E' & R).
  rewrite B in B'. injection B' as <-. rewrite E in E'. injection E' as <-.
  unfold shut. destruct (save_ok _ _ _ j1 R) as (m & -> & F). exists m. split; [reflexivity|exact F].
Qed.
Print Assumptions C133_shutdown.

Lemma shown_by : forall (o : option mgr) (P : mgr -> Prop), match o with Some s => P s | None => False end -> exists s, o = Some s /\ P s.
Proof. intros [s|] P H; [exists s; auto|contradiction]. Qed.
(** A dash in a name, 0xE2 0x80 0x94: what is stored depends on bytes that were never written. *)
Definition dash : list Z := [0x41; 0xE2; 0x80; 0x94].
Definition jz (x : Z) : junk := {| jb := fun _ => x; hi := x |}.
Definition zero_file : Z -> Z := fun _ => 0.
Definition after (w : Z) (es : list (ev * junk)) : option mgr :=
  match boot w 0 (jz 0) zero_file None with Some s => run w s es | None => None end.
Theorem C133_refuted_dash : exists s1, after 32 [(Rename dash, jz 0); (Tick 10001, jz 0x42)] = Some s1 /\ read_name (mem s1) 0 = None
  /\ exists s2, after 32 [(Rename dash, jz 0); (Tick 10001, jz 0)] = Some s2 /\ read_name (mem s2) 0 = Some [0x41].
Proof.
  assert (A : exists s2, after 32 [(Rename dash, jz 0); (Tick 10001, jz 0)] = Some s2 /\ read_name (mem s2) 0 = Some [65]).
  { apply shown_by. vm_compute. reflexivity. }
  assert (B : exists s1, after 32 [(Rename dash, jz 0); (Tick 10001, jz 66)] = Some s1 /\ read_name (mem s1) 0 = None).
  { apply shown_by. vm_compute. reflexivity. }
  destruct B as (s1 & E & B). exists s1. split; [exact E|]. split; [exact B|exact A].
Qed.
Print Assumptions C133_refuted_dash.
(** 18 characters of four bytes are accepted as a name and have no end. *)
Definition smiles : list Z := concat (repeat [0xF0; 0x9F; 0x98; 0x80] 18).
Theorem C133_refuted_wide : utf8_strlen smiles < 24 /\ after 32 [(Rename smiles, jz 0); (Tick 10001, jz 0)] = None.
Proof. split; [vm_compute; reflexivity|vm_compute; reflexivity]. Qed.
Print Assumptions C133_refuted_wide.
(** Value 121 of a recipe is the beginning of the name of the next one; of the last recipe there is none. *)
Theorem C133_refuted_index : (exists s, after 32 [(Edit 5 121 0x41414141, jz 0)] = Some s /\ read_name (mem s) 1 = Some [0x41; 0x41; 0x41; 0x41])
  /\ read_name zero_file 1 = Some [] /\ after 32 [(Go 24, jz 0); (Edit 5 121 0x41414141, jz 0)] = None.
Proof. split; [apply shown_by; vm_compute; reflexivity|]. split; vm_compute; reflexivity. Qed.
Print Assumptions C133_refuted_index.
(** An erased value reads as -1000 if a long has 32 bits; otherwise it depends on what was in memory. *)
Theorem C133_erased : forall m r v j, 0 <= r < 25 -> 0 <= v < 120 -> word (fun k => m (at_val r v + k)) = 0xFFFFFFFF ->
  get 32 j m r v = Some 0xC47A0000 /\ get 64 j m r v = Some (if hi j =? 0 then 0xC47A0000 else 0xFFFFFFFF).
Proof. intros m r v j R V E. unfold get. rewrite val_inside by assumption. cbv zeta. rewrite E. split; [reflexivity|]. destruct (hi j =? 0); reflexivity. Qed.
Print Assumptions C133_erased.
(** A copy made before the new name was put down has the old name. *)
Theorem C133_refuted_copy : exists s,
  after 32 (combine (map call [SName [65]; SVal 5 1 (flt 2); STick 6; SGo 1; SVal 7 1 (flt 3); STick 8]) (repeat (jz 0) 6)) = Some s
  /\ read_name (mem s) 0 = Some [65] /\ read_name (mem s) 1 = Some [].
Proof. apply shown_by. vm_compute. auto. Qed.
Print Assumptions C133_refuted_copy.

(** * C134: saving *)

Theorem C134_saved : forall w t j f g ds1 ds2 js s0 s, starts t f g -> Forall proper (ds1 ++ ds2) -> timely t (ds1 ++ ds2) -> length js = length (ds1 ++ ds2) ->
  boot w t j f None = Some s0 -> run w s0 (combine (map call (ds1 ++ ds2)) js) = Some s ->
  no_orders (recs (s_run (s_boot t g) ds1)) -> Forall quiet ds2 -> (exists u, In (STick u) ds2 /\ last_time t ds1 + 30000 < u) ->
  forall r v jv, 0 <= r < 25 -> 0 <= v < 120 -> get w jv (file s) r v = get w jv (mem s) r v.
Proof.
  intros w t j f g ds1 ds2 js s0 s S P M L B E N Q U r v jv Hr V. destruct (from_boot w t j f g _ js S P M L) as (s0' & s' & B' & E' & R).
  rewrite B in B'. injection B' as <-. rewrite E in E'. injection E' as <-.
  apply (get_both w _ s _ r v jv R Hr V).
  assert (C : clean (s_run (s_boot t g) (ds1 ++ ds2))) by (apply clean_run; intros _ x y; reflexivity).
  apply C. unfold s_run in *. rewrite fold_left_app. fold (s_run (s_boot t g) ds1). set (b1 := s_run (s_boot t g) ds1) in *.
  assert (I1 : idle (last_time t ds1) b1).
  { apply timely_app in M. destruct M as [M _]. apply Forall_app in P. destruct P as [P _].
    destruct (from_boot w t j f g ds1 (repeat j (length ds1)) S P M (repeat_length _ _)) as (s1 & s2 & _ & _ & R1). fold b1 in R1.
    split; [apply R1|]. split; [exact N|]. intros _. pose proof (r_t2 _ _ _ R1). lia. }
  exact (saved_run _ ds2 b1 I1 Q U).
Qed.
Print Assumptions C134_saved.

(** Values that are changed every 30 s never reach the file. *)
Fixpoint busy (k : Z) (n : nat) : list deed :=
  match n with O => [] | S m => SVal (30000 * k) 2 (flt 5) :: STick (30000 * (k + 1)) :: busy (k + 1) m end.
Lemma busy_ledger : forall n k b, rval (recs b (place b)) 1 = 0 -> disk (s_run b (busy k n)) = disk b /\ (n <> O -> rval (recs (s_run b (busy k n)) (place b)) 2 = flt 5)
   /\ place (s_run b (busy k n)) = place b.
Proof.
  induction n as [|n IH]; intros k b Z0; [split; [reflexivity|split; [congruence|reflexivity]]|]. cbn [busy].
  change (s_run b (SVal (30000 * k) 2 (flt 5) :: STick (30000 * (k + 1)) :: busy (k + 1) n)) with
    (s_run (s_step (s_step b (SVal (30000 * k) 2 (flt 5))) (STick (30000 * (k + 1)))) (busy (k + 1) n)).
  set (b1 := s_step b (SVal (30000 * k) 2 (flt 5))).
  set (b2 := s_name (30000 * (k + 1)) b1).
  assert (A : disk b2 = disk b /\ place b2 = place b /\ edit_t b2 = 30000 * k /\ rval (recs b2 (place b)) 1 = 0 /\ rval (recs b2 (place b)) 2 = flt 5).
  { unfold b2, s_name. destruct (10000 <? 30000 * (k + 1) - synced b1); cbn [b1 s_step disk place edit_t recs]; rewrite ?put_same; cbn [rval with_val with_name];
      change (1 =? 2) with false; change (2 =? 2) with true; cbn iota; rewrite ?put_same; cbn [rval with_val]; repeat split; auto. }
  destruct A as (A1 & A2 & A3 & A4 & A5).
  assert (E : s_step b1 (STick (30000 * (k + 1))) = b2).
  { cbn [s_step]. fold b2. unfold s_file. rewrite A3. replace (30000 <? 30000 * (k + 1) - 30000 * k) with false by lia.
    unfold s_order. cbv zeta. rewrite A2, A4. reflexivity. }
  rewrite E. rewrite <- A2 in A4. destruct (IH (k + 1) b2 A4) as (I1 & I2 & I3). split; [congruence|]. split; [|congruence].
  intros _. rewrite A2 in I2. destruct n as [|n]; [exact A5|]. apply I2. discriminate.
Qed.
Lemma busy_proper : forall n k, Forall proper (busy k n).
Proof.
  induction n as [|n IH]; intros k; [constructor|]. cbn [busy]. constructor; [|constructor; [exact I|apply IH]].
  cbn [proper]. split; [lia|]. split; [vm_compute; split; congruence|]. intros E. discriminate E.
Qed.
Lemma busy_timely : forall n k t, t <= 30000 * k -> timely t (busy k n).
Proof. induction n as [|n IH]; intros k t T; [exact I|]. cbn [busy timely]. split; [lia|]. split; [lia|]. apply IH. lia. Qed.
Theorem C134_refuted_busy : forall w n js, length js = length (busy 0 (S n)) ->
  exists s0 s, boot w 0 (jz 0) zero_file None = Some s0 /\ run w s0 (combine (map call (busy 0 (S n))) js) = Some s
  /\ get w (jz 0) (mem s) 0 2 = Some (flt 5) /\ get w (jz 0) (file s) 0 2 = Some 0.
Proof.
  intros w n js L. assert (ST : starts 0 zero_file (fun _ => blank)).
  { split; [lia|]. split; [intros r R; apply holds_blank; reflexivity|]. intros r R. split; [apply text_nil|left; reflexivity]. }
  destruct (from_boot w 0 (jz 0) zero_file _ (busy 0 (S n)) js ST (busy_proper _ _) (busy_timely _ 0 0 ltac:(lia)) L) as (s0 & s & E0 & E & R).
  exists s0, s. split; [exact E0|]. split; [exact E|]. destruct (busy_ledger (S n) 0 (s_boot 0 (fun _ => blank)) eq_refl) as (B1 & B2 & _).
  destruct (rel_agrees w _ _ _ R) as (A1 & _ & _ & _ & _ & A2 & _). specialize (B2 ltac:(discriminate)). cbn [place s_boot] in B2. split.
  - rewrite A1; [rewrite B2; reflexivity|lia|lia|rewrite B2; vm_compute; congruence].
  - rewrite A2; [rewrite B1; reflexivity|lia|lia|rewrite B1; cbn; discriminate].
Qed.
Print Assumptions C134_refuted_busy.

(** A new name alone is never written to the file while the controller runs. *)
Lemma ticks_ledger : forall ts b, edited b = false -> rval (recs b (place b)) 1 = 0 -> disk (s_run b (map STick ts)) = disk b.
Proof.
  induction ts as [|t ts IH]; intros b E N; [reflexivity|]. cbn [map]. change (s_run b (STick t :: map STick ts)) with (s_run (s_step b (STick t)) (map STick ts)).
  assert (A : edited (s_name t b) = false /\ disk (s_name t b) = disk b /\ place (s_name t b) = place b /\ rval (recs (s_name t b) (place b)) 1 = 0).
  { unfold s_name. destruct (10000 <? t - synced b); cbn; rewrite ?put_same; auto. }
  destruct A as (A1 & A2 & A3 & A4). cbn [s_step]. set (b1 := s_name t b) in *.
  assert (A : edited (s_file t b1) = false /\ disk (s_file t b1) = disk b /\ place (s_file t b1) = place b /\ rval (recs (s_file t b1) (place b)) 1 = 0).
  { unfold s_file. rewrite A1. destruct (30000 <? t - edit_t b1); cbn; auto. }
  destruct A as (C1 & C2 & C3 & C4). set (b2 := s_file t b1) in *.
  assert (O : s_order t b2 = b2) by (unfold s_order; cbv zeta; rewrite C3, C4; reflexivity). rewrite O, IH; congruence.
Qed.
Theorem C134_refuted_name : forall w t j f g l ts js s0 s, starts t f g -> rval (g 0) 1 = 0 -> text l -> timely t (map STick ts) ->
  length js = length (SName l :: map STick ts) -> boot w t j f None = Some s0 -> run w s0 (combine (map call (SName l :: map STick ts)) js) = Some s ->
  read_name (file s) 0 = read_name f 0.
Proof.
  intros w t j f g l ts js s0 s S O X M L B E.
  assert (P : Forall proper (SName l :: map STick ts)).
  { constructor; [exact X|]. apply Forall_forall. intros d D. apply in_map_iff in D. destruct D as (u & <- & _). exact I. }
  destruct (from_boot w t j f g _ js S P M L) as (s0' & s' & B' & E' & R). rewrite B in B'. injection B' as <-. rewrite E in E'. injection E' as <-.
  change (s_run (s_boot t g) (SName l :: map STick ts)) with (s_run (s_step (s_boot t g) (SName l)) (map STick ts)) in R.
  pose proof (ticks_ledger ts (s_step (s_boot t g) (SName l)) eq_refl O) as D. pose proof (r_file _ _ _ R 0 ltac:(lia)) as H. rewrite D in H. cbn [disk s_step s_boot] in H.
  destruct S as (_ & F & S). rewrite (holds_name (file s) 0 (g 0)) by (lia || apply S || exact H; lia). rewrite (holds_name f 0 (g 0)) by (first [lia | apply S; lia | apply F; lia]). reflexivity.
Qed.
Print Assumptions C134_refuted_name.

(** * C135: defaults *)

Theorem C135_reset : forall w t j f g ds js t1 t2 s0 s jv v, starts t f g -> let all := ds ++ [SVal t1 1 (flt 1); STick t2] in
  Forall proper all -> timely t all -> length js = length all ->
  boot w t j f None = Some s0 -> run w s0 (combine (map call all) js) = Some s ->
  0 <= v < 120 -> v <> 82 -> get w jv (mem s) (cur s) v = Some (default v).
Proof.
  intros w t j f g ds js t1 t2 s0 s jv v S all P M L B E V N. destruct (from_boot w t j f g _ js S P M L) as (s0' & s' & B' & E' & R).
  rewrite B in B'. injection B' as <-. rewrite E in E'. injection E' as <-.
  unfold all, s_run in R. rewrite fold_left_app in R. fold (s_run (s_boot t g) ds) in R. set (b := s_run (s_boot t g) ds) in *. cbn [fold_left] in R.
  set (b1 := s_step b (SVal t1 1 (flt 1))) in *.
  assert (K : forall u c, place (s_file u c) = place c /\ recs (s_file u c) = recs c).
  { intros u c. unfold s_file. destruct (30000 <? u - edit_t c); split; reflexivity. }
  assert (KN : forall u c, place (s_name u c) = place c /\ forall x, rval (recs (s_name u c) (place c)) x = rval (recs c (place c)) x).
  { intros u c. unfold s_name. destruct (10000 <? u - synced c); split; try reflexivity. intros x. cbn. rewrite put_same. reflexivity. }
  assert (Q : place (s_step b1 (STick t2)) = place b1 /\ forall x, 0 <= x < 120 -> x <> 82 -> rval (recs (s_step b1 (STick t2)) (place b1)) x = default x).
  { cbn [s_step]. destruct (K t2 (s_name t2 b1)) as [K1 K2]. destruct (KN t2 b1) as [K3 K4]. set (b2 := s_file t2 (s_name t2 b1)) in *.
    assert (O : rval (recs b2 (place b2)) 1 = flt 1).
    { rewrite K1, K3, K2, K4. unfold b1. cbn [s_step recs place]. rewrite put_same. reflexivity. }
    unfold s_order. cbv zeta. rewrite O. change (flt 1 =? 0) with false. change (flt 1 =? flt 1) with true. cbn iota. cbn [place recs]. rewrite K1, K3. split; [reflexivity|].
    intros x X X82. rewrite put_same. cbn [rval with_val reset_rec]. replace (x =? 82) with false by lia. destruct (Z.eqb_spec x 1) as [->|]; reflexivity. }
  destruct Q as [Q1 Q2]. pose proof (r_cur _ _ _ R) as C. rewrite C, Q1. pose proof (r_place _ _ _ R) as PL. rewrite Q1 in PL.
  rewrite (holds_get w jv (mem s) (place b1) (recs (s_step b1 (STick t2)) (place b1)) v PL V).
  - rewrite Q2 by assumption. reflexivity.
  - apply R, PL.
  - rewrite Q2 by assumption. assert (D : negb (default v =? 4294967295) = true).
    { apply (forall_120 (fun v => negb (default v =? 4294967295))); [vm_compute; reflexivity|exact V]. } lia.
Qed.
Print Assumptions C135_reset.

(** The signal of circulation keeps its channel. *)
Theorem C135_refuted_all : exists s, after 32 (combine (map call [SVal 1 82 (flt 7); SVal 2 83 (flt 7); SVal 3 1 (flt 1); STick 4]) (repeat (jz 0) 4)) = Some s
  /\ get 32 (jz 0) (mem s) 0 82 = Some (flt 7) /\ get 32 (jz 0) (mem s) 0 83 = Some 0.
Proof. apply shown_by. vm_compute. auto. Qed.
Print Assumptions C135_refuted_all.

(** * C136: names of media *)

Theorem C136_plain : forall names rs s, 0 <= mcur s < 10 -> (forall r, 0 <= r < 10 -> plain (names r)) ->
  (forall r, 0 <= r < 10 -> array_of (media_name s r) (names r)) ->
  exists s1, m_tour rs s = Some s1 /\ forall r, 0 <= r < 10 -> array_of (media_name s1 r) (names r).
Proof. intros names rs s C P A. destruct (plain_tour names rs s C P A) as (s1 & E & _ & H). exists s1. auto. Qed.
Print Assumptions C136_plain.
(** Another letter is encoded again whenever the medium is chosen again; the tenth time at the latest the name
    does not fit. *)
Theorem C136_refuted_wide : forall s a b l other, 0 <= a < 10 -> 0 <= b < 10 -> a <> b -> mcur s = a ->
  array_of (mname s) l -> wide l -> array_of (stored s b) other -> plain other ->
  m_tour (concat (repeat [b; a] 10)) s = None.
Proof.
  intros s a b l other A B N C M W O P. destruct (wide_good l W) as [F G]. destruct (bounce 10 s a b l other A B N C M F O P) as [E|K]; [exact E|].
  pose proof (grows l F G). specialize (K ltac:(discriminate)). lia.
Qed.
Print Assumptions C136_refuted_wide.
(** No name can be changed: what is not refused is written past the end of its array. *)
Theorem C136_refuted_rename : forall t s s1, m_rename t s = Some s1 -> s1 = s /\ 30 <= utf8_strlen t.
Proof.
  intros t s s1 E. unfold m_rename in E. destruct (Z.ltb_spec (utf8_strlen t) MLEN) as [L|L].
  - change (c_strncpy MLEN (MLEN * 3) t) with (@None (list Z)) in E. discriminate.
  - injection E as <-. split; [reflexivity|exact L].
Qed.
Print Assumptions C136_refuted_rename.
Definition two (a b : list Z) : media := {| stored := fun r => if r =? 0 then a else b; mcur := 0; mname := a |}.
Example media_example :
  match m_tour [1; 0] (two ([200] ++ repeat 0 29) (repeat 0 30)) with Some s => before_zero (mname s) | None => None end = Some [208; 152]
  /\ match m_tour [1; 0; 3; 12; 0] (two ([65; 66] ++ repeat 0 28) (repeat 0 30)) with Some s => before_zero (mname s) | None => None end = Some [65; 66].
Proof. split; vm_compute; reflexivity. Qed.

(** * C137: selection *)

Lemma load_vals_ok : forall w j m g r n from to par, 0 <= r < 25 -> 0 <= from -> from + Z.of_nat n <= 120 -> file_of m g ->
  (forall v, 0 <= v < 120 -> rval (g r) v <> 0xFFFFFFFF) ->
  exists p, load_vals w j m r from to n par = Some p /\ forall i, p i = if (to <=? i) && (i <? to + Z.of_nat n) then rval (g r) (from + (i - to)) else par i.
Proof.
  intros w j m g r n. induction n as [|n IH]; intros from to par R A L F V.
  - exists par. split; [reflexivity|]. intros i. destruct ((to <=? i) && (i <? to + Z.of_nat 0)) eqn:E; [apply andb_prop in E; lia|reflexivity].
  - cbn [load_vals]. rewrite (holds_get w j m r (g r) from R) by first [lia | apply F; lia | apply V; lia].
    destruct (IH (from + 1) (to + 1) (fun i => if i =? to then rval (g r) from else par i) R) as (p & -> & H); try assumption; try lia.
    exists p. split; [reflexivity|]. intros i. rewrite H. destruct (Z.eqb_spec i to) as [->|N].
    + replace ((to + 1 <=? to) && (to <? to + 1 + Z.of_nat n)) with false by lia. replace ((to <=? to) && (to <? to + Z.of_nat (S n))) with true by lia.
      f_equal. lia.
    + replace ((to + 1 <=? i) && (i <? to + 1 + Z.of_nat n)) with ((to <=? i) && (i <? to + Z.of_nat (S n))) by lia.
      destruct ((to <=? i) && (i <? to + Z.of_nat (S n))); [f_equal; lia|reflexivity].
Qed.
Theorem C137_select : forall w j m g cnt sel par, file_of m g -> 1 <= sel <= 25 -> 120 <= cnt -> text (rname (g (sel - 1))) ->
  (forall v, 0 <= v < 120 -> rval (g (sel - 1)) v <> 0xFFFFFFFF) ->
  exists p, select w j m cnt sel par = Some (p, shows (rname (g (sel - 1))), sel - 1)
  /\ (forall v, 2 <= v <= 104 -> p (v + 14) = rval (g (sel - 1)) v) /\ (forall i, i < 16 \/ 118 < i -> p i = par i).
Proof.
  intros w j m g cnt sel par F S C T V. unfold select, load_params. replace ((sel - 1 <? NREC) && (2 + 103 <? (SIZE - OFFSET) / 4) && (16 + 103 <? cnt)) with true.
  2: { unfold NREC, SIZE, OFFSET. change ((512 - 32) / 4) with 120. lia. }
  destruct (load_vals_ok w j m g (sel - 1) (Z.to_nat 103) 2 16 par) as (p & -> & H); try lia; try assumption.
  rewrite (holds_name m (sel - 1) (g (sel - 1))) by first [lia | assumption | apply F; lia]. exists p. split; [reflexivity|]. rewrite Z2Nat.id in H by lia. split.
  - intros v Hv. rewrite H. replace ((16 <=? v + 14) && (v + 14 <? 16 + 103)) with true by lia. f_equal. lia.
  - intros i Hi. rewrite H. replace ((16 <=? i) && (i <? 16 + 103)) with false by lia. reflexivity.
Qed.
Print Assumptions C137_select.
(** With less than 120 parameters nothing is loaded, but the recipe counts as selected. *)
Theorem C137_refuted_small : forall w j m g cnt sel par, file_of m g -> 1 <= sel <= 25 -> cnt < 120 -> text (rname (g (sel - 1))) ->
  select w j m cnt sel par = Some (par, shows (rname (g (sel - 1))), sel - 1).
Proof.
  intros w j m g cnt sel par F S C T. unfold select, load_params. replace (16 + 103 <? cnt) with false by lia. rewrite andb_false_r.
  rewrite (holds_name m (sel - 1) (g (sel - 1))) by first [lia | assumption | apply F; lia]. reflexivity.
Qed.
Print Assumptions C137_refuted_small.
(** A number above 25 reads memory outside the recipes. *)
Theorem C137_refuted_number : forall w j m cnt sel par, 25 < sel -> select w j m cnt sel par = None.
Proof.
  intros w j m cnt sel par S. unfold select, load_params. replace (sel - 1 <? NREC) with false by (unfold NREC; lia). cbn [andb].
  unfold read_name. replace (inside (start (sel - 1)) NLEN) with false; [reflexivity|]. unfold inside, start, SIZE, TOTAL, NREC, SIZE, NLEN. lia.
Qed.
Print Assumptions C137_refuted_number.

(** * Examples *)

Definition ja (n : nat) : list junk := repeat (jz 255) n.
Definition story : list deed := [SName [192; 49]; SVal 100 0 (flt 1); SVal 200 5 (flt 40); STick 12000; SGo 3; SName [66]; SVal 13000 7 (flt 9); STick 25000; STick 44000].
Example story_ok : Forall proper story /\ timely 0 story.
Proof.
  split.
  - repeat constructor; try (cbn; lia); try (vm_compute; congruence).
  - cbn. lia.
Qed.
Example story_book : match after 64 (combine (map call story) (ja 9)) with
  | Some s => (read_name (mem s) 0, read_name (mem s) 3, get 64 (jz 1) (file s) 0 5, get 64 (jz 1) (mem s) 3 7, txt s)
  | None => (None, None, None, None, [])
  end = (Some [208; 144; 49], Some [66], Some (flt 40), Some (flt 9), [49; 35; 35; 208; 144; 49; 124; 124]).
Proof. vm_compute. reflexivity. Qed.
Example select_example : match select 64 (jz 0) (copy_in zero_file (at_val 2 10) 4 (byte_of (flt 77))) 150 3 (fun _ => 1) with
  | Some (p, n, k) => (p 24, p 25, p 119, n, k) | None => (0, 0, 0, [], 0) end = (flt 77, 0, 1, [], 2).
Proof. vm_compute. reflexivity. Qed.
Example reset_example : default 2 = flt 200 /\ default 52 = flt 130 /\ default 119 = 0.
Proof. vm_compute. auto. Qed.
