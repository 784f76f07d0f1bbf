(** Recipes: saving and the names of media. *)
From Coq Require Import ZArith List Bool Lia.
From Verif Require Import Base TimeModel UtfModel UtfSpec UtfProofs UtfProps RecModel McrModel McrSpec McrProofs McrProofs2.
Import ListNotations.
Open Scope Z_scope.

(** * Saving *)

Definition same_vals (f g : Z -> recipe) : Prop := forall r v, rval (f r) v = rval (g r) v.
Definition clean (b : ledger) : Prop := edited b = false -> same_vals (disk b) (recs b).
Lemma put_name_vals : forall r l f, same_vals f (put_rec r (with_name l (f r)) f).
Proof. intros r l f q v. unfold put_rec. destruct (Z.eqb_spec q r) as [->|]; reflexivity. Qed.
Lemma clean_name : forall t b, clean b -> clean (s_name t b).
Proof.
  intros t b C. unfold s_name. destruct (10000 <? t - synced b); [|exact C]. unfold clean. cbn. intros E r v. rewrite (C E). apply put_name_vals.
Qed.
Lemma clean_file : forall t b, clean b -> clean (s_file t b).
Proof.
  intros t b C. unfold s_file. destruct (30000 <? t - edit_t b); [|exact C]. unfold clean. cbn. intros _ r v.
  destruct (edited b) eqn:E; [reflexivity|]. apply (C E).
Qed.
Lemma clean_order : forall t b, clean b -> clean (s_order t b).
Proof. intros t b C. unfold s_order. cbv zeta. destruct (rval (recs b (place b)) 1 =? 0); [exact C|]. intros E. discriminate. Qed.
Lemma clean_step : forall b d, clean b -> clean (s_step b d).
Proof.
  intros b d C. destruct d as [l|u v x|r|u| |c]; cbn [s_step].
  - exact C.
  - intros E. discriminate.
  - destruct ((0 <=? r) && (r <? 25)); [|exact C]. intros E q v. cbn in *. rewrite (C E). apply put_name_vals.
  - apply clean_order, clean_file, clean_name, C.
  - intros E q v. reflexivity.
  - exact C.
Qed.
Lemma clean_run : forall ds b, clean b -> clean (s_run b ds).
Proof. induction ds as [|d ds IH]; intros b C; [exact C|]. apply IH, clean_step, C. Qed.

(** While nothing is changed. *)
Lemma order_none : forall t b, 0 <= place b < 25 -> no_orders (recs b) -> s_order t b = b.
Proof. intros t b P N. unfold s_order. cbv zeta. rewrite (N _ P). reflexivity. Qed.
Definition idle (T : Z) (b : ledger) : Prop := 0 <= place b < 25 /\ no_orders (recs b) /\ (edited b = true -> edit_t b <= T).
Lemma idle_name : forall T u b, idle T b -> idle T (s_name u b).
Proof.
  intros T u b (A & B & C). unfold s_name. destruct (10000 <? u - synced b); [|split; auto]. split; [exact A|]. split; [|exact C].
  intros r R. cbn. rewrite <- put_name_vals. auto.
Qed.
Lemma idle_file : forall T u b, idle T b -> idle T (s_file u b).
Proof. intros T u b (A & B & C). unfold s_file. destruct (30000 <? u - edit_t b); [|split; auto]. split; [exact A|]. split; [exact B|]. discriminate. Qed.
Lemma idle_tick : forall T u b, idle T b -> s_step b (STick u) = s_file u (s_name u b).
Proof. intros T u b I. cbn [s_step]. apply order_none; apply (idle_file T), idle_name, I. Qed.
Lemma idle_step : forall T b d, idle T b -> quiet d -> idle T (s_step b d).
Proof.
  intros T b d I Q. destruct d as [l|u v x|r|u| |c]; try contradiction.
  - exact I.
  - cbn [s_step]. destruct ((0 <=? r) && (r <? 25)) eqn:E; [|exact I]. destruct I as (A & B & C). apply andb_prop in E. split; [cbn; lia|]. split; [|exact C].
    intros q R. cbn. rewrite <- put_name_vals. auto.
  - rewrite (idle_tick T) by exact I. apply idle_file, idle_name, I.
  - exact I.
Qed.
Lemma name_edited : forall u b, edited (s_name u b) = edited b /\ edit_t (s_name u b) = edit_t b.
Proof. intros u b. unfold s_name. destruct (10000 <? u - synced b); split; reflexivity. Qed.
Lemma quiet_edited : forall T b d, idle T b -> quiet d -> edited b = false -> edited (s_step b d) = false.
Proof.
  intros T b d I Q E. destruct d as [l|u v x|r|u| |c]; try contradiction; auto.
  - cbn [s_step]. destruct ((0 <=? r) && (r <? 25)); exact E.
  - rewrite (idle_tick T) by exact I. unfold s_file. destruct (30000 <? u - edit_t (s_name u b)); [reflexivity|]. rewrite (proj1 (name_edited u b)). exact E.
Qed.
Lemma quiet_run : forall T ds b, idle T b -> Forall quiet ds -> idle T (s_run b ds) /\ (edited b = false -> edited (s_run b ds) = false).
Proof.
  intros T ds. induction ds as [|d ds IH]; intros b I Q; [split; auto|]. inversion Q as [|? ? Q1 Q2]; subst.
  destruct (IH (s_step b d) (idle_step T b d I Q1) Q2) as [A B]. split; [exact A|]. intros E. apply B. apply (quiet_edited T); assumption.
Qed.
Lemma saved_run : forall T ds b, idle T b -> Forall quiet ds -> (exists u, In (STick u) ds /\ T + 30000 < u) -> edited (s_run b ds) = false.
Proof.
  intros T ds. induction ds as [|d ds IH]; intros b I Q (u & H & U); [contradiction|]. inversion Q as [|? ? Q1 Q2]; subst.
  change (s_run b (d :: ds)) with (s_run (s_step b d) ds). pose proof (idle_step T b d I Q1) as I1. destruct H as [->|H].
  - apply (quiet_run T); auto. rewrite (idle_tick T) by exact I. unfold s_file. destruct (name_edited u b) as [N1 N2]. rewrite N2.
    destruct (Z.ltb_spec 30000 (u - edit_t b)) as [L|L]; [reflexivity|]. rewrite N1. destruct I as (_ & _ & C).
    destruct (edited b) eqn:E; [|reflexivity]. specialize (C eq_refl). lia.
  - apply IH; auto. exists u. auto.
Qed.
Lemma run_app : forall w es1 es2 s, run w s (es1 ++ es2) = match run w s es1 with Some s1 => run w s1 es2 | None => None end.
Proof.
  intros w es1. induction es1 as [|e es1 IH]; intros es2 s; [reflexivity|]. cbn [app run]. destruct (step w s e); [apply IH|reflexivity].
Qed.
Lemma timely_app : forall ds1 ds2 t, timely t (ds1 ++ ds2) -> timely t ds1 /\ timely (last_time t ds1) ds2.
Proof.
  intros ds1. induction ds1 as [|d ds1 IH]; intros ds2 t T; [split; [exact I|exact T]|]. cbn [app] in T. apply timely_cons in T. destruct T as [T1 T2].
  destruct (IH _ _ T2) as [A B]. split.
  - destruct d; cbn in *; auto.
  - destruct d; exact B.
Qed.
(** The run with its time. *)
Lemma run_rel : forall w ds t s b js, rel t s b -> Forall proper ds -> timely t ds -> length js = length ds ->
  exists s1, run w s (combine (map call ds) js) = Some s1 /\ rel (last_time t ds) s1 (s_run b ds).
Proof.
  intros w ds. induction ds as [|d ds IH]; intros t s b js R P T L.
  - exists s. split; [reflexivity|exact R].
  - destruct js as [|j js]; [discriminate|]. inversion P as [|? ? P1 P2]; subst. apply timely_cons in T. destruct T as [T1 T2].
    destruct (step_ok w t s b d j R P1 T1) as (s1 & E & R1). cbn [map combine]. injection L as L.
    destruct (IH _ s1 _ js R1 P2 T2 L) as (s2 & E2 & R2). exists s2. split; [|destruct d; exact R2]. cbn [run]. rewrite E. exact E2.
Qed.
Lemma get_both : forall w t s b r v j, rel t s b -> 0 <= r < 25 -> 0 <= v < 120 -> rval (disk b r) v = rval (recs b r) v ->
  get w j (file s) r v = get w j (mem s) r v.
Proof.
  intros w t s b r v j R Hr V E. unfold get. rewrite val_inside by assumption. cbv zeta.
  rewrite (holds_val (file s) r (disk b r) v V) by (apply R; exact Hr). rewrite (holds_val (mem s) r (recs b r) v V) by (apply R; exact Hr). rewrite E. reflexivity.
Qed.

(** * Recipes that are not edited *)
Lemma other_kept : forall r ds b, 0 <= r < 25 -> place b <> r -> ~ In (SGo r) ds -> ~ In SReload ds ->
  recs (s_run b ds) r = recs b r.
Proof.
  intros r ds. induction ds as [|d ds IH]; intros b Hr P G L; [reflexivity|]. change (s_run b (d :: ds)) with (s_run (s_step b d) ds).
  cbn [In] in G, L.
  assert (K : place (s_step b d) <> r /\ recs (s_step b d) r = recs b r).
  { destruct d as [l|u v x|q|u| |c]; cbn [s_step]; try (split; [exact P|reflexivity]).
    - split; [exact P|]. cbn. apply put_other. congruence.
    - destruct ((0 <=? q) && (q <? 25)); [|split; [exact P|reflexivity]]. cbn. split; [intros ->; apply G; left; reflexivity|]. apply put_other. congruence.
    - assert (A : place (s_name u b) = place b /\ recs (s_name u b) r = recs b r).
      { unfold s_name. destruct (10000 <? u - synced b); [|split; reflexivity]. split; [reflexivity|]. cbn. apply put_other. congruence. }
      assert (B : place (s_file u (s_name u b)) = place b /\ recs (s_file u (s_name u b)) r = recs b r).
      { unfold s_file. destruct (30000 <? u - edit_t (s_name u b)); exact A. }
      destruct B as [B1 B2]. generalize dependent (s_file u (s_name u b)). intros b1 B1 B2. unfold s_order. cbv zeta.
      destruct (rval (recs b1 (place b1)) 1 =? 0); [split; congruence|]. cbn. split; [congruence|]. rewrite put_other by congruence. exact B2.
    - exfalso. apply L. left. reflexivity. }
  destruct K as [K1 K2]. rewrite IH; auto.
Qed.

(** * Media *)

Lemma before_array : forall l rest, Forall (fun c => c <> 0) l -> before_zero (l ++ 0 :: rest) = Some l.
Proof.
  induction l as [|c l IH]; intros rest F; [reflexivity|]. inversion F; subst. cbn [app before_zero]. replace (c =? 0) with false by lia.
  rewrite IH by assumption. reflexivity.
Qed.
Lemma plain_same : forall l, Forall (fun c => 0 < c < 128) l -> win1251_to_utf8 l = l.
Proof.
  intros l F. rewrite to_utf8_spec by (eapply Forall_impl; [|exact F]; unfold chr; intros; lia).
  induction l as [|c l IH]; [reflexivity|]. inversion F; subst. cbn [filter]. replace (defined c) with true by (unfold defined; lia).
  cbn [map]. unfold utf8 in *. cbn [flat_map]. rewrite IH by assumption.
  assert (E : utf8_enc (cp1251 c) = [c]). { unfold cp1251. replace (c <? 128) with true by lia. unfold utf8_enc. replace (c <? 128) with true by lia. reflexivity. }
  rewrite E. reflexivity.
Qed.
Lemma plain_load : forall s l, array_of (stored s (mcur s)) l -> plain l ->
  exists s1, m_load s = Some s1 /\ stored s1 = stored s /\ mcur s1 = mcur s /\ array_of (mname s1) l.
Proof.
  intros s l (rest & E) (L & F). unfold m_load. rewrite E, before_array by (eapply Forall_impl; [|exact F]; intros; cbn in *; lia). cbv zeta.
  rewrite plain_same by exact F. replace (Z.of_nat (length l) + 1 <=? MLEN) with true by (unfold MLEN; lia).
  eexists. split; [reflexivity|]. cbn. split; [reflexivity|]. split; [reflexivity|]. exists (skipn (S (length l)) (mname s)). reflexivity.
Qed.
Lemma plain_tour : forall names rs s, 0 <= mcur s < 10 -> (forall r, 0 <= r < 10 -> plain (names r)) ->
  (forall r, 0 <= r < 10 -> array_of (media_name s r) (names r)) ->
  exists s1, m_tour rs s = Some s1 /\ 0 <= mcur s1 < 10 /\ forall r, 0 <= r < 10 -> array_of (media_name s1 r) (names r).
Proof.
  intros names rs. induction rs as [|q rs IH]; intros s C P A; [exists s; auto|]. cbn [m_tour]. unfold m_go.
  destruct ((0 <=? q) && (q <? 10)) eqn:E; [|apply IH; auto]. apply andb_prop in E. assert (Q : 0 <= q < 10) by lia.
  set (s0 := {| stored := stored (m_save s); mcur := q; mname := mname s |}).
  assert (S0 : forall r, 0 <= r < 10 -> array_of (stored s0 r) (names r)) by (intros r R; exact (A r R)).
  destruct (plain_load s0 (names q) (S0 q Q) (P q Q)) as (s1 & -> & E1 & E2 & E3). apply IH.
  - rewrite E2. exact Q.
  - exact P.
  - intros r R. unfold media_name. rewrite E2, E1. cbn [mcur s0]. destruct (Z.eqb_spec r q) as [->|N]; [exact E3|]. apply S0, R.
Qed.

(** Letters of more than one byte. *)
Definition good (c : Z) : bool := (128 <=? c) && negb (c =? 152).
Definition lead (c : Z) : bool := (192 <=? c) && negb (c =? 200).
Definition count (p : Z -> bool) (l : list Z) : nat := length (filter p l).
Definition enc1 (c : Z) : list Z := if defined c then utf8_enc (cp1251 c) else [].
Lemma count_le : forall p l, (count p l <= length l)%nat.
Proof. intros p l. unfold count. induction l as [|c l IH]; cbn; [lia|]. destruct (p c); cbn; lia. Qed.
Lemma count_app : forall p a b, count p (a ++ b) = (count p a + count p b)%nat.
Proof. intros. unfold count. rewrite filter_app, app_length. reflexivity. Qed.
Lemma enc_list : forall l, Forall chr l -> win1251_to_utf8 l = flat_map enc1 l.
Proof.
  intros l F. rewrite to_utf8_spec by exact F. clear F. induction l as [|c l IH]; [reflexivity|]. cbn [filter flat_map]. unfold enc1 at 1.
  destruct (defined c); [|exact IH]. cbn [map]. unfold utf8 in *. cbn [flat_map]. rewrite IH. reflexivity.
Qed.
Lemma forall_256 : forall f : Z -> bool, forallb f (map Z.of_nat (seq 1 255)) = true -> forall c, chr c -> f c = true.
Proof.
  intros f H c C. unfold chr in C. rewrite forallb_forall in H. apply H. apply in_map_iff. exists (Z.to_nat c). split; [lia|]. apply in_seq. lia.
Qed.
Definition enc_fact (c : Z) : bool :=
  forallb (fun x => (0 <? x) && (x <? 256)) (enc1 c)
  && (Nat.eqb (count lead (enc1 c)) (if good c then 1 else 0))
  && (Nat.leb (if lead c then 2 else 0) (count good (enc1 c))).
Lemma enc_facts : forall c, chr c -> enc_fact c = true.
Proof. apply (forall_256 enc_fact). vm_compute. reflexivity. Qed.
Lemma enc_all : forall l, Forall chr l ->
  Forall chr (flat_map enc1 l) /\ count lead (flat_map enc1 l) = count good l /\ (2 * count lead l <= count good (flat_map enc1 l))%nat.
Proof.
  induction l as [|c l IH]; intros F; [split; [constructor|split; [reflexivity|cbn; lia]]|]. inversion F as [|? ? C F1]; subst. destruct (IH F1) as (A & B & D).
  pose proof (enc_facts c C) as E. unfold enc_fact in E. apply andb_prop in E. destruct E as [E E3]. apply andb_prop in E. destruct E as [E1 E2].
  cbn [flat_map]. rewrite !count_app. apply Nat.eqb_eq in E2. apply Nat.leb_le in E3. split; [|split].
  - apply Forall_app. split; [|exact A]. apply Forall_forall. intros x I. rewrite forallb_forall in E1. apply E1 in I. unfold chr. lia.
  - rewrite E2, B. unfold count. cbn [filter]. destruct (good c); cbn [length]; lia.
  - unfold count at 1. cbn [filter]. destruct (lead c); cbn [length] in *; unfold count in *; lia.
Qed.
Fixpoint again (n : nat) (l : list Z) : list Z := match n with O => l | S k => again k (flat_map enc1 l) end.
Lemma grows : forall l, Forall chr l -> (1 <= count good l)%nat -> (30 <= length (again 10 l))%nat.
Proof.
  intros l F0 G0. cbn [again].
  set (l1 := flat_map enc1 l). destruct (enc_all l F0) as (F1 & A1 & B1). fold l1 in F1, A1, B1. clearbody l1.
  set (l2 := flat_map enc1 l1). destruct (enc_all l1 F1) as (F2 & A2 & B2). fold l2 in F2, A2, B2. clearbody l2.
  set (l3 := flat_map enc1 l2). destruct (enc_all l2 F2) as (F3 & A3 & B3). fold l3 in F3, A3, B3. clearbody l3.
  set (l4 := flat_map enc1 l3). destruct (enc_all l3 F3) as (F4 & A4 & B4). fold l4 in F4, A4, B4. clearbody l4.
  set (l5 := flat_map enc1 l4). destruct (enc_all l4 F4) as (F5 & A5 & B5). fold l5 in F5, A5, B5. clearbody l5.
  set (l6 := flat_map enc1 l5). destruct (enc_all l5 F5) as (F6 & A6 & B6). fold l6 in F6, A6, B6. clearbody l6.
  set (l7 := flat_map enc1 l6). destruct (enc_all l6 F6) as (F7 & A7 & B7). fold l7 in F7, A7, B7. clearbody l7.
  set (l8 := flat_map enc1 l7). destruct (enc_all l7 F7) as (F8 & A8 & B8). fold l8 in F8, A8, B8. clearbody l8.
  set (l9 := flat_map enc1 l8). destruct (enc_all l8 F8) as (F9 & A9 & B9). fold l9 in F9, A9, B9. clearbody l9.
  set (l10 := flat_map enc1 l9). destruct (enc_all l9 F9) as (F10 & A10 & B10). fold l10 in F10, A10, B10. clearbody l10.
  assert (GL : forall m, Forall chr m -> (count lead m <= count good m)%nat).
  { clear. intros m F. induction F as [|c m C F IH]; [cbn; lia|]. unfold count in *. cbn [filter]. unfold lead, good in *. unfold chr in C.
    destruct (Z.leb_spec 192 c) as [L|L]; cbn [andb]; [destruct (negb (c =? 200))|].
    - replace ((128 <=? c) && negb (c =? 152)) with true by lia. cbn [length]. lia.
    - replace ((128 <=? c) && negb (c =? 152)) with true by lia. cbn [length]. lia.
    - destruct ((128 <=? c) && negb (c =? 152)); cbn [length]; lia. }
  assert (LN : (count good l10 <= length l10)%nat) by apply count_le.
  pose proof (GL l1 F1). pose proof (GL l2 F2). lia.
Qed.

(** A medium that is left and returned to. *)
Lemma there_and_back : forall s a b l other r, 0 <= a < 10 -> 0 <= b < 10 -> a <> b -> mcur s = a ->
  array_of (mname s) l -> Forall chr l -> array_of (stored s b) other -> plain other ->
  m_tour (b :: a :: r) s = None \/
  exists s2, m_tour (b :: a :: r) s = m_tour r s2 /\ mcur s2 = a /\ array_of (mname s2) (flat_map enc1 l) /\ array_of (stored s2 b) other
    /\ (length (flat_map enc1 l) < 30)%nat.
Proof.
  intros s a b l other r A B N C M F O P. cbn [m_tour]. unfold m_go at 1 3. replace ((0 <=? b) && (b <? 10)) with true by lia.
  destruct (plain_load {| stored := stored (m_save s); mcur := b; mname := mname s |} other) as (s1 & -> & E1 & E2 & E3).
  { cbn [stored m_save mcur]. rewrite C. replace (b =? a) with false by lia. exact O. } { exact P. }
  cbn [stored mcur] in E1, E2. unfold m_go. replace ((0 <=? a) && (a <? 10)) with true by lia.
  assert (L : m_load {| stored := stored (m_save s1); mcur := a; mname := mname s1 |}
     = if Z.of_nat (length (flat_map enc1 l)) + 1 <=? MLEN then Some {| stored := stored (m_save s1); mcur := a; mname := filled (flat_map enc1 l) (mname s1) |} else None).
  { unfold m_load. cbn [mcur stored m_save mname]. rewrite E1, E2. cbn [stored m_save]. rewrite C.
    replace (a =? b) with false by lia. rewrite Z.eqb_refl. destruct M as (rest & EM). rewrite EM, before_array by (eapply Forall_impl; [|exact F]; unfold chr; intros; lia).
    cbv zeta. rewrite enc_list by exact F. reflexivity. }
  rewrite L. destruct (Z.leb_spec (Z.of_nat (length (flat_map enc1 l)) + 1) MLEN) as [K|K]; [|left; reflexivity]. right. unfold MLEN in K.
  eexists. split; [reflexivity|]. cbn [mcur mname stored m_save]. split; [reflexivity|]. split; [eexists; unfold filled; reflexivity|]. split; [|lia].
  rewrite E2, Z.eqb_refl. exact E3.
Qed.
Lemma bounce : forall n s a b l other, 0 <= a < 10 -> 0 <= b < 10 -> a <> b -> mcur s = a ->
  array_of (mname s) l -> Forall chr l -> array_of (stored s b) other -> plain other ->
  m_tour (concat (repeat [b; a] n)) s = None \/ (n <> O -> (length (again n l) < 30)%nat).
Proof.
  induction n as [|n IH]; intros s a b l other A B N C M F O P; [right; congruence|].
  cbn [repeat concat app].
  destruct (there_and_back s a b l other (concat (repeat [b; a] n)) A B N C M F O P) as [E|(s2 & E & C2 & M2 & O2 & K)]; [left; exact E|].
  rewrite E. assert (F2 : Forall chr (flat_map enc1 l)) by apply enc_all, F.
  destruct (IH s2 a b _ other A B N C2 M2 F2 O2 P) as [T3|L3]; [left; exact T3|right]. intros _. cbn [again].
  destruct n as [|n]; [exact K|]. apply L3. discriminate.
Qed.
Lemma wide_good : forall l, wide l -> Forall chr l /\ (1 <= count good l)%nat.
Proof.
  intros l (F & c & I & C & D). split; [exact F|]. unfold count. assert (J : In c (filter good l)) by (apply filter_In; split; [exact I|unfold good; lia]).
  destruct (filter good l); [contradiction|cbn; lia].
Qed.
