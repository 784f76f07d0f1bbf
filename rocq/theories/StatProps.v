(** Property C46: washing statistics. *)
From Coq Require Import ZArith List Bool Lia.
From Verif Require Import Base FTextModel StatModel StatSpec StatProofs StatProofs2.
Import ListNotations.
Open Scope Z_scope.

(** Writing all records and reading them gives the same records. *)
Theorem C46_round_trip : forall l, ordered l -> Forall (fun p => ok_rec (snd p)) l ->
  Z.of_nat (length l) < 2 ^ 31 -> get_all (put_all l) = Some l.
Proof. exact get_all_put. Qed.
Print Assumptions C46_round_trip.

(** What every event does to the record of every object. *)
Theorem C46_records : forall b e b' k, e <> SRestart -> stat_step b e = Some b' ->
  shown k (b_recs b') = touch k e (shown k (b_recs b)).
Proof.
  intros b e b' k NR H. destruct e as [id|id|id d|id p d a|ok|]; cbn [stat_step] in H; [ | | | | |congruence].
  - rewrite lookup_shown in H. destruct (shown id (b_recs b)) as [r|] eqn:E.
    + injection H as <-. cbn [touch]. destruct (list_eq_dec Z.eq_dec k id) as [->|]; [rewrite E; reflexivity|].
      destruct (shown k (b_recs b)); reflexivity.
    + destruct (fits ID_SIZE id); [|discriminate]. injection H as <-. cbn [with_recs b_recs touch].
      rewrite shown_emplace by exact E. destruct (list_eq_dec Z.eq_dec k id) as [->|]; [rewrite E; reflexivity|].
      destruct (shown k (b_recs b)); reflexivity.
  - rewrite lookup_shown in H. destruct (shown id (b_recs b)) as [r|] eqn:E.
    + destruct (r_n r =? 2 ^ 31 - 1); [discriminate|]. injection H as <-. cbn [with_recs b_recs touch].
      rewrite shown_change. destruct (shown k (b_recs b)); destruct (list_eq_dec Z.eq_dec k id); reflexivity.
    + injection H as <-. cbn [touch]. destruct (list_eq_dec Z.eq_dec k id) as [->|]; [rewrite E; reflexivity|].
      destruct (shown k (b_recs b)); reflexivity.
  - destruct (fits FIELD_SIZE d); [|discriminate]. injection H as <-. cbn [with_recs b_recs touch].
    rewrite shown_change. destruct (shown k (b_recs b)); destruct (list_eq_dec Z.eq_dec k id); reflexivity.
  - destruct (fits FIELD_SIZE p && fits FIELD_SIZE d); [|discriminate]. injection H as <-. cbn [b_recs touch].
    rewrite shown_change. destruct (shown k (b_recs b)); destruct (list_eq_dec Z.eq_dec k id); reflexivity.
  - destruct (b_changed b); injection H as <-; cbn [touch b_recs]; destruct (shown k (b_recs b)); reflexivity.
Qed.
Print Assumptions C46_records.

(** A restart brings back the records as they were at the first evaluation after
    the last completed program, whatever came later. *)
Theorem C46_restart : forall h b es b',
  Forall ok_event (h ++ SEval true :: es) -> Z.of_nat (length h) < 2 ^ 31 ->
  stat_run base_init h = Some b -> b_changed b = true -> forallb no_save es = true ->
  stat_run base_init (h ++ SEval true :: es) = Some b' ->
  exists b2, stat_run base_init (h ++ SEval true :: es ++ [SRestart]) = Some b2 /\
             b_recs b2 = b_recs b.
Proof.
  intros h b es b' F L H C N H'. rewrite stat_run_app, H in H'.
  cbn [stat_run stat_step] in H'. rewrite C in H'.
  change (SEval true :: es ++ [SRestart]) with ((SEval true :: es) ++ [SRestart]).
  rewrite app_assoc, stat_run_app, stat_run_app, H. cbn [stat_run stat_step]. rewrite C, H'.
  destruct (no_save_run es _ b' N (eq_refl : b_changed {| b_recs := b_recs b; b_changed := false; b_file := Some (put_all (b_recs b)) |} = false) H') as (E & _). cbn [b_file] in E.
  apply Forall_app in F. destruct F as (F & _).
  destruct (stat_run_inv h 0 _ _ inv_init F ltac:(cbn; lia) H) as ((O & OK & LN) & _).
  cbn [stat_step]. rewrite E. rewrite get_all_put by (auto; cbn in LN; lia).
  eexists. split; [reflexivity|]. reflexivity.
Qed.
Print Assumptions C46_restart.

(** A program completed without reset marks the records for saving, and only a
    saving evaluation or a restart takes the mark away. *)
Theorem C46_marked : forall b e b', stat_step b e = Some b' ->
  b_changed b' = match e with
                 | SEnd _ _ _ true => true
                 | SEval _ | SRestart => false
                 | _ => b_changed b
                 end.
Proof.
  intros b e b' H. destruct e as [id|id|id d|id p d a|ok|]; cbn [stat_step] in H.
  - destruct (lookup _ _); [injection H as <-; reflexivity|]. destruct (fits _ _); [|discriminate]. injection H as <-. reflexivity.
  - destruct (lookup _ _); [|injection H as <-; reflexivity]. destruct (_ =? _); [discriminate|]. injection H as <-. reflexivity.
  - destruct (fits _ _); [|discriminate]. injection H as <-. reflexivity.
  - destruct (_ && _); [|discriminate]. injection H as <-. destruct a, (b_changed b); reflexivity.
  - destruct (b_changed b) eqn:C; injection H as <-; [reflexivity|exact C].
  - destruct (b_file b); [destruct (get_all _); [|discriminate]|]; injection H as <-; reflexivity.
Qed.
Print Assumptions C46_marked.

(** Starting is always possible with a file written completely. *)
Theorem C46_start_defined : forall h b, Forall ok_event h -> Z.of_nat (length h) < 2 ^ 31 ->
  stat_run base_init h = Some b -> stat_step b SRestart <> None.
Proof.
  intros h b F L H.
  destruct (stat_run_inv h 0 _ _ inv_init F ltac:(cbn; lia) H) as (_ & G).
  cbn [stat_step]. destruct (b_file b) as [t|]; [|discriminate].
  destruct G as (l & -> & (O & OK & LN)). rewrite get_all_put by (auto; cbn in LN; lia). discriminate.
Qed.
Print Assumptions C46_start_defined.

(** A file cut short by a power failure: if reading it does not go wrong, all
    records but the last of the file are restored. *)
Theorem C46_cut : forall l p x, ordered l -> Forall (fun q => ok_rec (snd q)) l -> l <> [] ->
  Z.of_nat (length l) < 2 ^ 31 -> p ++ x = put_all l ->
  forall res, get_all p = Some res -> exists r, res = emplace (r_id r) r (removelast l).
Proof. exact get_all_cut. Qed.
Print Assumptions C46_cut.

(** It does go wrong for an empty file, a file that ends in its first record, and a
    file whose first text is longer than its buffer; a file that ends in its last
    record may bring an object that never existed. *)
Definition two : list (list Z * rec) := [([65], new_rec [65]); ([66], new_rec [66])].
Theorem C46_cut_refuted :
  get_all [] = None /\
  (exists p x, p ++ x = put_all two /\ get_all p = None /\ p <> []) /\
  (exists p x res, p ++ x = put_all two /\ get_all p = Some res /\ map fst res = [[65]; [116]]) /\
  (exists t, get_all (show_int 1 ++ 10 :: show_int 0 ++ put_text t) = None /\ length t = 97%nat).
Proof.
  split; [reflexivity|]. split.
  - exists (firstn 60 (put_all two)), (skipn 60 (put_all two)). split; [apply firstn_skipn|].
    vm_compute. split; [reflexivity|discriminate].
  - split.
    + exists (firstn 90 (put_all two)), (skipn 90 (put_all two)). eexists. split; [apply firstn_skipn|].
      split; [vm_compute; reflexivity|]. reflexivity.
    + exists (repeat 65 97). vm_compute. auto.
Qed.
Print Assumptions C46_cut_refuted.

(** Caustic washes counted after the last completed program are lost, and so is
    everything when the file cannot be opened once. *)
Theorem C46_lost_refuted : exists h b b',
  stat_run base_init h = Some b /\ stat_run base_init (h ++ [SEval true; SRestart]) = Some b' /\
  shown [65] (b_recs b) <> shown [65] (b_recs b').
Proof.
  exists [SSelect [65]; SEnd [65] [80] [68] true; SEval true; SCaustic [65]; SEnd [65] [81] [69] false].
  eexists. eexists. split; [reflexivity|]. split; [vm_compute; reflexivity|]. vm_compute. discriminate.
Qed.
Print Assumptions C46_lost_refuted.

Theorem C46_unwritable_refuted : exists h b b',
  stat_run base_init h = Some b /\ b_changed b = true /\
  stat_run base_init (h ++ [SEval false; SEval true; SRestart]) = Some b' /\
  b_recs b <> [] /\ b_recs b' = [].
Proof.
  exists [SSelect [65]; SEnd [65] [80] [68] true]. eexists. eexists.
  split; [reflexivity|]. split; [reflexivity|]. split; [vm_compute; reflexivity|].
  split; [discriminate|reflexivity].
Qed.
Print Assumptions C46_unwritable_refuted.

(** Two objects, one with separators and a line break in its name. *)
Example C46_example :
  let odd := [35; 53; 35; 10; 32] in
  let h := [SSelect odd; SSelect [65]; SCaustic odd; SCaustic odd; SAcid [65] [49; 50];
            SEnd odd [80] [48; 49] true; SEval true; SCaustic [65]] in
  match stat_run base_init (h ++ [SRestart]) with
  | Some b => map fst (b_recs b) = [odd; [65]] /\
      shown odd (b_recs b) = Some {| r_n := 2; r_id := odd; r_wash := [48; 49]; r_prog := [80]; r_acid := UNKNOWN |} /\
      shown [65] (b_recs b) = Some {| r_n := 0; r_id := [65]; r_wash := UNKNOWN; r_prog := UNDEFINED; r_acid := [49; 50] |}
  | None => False
  end.
Proof. vm_compute. auto. Qed.
