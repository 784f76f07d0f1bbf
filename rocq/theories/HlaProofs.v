(** Lemmas about signal columns: single assignments, events, blinking. *)
From Coq Require Import ZArith List Bool Lia.
From Verif Require Import Base TimeModel HlaModel HlaSpec.
Import ListNotations.
Open Scope Z_scope.

Definition hits (wr : wiring) (n m : Z) : bool := (1 <=? n) && (n <=? nch wr) && (m =? n).
Lemma hits_eq wr n m : hits wr n m = true <-> drives wr n /\ m = n.
Proof. unfold hits, drives. rewrite !andb_true_iff, !Z.leb_le, Z.eqb_eq. tauto. Qed.

Section P.
Context (w : Z) (wr : wiring).
Lemma put_li n b c : li (put wr n b c) = li c.
Proof. unfold put. destruct (_ && _); reflexivity. Qed.
Lemma put_siren n b c : siren (put wr n b c) = siren c.
Proof. unfold put. destruct (_ && _); reflexivity. Qed.
Lemma put_shown n b c : shown (put wr n b c) = shown c.
Proof. unfold put. destruct (_ && _); reflexivity. Qed.
Lemma put_man n b c : man (put wr n b c) = man c.
Proof. unfold put. destruct (_ && _); reflexivity. Qed.
Lemma put_self n b c : self (put wr n b c) = self c.
Proof. unfold put. destruct (_ && _); reflexivity. Qed.
Lemma put_out n b c m : out (put wr n b c) m = if hits wr n m then b else out c m.
Proof. unfold put, hits. destruct (_ && _); reflexivity. Qed.

Lemma turn_sp l b c x : sp (li (turn wr l b c) x) = if lamp_eqb x l then (if b then On else Off) else sp (li c x).
Proof. unfold turn, set_li. cbn [li]. destruct (lamp_eqb x l); [reflexivity|]. rewrite put_li. reflexivity. Qed.
Lemma turn_li l b c x : lamp_eqb x l = false -> li (turn wr l b c) x = li c x.
Proof. intros H. unfold turn, set_li. cbn [li]. rewrite H, put_li. reflexivity. Qed.
Lemma turn_siren_ l b c : siren (turn wr l b c) = siren c.
Proof. unfold turn, set_li. cbn [siren]. apply put_siren. Qed.
Lemma turn_shown l b c : shown (turn wr l b c) = shown c.
Proof. unfold turn, set_li. cbn [shown]. apply put_shown. Qed.
Lemma turn_man l b c : man (turn wr l b c) = man c.
Proof. unfold turn, set_li. cbn [man]. apply put_man. Qed.
Lemma turn_self l b c : self (turn wr l b c) = self c.
Proof. unfold turn, set_li. cbn [self]. apply put_self. Qed.
Lemma turn_out l b c m : out (turn wr l b c) m = if hits wr (ch wr l) m then b else out c m.
Proof. unfold turn, set_li. cbn [out]. apply put_out. Qed.
Lemma ts_li b c : li (turn_siren wr b c) = li c.
Proof. unfold turn_siren. rewrite put_li. reflexivity. Qed.
Lemma ts_siren b c : siren (turn_siren wr b c) = b.
Proof. unfold turn_siren. rewrite put_siren. reflexivity. Qed.
Lemma ts_shown b c : shown (turn_siren wr b c) = shown c.
Proof. unfold turn_siren. rewrite put_shown. reflexivity. Qed.
Lemma ts_man b c : man (turn_siren wr b c) = man c.
Proof. unfold turn_siren. rewrite put_man. reflexivity. Qed.
Lemma ts_self b c : self (turn_siren wr b c) = self c.
Proof. unfold turn_siren. rewrite put_self. reflexivity. Qed.
Lemma ts_out b c m : out (turn_siren wr b c) m = if hits wr (sch wr) m then b else out c m.
Proof. unfold turn_siren. rewrite put_out. reflexivity. Qed.

(** Blinking as a step of one lamp: its data and its output. *)
Definition blink1 (now d : Z) (i : info) (o : bool) : info * bool :=
  match sp i with
  | Off | On => ({| sp := BlinkOn; t_on := now; t_off := t_off i |}, o)
  | BlinkOn => (if d <? get_delta_millisec w now (t_on i) then {| sp := BlinkOff; t_on := t_on i; t_off := now |} else i, true)
  | BlinkOff => (if d <? get_delta_millisec w now (t_off i) then {| sp := BlinkOn; t_on := now; t_off := t_off i |} else i, false)
  end.
Lemma lamp_eqb_refl l : lamp_eqb l l = true.
Proof. destruct l; reflexivity. Qed.
Lemma lamp_eqb_eq a b : lamp_eqb a b = true <-> a = b.
Proof. destruct a, b; cbn; split; congruence. Qed.
Lemma blink_li now l d c x : li (blink w wr now l d c) x = if lamp_eqb x l then fst (blink1 now d (li c l) (out c (ch wr l))) else li c x.
Proof.
  unfold blink, blink1. destruct (lamp_eqb x l) eqn:E.
  - apply lamp_eqb_eq in E. subst x. destruct (sp (li c l)) eqn:S; cbn [fst]; try destruct (d <? _); unfold set_li; cbn [li];
      rewrite ?lamp_eqb_refl, ?put_li; reflexivity.
  - destruct (sp (li c l)) eqn:S; cbn [fst]; try destruct (d <? _); unfold set_li; cbn [li]; rewrite ?E, ?put_li; reflexivity.
Qed.
Lemma blink_out now l d c m : out (blink w wr now l d c) m =
  if hits wr (ch wr l) m then snd (blink1 now d (li c l) (out c m)) else out c m.
Proof.
  unfold blink, blink1. destruct (sp (li c l)) eqn:S; cbn [snd]; try destruct (d <? _); unfold set_li; cbn [out];
    rewrite ?put_out; destruct (hits _ _ _); reflexivity.
Qed.
Lemma blink_siren now l d c : siren (blink w wr now l d c) = siren c.
Proof. unfold blink. destruct (sp _); try destruct (d <? _); unfold set_li; cbn [siren]; rewrite ?put_siren; reflexivity. Qed.
Lemma blink_shown now l d c : shown (blink w wr now l d c) = shown c.
Proof. unfold blink. destruct (sp _); try destruct (d <? _); unfold set_li; cbn [shown]; rewrite ?put_shown; reflexivity. Qed.
Lemma blink_man now l d c : man (blink w wr now l d c) = man c.
Proof. unfold blink. destruct (sp _); try destruct (d <? _); unfold set_li; cbn [man]; rewrite ?put_man; reflexivity. Qed.
Lemma blink_self now l d c : self (blink w wr now l d c) = self c.
Proof. unfold blink. destruct (sp _); try destruct (d <? _); unfold set_li; cbn [self]; rewrite ?put_self; reflexivity. Qed.
Lemma blink1_look now d i o : look_of (sp (fst (blink1 now d i o))) = Blinking.
Proof. unfold blink1. destruct (sp i) eqn:E; cbn [fst sp]; try destruct (d <? _); cbn [sp]; rewrite ?E; reflexivity. Qed.

Definition solid (now : Z) (l : lamp) (c : col) : bool := match l with Red => negb (self c) | _ => false end.
Lemma db_eq now l d c : do_blink w wr now l d c = if match l with Red => negb (self c) | _ => false end then turn wr l true c else blink w wr now l d c.
Proof. unfold do_blink. destruct l; try reflexivity. destruct (self c); reflexivity. Qed.
Lemma db_siren now l d c : siren (do_blink w wr now l d c) = siren c.
Proof. rewrite db_eq. destruct (match l with Red => _ | _ => _ end); [apply turn_siren_|apply blink_siren]. Qed.
Lemma db_shown now l d c : shown (do_blink w wr now l d c) = shown c.
Proof. rewrite db_eq. destruct (match l with Red => _ | _ => _ end); [apply turn_shown|apply blink_shown]. Qed.
Lemma db_man now l d c : man (do_blink w wr now l d c) = man c.
Proof. rewrite db_eq. destruct (match l with Red => _ | _ => _ end); [apply turn_man|apply blink_man]. Qed.
Lemma db_self now l d c : self (do_blink w wr now l d c) = self c.
Proof. rewrite db_eq. destruct (match l with Red => _ | _ => _ end); [apply turn_self|apply blink_self]. Qed.
Lemma db_other now l d c x : lamp_eqb x l = false -> li (do_blink w wr now l d c) x = li c x.
Proof. intros H. rewrite db_eq. destruct (match l with Red => _ | _ => _ end); [apply turn_li, H|rewrite blink_li, H; reflexivity]. Qed.
Lemma db_look now l d c : look_of (sp (li (do_blink w wr now l d c) l)) = if match l with Red => negb (self c) | _ => false end then Lit else Blinking.
Proof.
  rewrite db_eq. destruct (match l with Red => _ | _ => _ end).
  - rewrite turn_sp, lamp_eqb_refl. reflexivity.
  - rewrite blink_li, lamp_eqb_refl. apply blink1_look.
Qed.
Lemma db_out now l d c m : hits wr (ch wr l) m = false -> out (do_blink w wr now l d c) m = out c m.
Proof. intros H. rewrite db_eq. destruct (match l with Red => _ | _ => _ end); [rewrite turn_out|rewrite blink_out]; rewrite H; reflexivity. Qed.

(** * Events *)

Lemma show_shown now e c : shown (show w wr now e c) = if man c then shown c else if keeps e (shown c) then shown c else e.
Proof.
  unfold show. destruct (man c); [reflexivity|]. destruct (keeps e (shown c)); [reflexivity|].
  destruct e; cbv zeta; rewrite ts_shown; repeat (rewrite turn_shown || rewrite db_shown); reflexivity.
Qed.
Lemma show_man now e c : man (show w wr now e c) = man c.
Proof.
  unfold show. destruct (man c) eqn:M; [exact M|]. destruct (keeps e (shown c)); [exact M|].
  destruct e; cbv zeta; rewrite ts_man; repeat (rewrite turn_man || rewrite db_man); exact M.
Qed.
Lemma show_self now e c : self (show w wr now e c) = self c.
Proof.
  unfold show. destruct (man c); [reflexivity|]. destruct (keeps e (shown c)); [reflexivity|].
  destruct e; cbv zeta; rewrite ts_self; repeat (rewrite turn_self || rewrite db_self); reflexivity.
Qed.
(** The looks of the event that is shown. *)
Definition face (s : bool) (e : event) : look * look * look * bool :=
  match e with
  | Error => (if s then Blinking else Lit, Dark, Dark, true)
  | Message => (Dark, Blinking, Dark, false)
  | BatchOff | OpOff => (Dark, Lit, Dark, false)
  | BatchOn | OpOn => (Dark, Dark, Lit, false)
  | Idle => (Dark, Dark, Dark, false)
  end.
Lemma show_face now e c : man c = false -> keeps e (shown c) = false -> displayed (show w wr now e c) = face (self c) e.
Proof.
  intros M K. unfold show. rewrite M, K. cbv zeta. unfold displayed.
  destruct e; rewrite ts_siren, ts_li; cbn [face];
    repeat (rewrite turn_sp; cbn [lamp_eqb]);
    rewrite ?(db_other _ Red _ _ Yellow), ?(db_other _ Red _ _ Green), ?(db_other _ Yellow _ _ Red), ?(db_other _ Yellow _ _ Green) by reflexivity;
    rewrite ?db_look; repeat (rewrite turn_sp; cbn [lamp_eqb]); try reflexivity.
  cbn [set_shown self]. destruct (self c); reflexivity.
Qed.
Definition wins (s e : event) : event := if keeps e s then s else e.
Lemma shows_inv (l : list (Z * event)) c : man c = false -> displayed c = face (self c) (shown c) ->
  let c' := run w wr (map (fun x => (fst x, Show (snd x))) l) c in
  man c' = false /\ self c' = self c /\ displayed c' = face (self c) (shown c') /\ shown c' = fold_left wins (map snd l) (shown c).
Proof.
  revert c. induction l as [|(t, e) l IH]; intros c M D; cbn [map run fold_left fst snd]; [repeat split; assumption|].
  change (fold_left (step w wr) ?q ?s) with (run w wr q s). cbn [step snd fst].
  assert (D' : displayed (show w wr t e c) = face (self (show w wr t e c)) (shown (show w wr t e c))).
  { rewrite show_self, show_shown, M. destruct (keeps e (shown c)) eqn:K; [|apply show_face; assumption].
    unfold show. rewrite M, K. exact D. }
  specialize (IH (show w wr t e c)). rewrite show_man in IH. specialize (IH M D'). cbv zeta in IH.
  destruct IH as (A & B & C & F). rewrite show_self in B, C. rewrite show_shown, M in F.
  repeat split; assumption.
Qed.
End P.

Lemma last_word_snoc l r : last_word (l ++ [r]) None = match r with OpOff => Some false | BatchOn => Some true | _ => last_word l None end.
Proof.
  assert (G : forall l x, last_word (l ++ [r]) x = match r with OpOff => Some false | BatchOn => Some true | _ => last_word l x end).
  { clear l. induction l as [|e l IH]; intros x; [destruct r; reflexivity|]. cbn [app last_word]. destruct e; apply IH. }
  apply G.
Qed.
Lemma asked_snoc e l r : asked e (l ++ [r]) = asked e l || asked e [r].
Proof. unfold asked. apply existsb_app. Qed.
Lemma winner l : fold_left wins l Idle =
    (if asked Error l then Error else if asked Message l then Message else if asked BatchOff l then BatchOff
     else match last_word l None with
          | Some false => OpOff
          | Some true => fold_left wins l Idle
          | None => if asked OpOn l then OpOn else Idle end)
  /\ (asked Error l = false -> asked Message l = false -> asked BatchOff l = false -> last_word l None = Some true ->
      fold_left wins l Idle = BatchOn \/ fold_left wins l Idle = OpOn).
Proof.
  induction l as [|r l IH] using rev_ind; [split; [reflexivity|discriminate]|].
  rewrite fold_left_app. cbn [fold_left]. rewrite !asked_snoc, last_word_snoc. destruct IH as (A & B).
  destruct (asked Error l) eqn:E1; [rewrite A; split; [destruct r; reflexivity|discriminate]|].
  destruct (asked Message l) eqn:E2; [rewrite A; split; [destruct r; reflexivity|intros; destruct r; discriminate]|].
  destruct (asked BatchOff l) eqn:E3; [rewrite A; split; [destruct r; reflexivity|intros; destruct r; discriminate]|].
  destruct (last_word l None) as [[|]|] eqn:E4.
  - destruct (B eq_refl eq_refl eq_refl eq_refl) as [X|X]; rewrite X; split;
      try (destruct r; reflexivity); intros; destruct r; try discriminate; auto.
  - rewrite A. split; [destruct r; reflexivity|]. intros; destruct r; try discriminate; auto.
  - destruct (asked OpOn l) eqn:E5; rewrite A; (split; [destruct r; cbn; reflexivity|]); intros; destruct r; try discriminate; auto.
Qed.
Lemma face_display s l : face s (fold_left wins l Idle) = display s l.
Proof.
  destruct (winner l) as (A & B). unfold display.
  destruct (asked Error l); [rewrite A; reflexivity|]. destruct (asked Message l); [rewrite A; reflexivity|].
  destruct (asked BatchOff l); [rewrite A; reflexivity|].
  destruct (last_word l None) as [[|]|].
  - destruct (B eq_refl eq_refl eq_refl eq_refl) as [X|X]; rewrite X; reflexivity.
  - rewrite A. reflexivity.
  - rewrite A. destruct (asked OpOn l); reflexivity.
Qed.
