(** Properties C44, C45, C50: Windows-1251 and UTF-8 texts. *)
From Coq Require Import ZArith List Bool Lia.
From Verif Require Import Base UtfModel UtfSpec UtfProofs.
Import ListNotations.
Open Scope Z_scope.

(** * C44 *)

(** Texts of characters with a short UTF-8 form (and the numero sign) survive. *)
Theorem C44_round_trip : forall s n,
  Forall chr s -> forallb defined s = true -> forallb short_char s = true ->
  Z.of_nat (length (win1251_to_utf8 s)) <= n ->
  utf8_to_1251 (win1251_to_utf8 s) n = Done s.
Proof.
  intros s n Hs Hd Hsh Hn. rewrite to_utf8_spec in * by auto.
  assert (E : filter defined s = s).
  { clear -Hd. induction s as [|c s IH]; auto. cbn [forallb filter] in *.
    apply andb_true_iff in Hd as [-> H]. f_equal. auto. }
  rewrite E in *. apply back_short; auto.
Qed.
Print Assumptions C44_round_trip.

(** The undefined code 0x98 is dropped, everything else of such a text kept. *)
Theorem C44_undefined_dropped : forall s n,
  Forall chr s -> forallb short_char (filter defined s) = true ->
  Z.of_nat (length (win1251_to_utf8 s)) <= n ->
  utf8_to_1251 (win1251_to_utf8 s) n = Done (filter defined s).
Proof.
  intros s n Hs Hsh Hn. rewrite to_utf8_spec in * by auto. apply back_short; auto.
  - rewrite Forall_forall in *. intros x Hx. apply Hs. apply filter_In in Hx. tauto.
  - apply forallb_forall. intros x Hx. apply filter_In in Hx. tauto.
Qed.
Print Assumptions C44_undefined_dropped.

(** The first other character makes the conversion fail. *)
Theorem C44_long_characters_refused : forall s1 c s2 n,
  Forall chr (s1 ++ c :: s2) -> forallb defined (s1 ++ c :: s2) = true ->
  forallb short_char s1 = true -> short_char c = false ->
  Z.of_nat (length (win1251_to_utf8 (s1 ++ c :: s2))) <= n ->
  utf8_to_1251 (win1251_to_utf8 (s1 ++ c :: s2)) n = Refused s1.
Proof.
  intros s1 c s2 n Hs Hd Hsh Hc Hn. rewrite to_utf8_spec in * by auto.
  assert (E : filter defined (s1 ++ c :: s2) = s1 ++ c :: s2).
  { revert Hd. generalize (s1 ++ c :: s2). clear. induction l as [|x l IH]; intros Hd; auto.
    cbn [forallb filter] in *. apply andb_true_iff in Hd as [-> H]. f_equal. auto. }
  rewrite E in *. apply Forall_app in Hs as [Hs1 Hs2]. inversion_clear Hs2 as [|? ? Hx _].
  rewrite forallb_app in Hd. apply andb_true_iff in Hd as [Hd1 Hd2]. cbn [forallb] in Hd2.
  apply andb_true_iff in Hd2 as [Hd2 _]. apply back_refused; auto.
Qed.
Print Assumptions C44_long_characters_refused.

(** So the plain round trip does not hold for all of Windows-1251: "—". *)
Theorem C44_whole_code_page_refuted :
  ~ forall s, Forall chr s -> forallb defined s = true ->
      utf8_to_1251 (win1251_to_utf8 s) (Z.of_nat (length (win1251_to_utf8 s))) = Done s.
Proof.
  intros H. specialize (H [151] ltac:(repeat constructor; unfold chr; lia) eq_refl).
  vm_compute in H. discriminate.
Qed.
Print Assumptions C44_whole_code_page_refuted.

Example C44_example :
  (* "Ёж №5°" *)
  let s := [168; 230; 32; 185; 53; 176] in
  forallb defined s = true /\ forallb short_char s = true /\
  win1251_to_utf8 s = [0xD0; 0x81; 0xD0; 0xB6; 0x20; 0xE2; 0x84; 0x96; 0x35; 0xC2; 0xB0] /\
  utf8_to_1251 (win1251_to_utf8 s) 11 = Done s.
Proof. vm_compute. repeat split. Qed.

(** * C45 *)

(** The converted text is the UTF-8 encoding of the characters' code points. *)
Theorem C45_valid_utf8 : forall s, Forall chr s ->
  win1251_to_utf8 s = utf8 (map cp1251 (filter defined s)) /\
  Forall scalar (map cp1251 (filter defined s)) /\
  (length (win1251_to_utf8 s) <= 3 * length s)%nat.
Proof.
  intros s Hs. split; [apply to_utf8_spec; auto|]. split; [|apply to_utf8_size; auto].
  rewrite Forall_forall in *. intros u Hu. apply in_map_iff in Hu as (c & <- & Hc).
  apply filter_In in Hc as [Hc Hd]. apply (cp_scalar c (Hs c Hc) Hd).
Qed.
Print Assumptions C45_valid_utf8.

(** The length function counts the characters of any valid UTF-8 text, ... *)
Theorem C45_length_of_valid_text : forall us, Forall scalar us ->
  utf8_strlen (utf8 us) = Z.of_nat (length us).
Proof. exact utf8_strlen_spec. Qed.
Print Assumptions C45_length_of_valid_text.

(** ... in particular of a converted one. *)
Theorem C45_length : forall s, Forall chr s ->
  utf8_strlen (win1251_to_utf8 s) = Z.of_nat (length (filter defined s)).
Proof.
  intros s Hs. destruct (C45_valid_utf8 s Hs) as (-> & H & _).
  rewrite utf8_strlen_spec, map_length by auto. reflexivity.
Qed.
Print Assumptions C45_length.

(** A byte that cannot begin a character, in a place where one should begin,
    makes the length 0, whatever follows. *)
Theorem C45_invalid_text : forall us c r, Forall scalar us ->
  (0x80 <= c < 0xC0 \/ 0xF8 <= c < 256) -> utf8_strlen (utf8 us ++ c :: r) = 0.
Proof.
  intros us c r H Hc. unfold utf8_strlen.
  assert (E : utf8_count (utf8 us ++ c :: r) 0 = None).
  { induction H as [|u us Hu Hs IH].
    - cbn [utf8 flat_map app]. rewrite utf8_count_cons, lead_spec by (unfold chr; lia).
      repeat match goal with |- context [c <? ?b] => destruct (Z.ltb_spec c b) end; try lia; reflexivity.
    - change (utf8 (u :: us)) with (utf8_enc u ++ utf8 us). rewrite <- app_assoc.
      rewrite utf8_count_enc, IH by auto. reflexivity. }
  rewrite E. reflexivity.
Qed.
Print Assumptions C45_invalid_text.

Example C45_example :
  (* "Сыр—№" has five characters in twelve bytes *)
  utf8_strlen (win1251_to_utf8 [209; 251; 240; 151; 185]) = 5 /\
  length (win1251_to_utf8 [209; 251; 240; 151; 185]) = 12%nat.
Proof. vm_compute. split; reflexivity. Qed.

(** * C50 *)

(** With a length argument not above the text's length the conversion from
    UTF-8 stays inside the text, whatever bytes it consists of, and never
    produces more characters than there are bytes. *)
Theorem C50_memory_safe : forall l n,
  (n <= Z.of_nat (length l) -> utf8_to_1251 l n <> Overread) /\
  (forall out, utf8_to_1251 l n = Done out \/ utf8_to_1251 l n = Refused out ->
     (length out <= length l)%nat).
Proof.
  intros l n. split; [apply no_overread|]. intros out H.
  pose proof (out_length l n) as L. destruct H as [E|E]; rewrite E in L; exact L.
Qed.
Print Assumptions C50_memory_safe.

(** A larger length argument lets a cut character run past the terminator. *)
Theorem C50_larger_length_refuted : ~ forall l n, utf8_to_1251 l n <> Overread.
Proof. intros H. apply (H [0x41; 0xD1] 10). vm_compute. reflexivity. Qed.
Print Assumptions C50_larger_length_refuted.

(** Characters outside Windows-1251 are not always refused: U+00C0 "À" comes
    out as the Cyrillic letter "А". *)
Theorem C50_foreign_letters_refused_refuted :
  ~ forall us out, Forall scalar us ->
      utf8_to_1251 (utf8 us) (Z.of_nat (length (utf8 us))) = Done out -> map cp1251 out = us.
Proof.
  intros H. specialize (H [0xC0] [0xC0] ltac:(repeat constructor; unfold scalar; lia) eq_refl).
  vm_compute in H. discriminate.
Qed.
Print Assumptions C50_foreign_letters_refused_refuted.

(** Outside that Latin-1 block a successful conversion is faithful. *)
Theorem C50_faithful_outside_latin1 : forall us out,
  Forall scalar us -> Forall (fun u => ~ (0x80 <= u <= 0xFF)) us ->
  utf8_to_1251 (utf8 us) (Z.of_nat (length (utf8 us))) = Done out -> map cp1251 out = us.
Proof. exact decode_faithful. Qed.
Print Assumptions C50_faithful_outside_latin1.

Example C50_example :
  utf8_to_1251 (utf8 [0x41; 0x416; 0x2116; 0x403]) 8 = Done [0x41; 198; 0xB9; 0x81] /\
  utf8_to_1251 [0x41; 0xD1] 2 = Done [0x41; 0xF0] /\
  utf8_to_1251 (utf8 [0x41; 0x2014]) 4 = Refused [0x41].
Proof. vm_compute. repeat split. Qed.
