From Coq Require Import ZArith List Bool Lia.
From Verif Require Import Base UtfModel UtfSpec.
Import ListNotations.
Open Scope Z_scope.

Definition all_chars : list Z := map Z.of_nat (seq 1 255).

Lemma in_all_chars c : chr c -> In c all_chars.
Proof.
  unfold chr, all_chars. intros H. apply in_map_iff. exists (Z.to_nat c). split; [lia|].
  apply in_seq. lia.
Qed.

Lemma for_chars (P : Z -> bool) : forallb P all_chars = true -> forall c, chr c -> P c = true.
Proof. intros H c Hc. rewrite forallb_forall in H. apply H. apply in_all_chars. auto. Qed.

Fixpoint list_eqb (a b : list Z) : bool :=
  match a, b with
  | [], [] => true
  | x :: a', y :: b' => (x =? y) && list_eqb a' b'
  | _, _ => false
  end.
Lemma list_eqb_eq a : forall b, list_eqb a b = true -> a = b.
Proof.
  induction a as [|x a IH]; intros [|y b] H; cbn in H; try discriminate; auto.
  apply andb_true_iff in H as [H1 H2]. apply Z.eqb_eq in H1. subst. f_equal. auto.
Qed.

(** * Windows-1251 -> UTF-8 *)

Lemma char_utf8_spec c : chr c ->
  char_utf8 c = if defined c then utf8_enc (cp1251 c) else [].
Proof.
  intros Hc. apply list_eqb_eq.
  apply (for_chars (fun c => list_eqb (char_utf8 c) (if defined c then utf8_enc (cp1251 c) else [])));
    auto.
Qed.

Lemma to_utf8_spec s : Forall chr s ->
  win1251_to_utf8 s = utf8 (map cp1251 (filter defined s)).
Proof.
  induction 1 as [|c s Hc Hs IH]; auto. cbn [win1251_to_utf8 filter].
  rewrite char_utf8_spec, IH by auto. destruct (defined c); reflexivity.
Qed.

Lemma cp_scalar c : chr c -> defined c = true -> scalar (cp1251 c) /\ cp1251 c < 0x10000.
Proof.
  intros Hc Hd.
  pose proof (for_chars (fun c => negb (defined c) || ((0 <? cp1251 c) && (cp1251 c <? 0x10000)))
    ltac:(vm_compute; reflexivity) c Hc) as H. cbn beta in H. rewrite Hd in H. cbn [negb orb] in H.
  unfold scalar. lia.
Qed.

Lemma enc_length u : scalar u -> (1 <= length (utf8_enc u) <= 4)%nat /\
  (u < 0x10000 -> (length (utf8_enc u) <= 3)%nat).
Proof.
  unfold scalar, utf8_enc. intros H.
  destruct (Z.ltb_spec u 0x80); [cbn; lia|]. destruct (Z.ltb_spec u 0x800); [cbn; lia|].
  destruct (Z.ltb_spec u 0x10000); cbn; lia.
Qed.

Lemma to_utf8_size s : Forall chr s -> (length (win1251_to_utf8 s) <= 3 * length s)%nat.
Proof.
  induction 1 as [|c s Hc Hs IH]; cbn [win1251_to_utf8 length]; auto.
  rewrite app_length, char_utf8_spec by auto. destruct (defined c) eqn:E; cbn [length]; [|lia].
  pose proof (cp_scalar c Hc E) as [H1 H2]. pose proof (enc_length _ H1) as [_ H3].
  specialize (H3 H2). lia.
Qed.

(** * Length *)

Ltac dm_bounds := Z.to_euclidean_division_equations; lia.

(** Bits of the lead bytes. *)
Definition lead_class (c : Z) : option nat :=
  if c <=? 127 then Some O
  else if Z.land c 0xE0 =? 0xC0 then Some 1%nat
  else if Z.land c 0xF0 =? 0xE0 then Some 2%nat
  else if Z.land c 0xF8 =? 0xF0 then Some 3%nat
  else None.

Lemma lead_table : forallb (fun c =>
  match lead_class c with
  | Some O => c <? 128
  | Some 1%nat => (0xC0 <=? c) && (c <? 0xE0)
  | Some 2%nat => (0xE0 <=? c) && (c <? 0xF0)
  | Some _ => (0xF0 <=? c) && (c <? 0xF8)
  | None => ((0x80 <=? c) && (c <? 0xC0)) || (0xF8 <=? c)
  end) all_chars = true.
Proof. vm_compute. reflexivity. Qed.

Lemma lead_spec c : chr c ->
  lead_class c = if c <? 0x80 then Some O else if c <? 0xC0 then None
    else if c <? 0xE0 then Some 1%nat else if c <? 0xF0 then Some 2%nat
    else if c <? 0xF8 then Some 3%nat else None.
Proof.
  intros Hc. pose proof (for_chars _ lead_table c Hc) as H. cbn beta in H.
  destruct (lead_class c) as [[|[|[|k]]]|] eqn:E;
    repeat match goal with |- context [?a <? ?b] => destruct (Z.ltb_spec a b) end; try lia; auto.
  (* the class is at most 3 *)
  unfold lead_class in E.
  repeat match type of E with context [if ?b then _ else _] => destruct b end; congruence.
Qed.

Lemma utf8_count_cons c r :
  utf8_count (c :: r) 0 =
  match lead_class c with
  | Some k => match utf8_count r k with Some q => Some (q + 1) | None => None end
  | None => None
  end.
Proof.
  cbn [utf8_count]. unfold lead_class.
  repeat match goal with |- context [if ?b then _ else _] => destruct b end; reflexivity.
Qed.

Lemma utf8_count_skip l : forall k r, length l = k -> utf8_count (l ++ r) k = utf8_count r 0.
Proof.
  induction l as [|c l IH]; intros k r Hk; cbn [length] in Hk; subst; [reflexivity|].
  cbn [app utf8_count]. apply IH. reflexivity.
Qed.

Lemma utf8_count_enc u r : scalar u ->
  utf8_count (utf8_enc u ++ r) 0 = match utf8_count r 0 with Some q => Some (q + 1) | None => None end.
Proof.
  intros H. unfold scalar in H. unfold utf8_enc.
  destruct (Z.ltb_spec u 0x80); [|destruct (Z.ltb_spec u 0x800);
    [|destruct (Z.ltb_spec u 0x10000)]]; cbn [app]; rewrite utf8_count_cons.
  - rewrite lead_spec by (unfold chr; lia). destruct (Z.ltb_spec u 0x80); [reflexivity|lia].
  - assert (2 <= u / 64 < 32) by dm_bounds.
    rewrite lead_spec by (unfold chr; lia).
    repeat match goal with |- context [0xC0 + u / 64 <? ?b] => destruct (Z.ltb_spec (0xC0 + u / 64) b) end; try lia.
    reflexivity.
  - assert (0 <= u / 4096 < 16) by dm_bounds.
    rewrite lead_spec by (unfold chr; lia).
    repeat match goal with |- context [0xE0 + u / 4096 <? ?b] => destruct (Z.ltb_spec (0xE0 + u / 4096) b) end; try lia.
    reflexivity.
  - assert (0 <= u / 262144 < 5) by dm_bounds.
    rewrite lead_spec by (unfold chr; lia).
    repeat match goal with |- context [0xF0 + u / 262144 <? ?b] => destruct (Z.ltb_spec (0xF0 + u / 262144) b) end; try lia.
    reflexivity.
Qed.

Lemma utf8_strlen_spec us : Forall scalar us -> utf8_strlen (utf8 us) = Z.of_nat (length us).
Proof.
  intros H. unfold utf8_strlen.
  assert (E : utf8_count (utf8 us) 0 = Some (Z.of_nat (length us))).
  { induction H as [|u us Hu Hs IH]; [reflexivity|].
    change (utf8 (u :: us)) with (utf8_enc u ++ utf8 us).
    rewrite utf8_count_enc, IH by auto. cbn [length]. f_equal. lia. }
  rewrite E. reflexivity.
Qed.

(** * UTF-8 -> Windows-1251 *)

(** What the decoder makes of a code point below 0x800. *)
Definition decode2 (u : Z) : option Z :=
  if (0x410 <=? u) && (u <=? 0x44F) then Some (u - 0x350)
  else if (0x80 <=? u) && (u <=? 0xFF) then Some u
  else if (0x402 <=? u) && (u <=? 0x403) then Some (u - 0x382)
  else find_letter u g_letters.

Lemma land_1f x : Z.land x 0x1F = x mod 32.
Proof. change 0x1F with (Z.ones 5). rewrite Z.land_ones by lia. reflexivity. Qed.
Lemma land_3f x : Z.land x 0x3F = x mod 64.
Proof. change 0x3F with (Z.ones 6). rewrite Z.land_ones by lia. reflexivity. Qed.

Lemma two_byte_enc u : 0x80 <= u < 0x800 ->
  two_byte (0xC0 + u / 64) (0x80 + u mod 64) = decode2 u.
Proof.
  intros H. unfold two_byte, decode2. rewrite land_1f, land_3f, Z.shiftl_mul_pow2 by lia.
  replace ((0xC0 + u / 64) mod 32 * 2 ^ 6 + (0x80 + u mod 64) mod 64) with u; [reflexivity|].
  change (2 ^ 6) with 64. dm_bounds.
Qed.

Lemma bit5_table : forallb (fun c => Bool.eqb (Z.land c 0x20 =? 0)
    (((c / 32) mod 2) =? 0)) all_chars = true.
Proof. vm_compute. reflexivity. Qed.
Lemma bit5 c : chr c -> (Z.land c 0x20 =? 0) = ((c / 32) mod 2 =? 0).
Proof. intros H. apply eqb_prop. apply (for_chars _ bit5_table c H). Qed.

(** One step of the decoder on a well-formed character. *)
Lemma step_ascii c r n : 0 < c < 0x80 -> 0 < n ->
  utf8_to_1251 (c :: r) n = ccons c (utf8_to_1251 r (n - 1)).
Proof.
  intros Hc Hn. cbn [utf8_to_1251]. replace (n <=? 0) with false by lia.
  replace (c <? 0x80) with true by lia.
  replace (c =? 0xE2) with false by lia. cbn [andb].
  destruct r as [|x [|y r]]; reflexivity.
Qed.

Lemma step_two u r n : 0x80 <= u < 0x800 -> 0 < n ->
  utf8_to_1251 (utf8_enc u ++ r) n =
  match decode2 u with Some w => ccons w (utf8_to_1251 r (n - 2)) | None => Refused [] end.
Proof.
  intros Hu Hn. unfold utf8_enc. replace (u <? 0x80) with false by lia.
  replace (u <? 0x800) with true by lia. cbn [app].
  assert (H64 : 2 <= u / 64 < 32) by dm_bounds.
  assert (Hchr : chr (0xC0 + u / 64)) by (unfold chr; lia).
  cbn [utf8_to_1251]. replace (n <=? 0) with false by lia.
  replace (0xC0 + u / 64 <? 0x80) with false by lia.
  rewrite bit5 by auto.
  assert (B5 : (0xC0 + u / 64) / 32 mod 2 = 0) by dm_bounds. rewrite B5. cbn [Z.eqb].
  replace (0xC0 + u / 64 =? 0xE2) with false by lia. cbn [andb hd].
  rewrite two_byte_enc by auto.
  destruct r; destruct (decode2 u); reflexivity.
Qed.

Lemma step_numero r n : 0 < n ->
  utf8_to_1251 (utf8_enc 0x2116 ++ r) n = ccons 0xB9 (utf8_to_1251 r (n - 3)).
Proof.
  intros Hn. change (utf8_enc 0x2116) with [0xE2; 0x84; 0x96]. cbn [app utf8_to_1251].
  replace (n <=? 0) with false by lia. reflexivity.
Qed.

Lemma step_three u r n : 0x800 <= u < 0x10000 -> u <> 0x2116 -> 0 < n ->
  utf8_to_1251 (utf8_enc u ++ r) n = Refused [].
Proof.
  intros Hu Hne Hn. unfold utf8_enc. replace (u <? 0x80) with false by lia.
  replace (u <? 0x800) with false by lia. replace (u <? 0x10000) with true by lia. cbn [app].
  assert (H4096 : 0 <= u / 4096 < 16) by dm_bounds.
  assert (Hchr : chr (0xE0 + u / 4096)) by (unfold chr; lia).
  cbn [utf8_to_1251]. replace (n <=? 0) with false by lia.
  replace (0xE0 + u / 4096 <? 0x80) with false by lia. rewrite bit5 by auto.
  assert (B5 : (0xE0 + u / 4096) / 32 mod 2 = 1) by dm_bounds. rewrite B5. cbn [Z.eqb].
  destruct ((0xE0 + u / 4096 =? 0xE2) && (0x80 + u / 64 mod 64 =? 0x84) && (0x80 + u mod 64 =? 0x96)) eqn:E;
    [|reflexivity].
  exfalso. apply Hne. apply andb_true_iff in E as [E E3]. apply andb_true_iff in E as [E1 E2].
  apply Z.eqb_eq in E1, E2, E3. dm_bounds.
Qed.

Lemma step_four u r n : 0x10000 <= u < 0x110000 -> 0 < n ->
  utf8_to_1251 (utf8_enc u ++ r) n = Refused [].
Proof.
  intros Hu Hn. unfold utf8_enc. replace (u <? 0x80) with false by lia.
  replace (u <? 0x800) with false by lia. replace (u <? 0x10000) with false by lia. cbn [app].
  assert (0 <= u / 262144 < 5) by dm_bounds.
  assert (Hchr : chr (0xF0 + u / 262144)) by (unfold chr; lia).
  cbn [utf8_to_1251]. replace (n <=? 0) with false by lia.
  replace (0xF0 + u / 262144 <? 0x80) with false by lia. rewrite (bit5 (0xF0 + u / 262144)) by auto.
  assert (B5 : (0xF0 + u / 262144) / 32 mod 2 = 1) by dm_bounds. rewrite B5. cbn [Z.eqb].
  replace (0xF0 + u / 262144 =? 0xE2) with false by lia. reflexivity.
Qed.

Lemma back_table : forallb (fun c =>
   if short_char c && defined c && (128 <=? c) && negb (c =? 0xB9)
   then match decode2 (cp1251 c) with Some w => w =? c | None => false end &&
        (0x80 <=? cp1251 c) && (cp1251 c <? 0x800)
   else true) all_chars = true.
Proof. vm_compute. reflexivity. Qed.

Lemma long_table : forallb (fun c =>
   if negb (short_char c) && defined c
   then (0x800 <=? cp1251 c) && (cp1251 c <? 0x10000) && negb (cp1251 c =? 0x2116)
   else true) all_chars = true.
Proof. vm_compute. reflexivity. Qed.

(** The decoder on a well-formed character of the code page. *)
Lemma step_short c r n : chr c -> defined c = true -> short_char c = true -> 0 < n ->
  utf8_to_1251 (utf8_enc (cp1251 c) ++ r) n =
  ccons c (utf8_to_1251 r (n - Z.of_nat (length (utf8_enc (cp1251 c))))).
Proof.
  intros Hc Hd Hs Hn. pose proof (for_chars _ back_table c Hc) as T. cbn beta in T.
  rewrite Hs, Hd in T. cbn [andb] in T.
  destruct (Z.leb_spec 128 c); cbn [andb] in T.
  - destruct (Z.eqb_spec c 0xB9) as [->|Hne]; cbn [negb] in T.
    + change (cp1251 0xB9) with 0x2116. rewrite step_numero by auto. reflexivity.
    + apply andb_true_iff in T as [T T2]. apply andb_true_iff in T as [T T1].
      rewrite step_two by lia. destruct (decode2 (cp1251 c)); [|discriminate].
      replace z with c by lia. unfold utf8_enc. replace (cp1251 c <? 0x80) with false by lia.
      rewrite T2. reflexivity.
  - unfold cp1251. replace (c <? 128) with true by lia. unfold utf8_enc.
    replace (c <? 0x80) with true by lia. cbn [app length]. unfold chr in Hc.
    rewrite step_ascii by lia. reflexivity.
Qed.

Lemma back_short s : Forall chr s -> forallb defined s = true -> forallb short_char s = true ->
  forall n, Z.of_nat (length (utf8 (map cp1251 s))) <= n ->
  utf8_to_1251 (utf8 (map cp1251 s)) n = Done s.
Proof.
  induction 1 as [|c s Hc Hs IH]; intros Hd Hsh n Hn.
  - cbn. destruct (n <=? 0); reflexivity.
  - cbn [forallb] in Hd, Hsh. apply andb_true_iff in Hd as [Hd Hd'].
    apply andb_true_iff in Hsh as [Hsh Hsh'].
    change (utf8 (map cp1251 (c :: s))) with (utf8_enc (cp1251 c) ++ utf8 (map cp1251 s)) in *.
    rewrite app_length in Hn.
    pose proof (enc_length _ (proj1 (cp_scalar c Hc Hd))) as [He _].
    rewrite step_short by (auto; lia). rewrite IH by (auto; lia). reflexivity.
Qed.

Lemma back_refused s1 c s2 : Forall chr s1 -> chr c ->
  forallb defined s1 = true -> forallb short_char s1 = true ->
  defined c = true -> short_char c = false ->
  forall n, Z.of_nat (length (utf8 (map cp1251 (s1 ++ c :: s2)))) <= n ->
  utf8_to_1251 (utf8 (map cp1251 (s1 ++ c :: s2))) n = Refused s1.
Proof.
  intros H1 Hc. induction H1 as [|x s1 Hx Hs IH]; intros Hd Hsh Hdc Hsc n Hn.
  - cbn [app]. cbn [app] in Hn.
    change (utf8 (map cp1251 (c :: s2))) with (utf8_enc (cp1251 c) ++ utf8 (map cp1251 s2)) in *.
    rewrite app_length in Hn. pose proof (enc_length _ (proj1 (cp_scalar c Hc Hdc))) as [He _].
    pose proof (for_chars _ long_table c Hc) as T. cbn beta in T. rewrite Hsc, Hdc in T.
    cbn [negb andb] in T. apply step_three; lia.
  - cbn [forallb] in Hd, Hsh. apply andb_true_iff in Hd as [Hd Hd'].
    apply andb_true_iff in Hsh as [Hsh Hsh'].
    change (utf8 (map cp1251 ((x :: s1) ++ c :: s2)))
      with (utf8_enc (cp1251 x) ++ utf8 (map cp1251 (s1 ++ c :: s2))) in *.
    rewrite app_length in Hn. pose proof (enc_length _ (proj1 (cp_scalar x Hx Hd))) as [He _].
    rewrite step_short by (auto; lia). rewrite IH by (auto; lia). reflexivity.
Qed.

(** Never reads beyond the string when the length argument is the length. *)
Lemma ccons_over c r : ccons c r = Overread -> r = Overread.
Proof. destruct r; cbn; congruence. Qed.

Lemma no_overread_aux k : forall l n, (length l <= k)%nat -> n <= Z.of_nat (length l) ->
  utf8_to_1251 l n <> Overread.
Proof.
  induction k as [|k IH]; intros l n Hk Hn; destruct l as [|p r]; cbn [length] in *; try lia.
  - cbn. destruct (n <=? 0); discriminate.
  - cbn. destruct (n <=? 0); discriminate.
  - cbn [utf8_to_1251]. destruct (Z.leb_spec n 0); [discriminate|].
    assert (G1 : forall c, ccons c (utf8_to_1251 r (n - 1)) <> Overread).
    { intros c E. apply ccons_over in E. revert E. apply IH; lia. }
    destruct r as [|s [|t r]]; cbn [length] in *.
    + destruct (p <? 0x80); [apply G1|]. destruct (Z.land p 0x20 =? 0); [|discriminate].
      destruct (two_byte p _); [|discriminate]. replace (n - 2 <=? 0) with true by lia. discriminate.
    + destruct (p <? 0x80); [apply G1|]. destruct (Z.land p 0x20 =? 0); [|discriminate].
      destruct (two_byte p _); [|discriminate]. intros E. apply ccons_over in E. revert E.
      apply IH; cbn [length]; lia.
    + destruct ((p =? 0xE2) && (s =? 0x84) && (t =? 0x96)).
      * intros E. apply ccons_over in E. revert E. apply IH; lia.
      * destruct (p <? 0x80); [apply G1|]. destruct (Z.land p 0x20 =? 0); [|discriminate].
        destruct (two_byte p _); [|discriminate]. intros E. apply ccons_over in E. revert E.
        apply IH; cbn [length]; lia.
Qed.

Lemma no_overread l n : n <= Z.of_nat (length l) -> utf8_to_1251 l n <> Overread.
Proof. apply (no_overread_aux (length l)). lia. Qed.

(** The output never is longer than the input. *)
Definition out_of (r : conv) : list Z := match r with Done o | Refused o => o | Overread => [] end.

Lemma ccons_len c r : (length (out_of (ccons c r)) <= S (length (out_of r)))%nat.
Proof. destruct r; cbn; lia. Qed.

Lemma out_length_aux k : forall l n, (length l <= k)%nat ->
  (length (out_of (utf8_to_1251 l n)) <= length l)%nat.
Proof.
  induction k as [|k IH]; intros l n Hk; destruct l as [|p r]; cbn [length] in *; try lia.
  - cbn. destruct (n <=? 0); cbn; lia.
  - cbn. destruct (n <=? 0); cbn; lia.
  - cbn [utf8_to_1251]. destruct (Z.leb_spec n 0); [cbn; lia|].
    assert (G1 : forall c, (length (out_of (ccons c (utf8_to_1251 r (n - 1%Z)))) <= S (length r))%nat).
    { intros c. pose proof (ccons_len c (utf8_to_1251 r (n - 1))). pose proof (IH r (n - 1) ltac:(lia)). lia. }
    destruct r as [|s [|t r]]; cbn [length] in *.
    + destruct (p <? 0x80); [apply G1|]. destruct (Z.land p 0x20 =? 0); [|cbn; lia].
      destruct (two_byte p _); [|cbn; lia]. destruct (n - 2 <=? 0); cbn; lia.
    + destruct (p <? 0x80); [apply G1|]. destruct (Z.land p 0x20 =? 0); [|cbn; lia].
      destruct (two_byte p _) as [w|]; [|cbn; lia].
      pose proof (ccons_len w (utf8_to_1251 [] (n - 2))). pose proof (IH [] (n - 2) ltac:(cbn; lia)).
      cbn [length] in *. lia.
    + destruct ((p =? 0xE2) && (s =? 0x84) && (t =? 0x96)).
      * pose proof (ccons_len 0xB9 (utf8_to_1251 r (n - 3))). pose proof (IH r (n - 3) ltac:(lia)). lia.
      * destruct (p <? 0x80); [apply G1|]. destruct (Z.land p 0x20 =? 0); [|cbn; lia].
        destruct (two_byte p _) as [w|]; [|cbn; lia].
        pose proof (ccons_len w (utf8_to_1251 (t :: r) (n - 2))).
        pose proof (IH (t :: r) (n - 2) ltac:(cbn [length]; lia)). cbn [length] in *. lia.
Qed.

Lemma out_length l n : (length (out_of (utf8_to_1251 l n)) <= length l)%nat.
Proof. apply (out_length_aux (length l)). lia. Qed.

(** Decoding is faithful outside U+0080..U+00FF. *)
Lemma find_letter_in u l w : find_letter u l = Some w -> In (w, u) l.
Proof.
  induction l as [|[w' x] l IH]; cbn; [discriminate|].
  destruct (Z.eqb_spec u x) as [->|]; [intros [= ->]; auto|auto].
Qed.

Lemma letters_table : forallb (fun p => cp1251 (fst p) =? snd p) g_letters = true.
Proof. vm_compute. reflexivity. Qed.

Lemma cyr_table : forallb (fun k => cp1251 (0xC0 + Z.of_nat k) =? 0x410 + Z.of_nat k) (seq 0 64) = true.
Proof. vm_compute. reflexivity. Qed.

Lemma decode2_cp u w : ~ (0x80 <= u <= 0xFF) -> decode2 u = Some w -> cp1251 w = u.
Proof.
  intros Hu. unfold decode2. destruct ((0x410 <=? u) && (u <=? 0x44F)) eqn:E1.
  { intros [= <-]. pose proof cyr_table as T. rewrite forallb_forall in T.
    specialize (T (Z.to_nat (u - 0x410)) ltac:(apply in_seq; lia)).
    replace (0xC0 + Z.of_nat (Z.to_nat (u - 0x410))) with (u - 0x350) in T by lia. lia. }
  destruct ((0x80 <=? u) && (u <=? 0xFF)) eqn:E2; [lia|].
  destruct ((0x402 <=? u) && (u <=? 0x403)) eqn:E3.
  { intros [= <-]. assert (u = 0x402 \/ u = 0x403) as [-> | ->] by lia; reflexivity. }
  intros H. apply find_letter_in in H. pose proof letters_table as T.
  rewrite forallb_forall in T. specialize (T _ H). cbn [fst snd] in T. lia.
Qed.

Lemma ccons_done c r o : ccons c r = Done o -> exists o', o = c :: o' /\ r = Done o'.
Proof. destruct r; cbn; try discriminate. intros [= <-]. eauto. Qed.

Lemma decode_faithful_aux us : Forall scalar us -> Forall (fun u => ~ (0x80 <= u <= 0xFF)) us ->
  forall out, utf8_to_1251 (utf8 us) (Z.of_nat (length (utf8 us))) = Done out -> map cp1251 out = us.
Proof.
  induction 1 as [|u us Hu Hs IH]; intros HL out H.
  - cbn in H. injection H as <-. reflexivity.
  - inversion_clear HL as [|? ? HLu HLs].
    change (utf8 (u :: us)) with (utf8_enc u ++ utf8 us) in H. rewrite app_length in H.
    pose proof (enc_length u Hu) as [He _].
    set (N := Z.of_nat (length (utf8_enc u) + length (utf8 us))) in *.
    assert (HN : 0 < N) by lia. unfold scalar in Hu.
    destruct (Z.ltb_spec u 0x80); [|destruct (Z.ltb_spec u 0x800); [|destruct (Z.ltb_spec u 0x10000)]].
    + assert (E : utf8_enc u = [u]) by (unfold utf8_enc; replace (u <? 0x80) with true by lia; auto).
      unfold N in *. rewrite E in *. cbn [app length] in *. rewrite step_ascii in H by lia.
      apply ccons_done in H as (o & -> & H). cbn [map]. f_equal.
      * unfold cp1251. replace (u <? 128) with true by lia. reflexivity.
      * apply IH; auto. rewrite <- H. f_equal. lia.
    + assert (E : length (utf8_enc u) = 2%nat)
        by (unfold utf8_enc; replace (u <? 0x80) with false by lia; replace (u <? 0x800) with true by lia; auto).
      rewrite step_two in H by lia. destruct (decode2 u) as [w|] eqn:Ew; [|discriminate].
      apply ccons_done in H as (o & -> & H). cbn [map]. f_equal.
      * apply decode2_cp; auto.
      * apply IH; auto. rewrite <- H. f_equal. unfold N. lia.
    + destruct (Z.eq_dec u 0x2116) as [->|Hne].
      * rewrite step_numero in H by lia. apply ccons_done in H as (o & -> & H). cbn [map].
        f_equal. apply IH; auto. rewrite <- H. f_equal. unfold N.
        change (length (utf8_enc 0x2116)) with 3%nat. lia.
      * rewrite step_three in H by lia. discriminate.
    + rewrite step_four in H by lia. discriminate.
Qed.

Lemma decode_faithful us out : Forall scalar us -> Forall (fun u => ~ (0x80 <= u <= 0xFF)) us ->
  utf8_to_1251 (utf8 us) (Z.of_nat (length (utf8 us))) = Done out -> map cp1251 out = us.
Proof. intros. apply decode_faithful_aux; auto. Qed.
