(** Texts of numbers: what is printed is read back. *)
From Coq Require Import ZArith List Bool Lia QArith Qround Qpower Qabs Lqa.
From Verif Require Import Base FTextModel FTextSpec FTextProofs.
Import ListNotations.
Open Scope Z_scope.

Definition alld (l : list Z) : Prop := Forall (fun c => isdigit c = true) l.
Definition value (l : list Z) (acc : Z) : Z := fold_left (fun a c => a * 10 + (c - 48)) l acc.

Lemma digit_is v : isdigit (digit v) = true.
Proof. unfold isdigit, digit. pose proof (Z.mod_pos_bound v 10 ltac:(lia)). lia. Qed.

Lemma digits_alld n v : alld (digits n v).
Proof.
  revert v. induction n as [|n IH]; intros v; cbn [digits]; [constructor|].
  apply Forall_app. split; [apply IH|]. constructor; [apply digit_is|constructor].
Qed.
Lemma digits_len n v : length (digits n v) = n.
Proof. revert v. induction n as [|n IH]; intros v; cbn [digits]; [reflexivity|]. rewrite app_length, IH. cbn. lia. Qed.

Lemma value_app a b acc : value (a ++ b) acc = value b (value a acc).
Proof. unfold value. apply fold_left_app. Qed.
Lemma value_acc l : forall acc, value l acc = acc * 10 ^ Z.of_nat (length l) + value l 0.
Proof.
  induction l as [|c l IH]; intros acc; cbn [value fold_left length]; [unfold value; cbn; lia|].
  fold (value l (acc * 10 + (c - 48))). fold (value l (0 * 10 + (c - 48))).
  rewrite (IH (acc * 10 + (c - 48))), (IH (0 * 10 + (c - 48))).
  rewrite Nat2Z.inj_succ, Z.pow_succ_r by lia. ring.
Qed.
Lemma digits_value n v : 0 <= v < 10 ^ Z.of_nat n -> value (digits n v) 0 = v.
Proof.
  revert v. induction n as [|n IH]; intros v H.
  - change (10 ^ Z.of_nat 0) with 1 in H. cbn. lia.
  - rewrite Nat2Z.inj_succ, Z.pow_succ_r in H by lia. cbn [digits]. rewrite value_app, IH.
    + unfold value. cbn [fold_left]. unfold digit. pose proof (Z.div_mod v 10 ltac:(lia)). lia.
    + split; [apply Z.div_pos; lia|apply Z.div_lt_upper_bound; lia].
Qed.
Lemma value_zeros j acc : value (repeat 48 j) acc = acc * 10 ^ Z.of_nat j.
Proof.
  rewrite value_acc, repeat_length. assert (value (repeat 48 j) 0 = 0) as ->; [|lia].
  induction j as [|j IH]; [reflexivity|exact IH].
Qed.

(** The zeros at the end. *)
Lemma strip_split l : exists j, l = strip l ++ repeat 48 j.
Proof.
  induction l as [|c l [j IH]]; [exists O; reflexivity|]. cbn [strip].
  destruct (strip l) as [|x s] eqn:E.
  - destruct (Z.eqb_spec c 48) as [->|N].
    + exists (S j). cbn [repeat app] in *. rewrite <- IH. reflexivity.
    + exists j. cbn [app] in *. rewrite <- IH. reflexivity.
  - exists j. rewrite IH at 1. reflexivity.
Qed.
Lemma alld_app a b : alld (a ++ b) <-> alld a /\ alld b.
Proof. apply Forall_app. Qed.
Lemma strip_alld l : alld l -> alld (strip l).
Proof. intros H. destruct (strip_split l) as [j E]. rewrite E in H. apply alld_app in H. apply H. Qed.
Lemma zeros_alld j : alld (repeat 48 j).
Proof. induction j; cbn; constructor; auto. Qed.
Lemma firstn_alld n l : alld l -> alld (firstn n l).
Proof. intros H. rewrite <- (firstn_skipn n l) in H. apply alld_app in H. apply H. Qed.
Lemma skipn_alld n l : alld l -> alld (skipn n l).
Proof. intros H. rewrite <- (firstn_skipn n l) in H. apply alld_app in H. apply H. Qed.

(** Where a number ends. *)
Definition stops (r : list Z) : Prop :=
  match r with [] => True | c :: _ => isdigit c = false /\ c <> 46 /\ c <> 101 /\ c <> 69 end.

Lemma eat_digits l : forall r n acc, alld l -> eat (l ++ r) n acc = eat r (n + Z.of_nat (length l)) (value l acc).
Proof.
  induction l as [|c l IH]; intros r n acc H; cbn [app length].
  - rewrite Z.add_0_r. reflexivity.
  - inversion H; subst. cbn [eat]. rewrite H2. rewrite IH by assumption. rewrite Nat2Z.inj_succ. f_equal; try lia; reflexivity.
Qed.
Lemma eat_end r n acc : match r with [] => True | c :: _ => isdigit c = false end -> eat r n acc = (n, acc, r).
Proof. destruct r as [|c r]; intros H; [reflexivity|]. cbn [eat]. rewrite H. reflexivity. Qed.

Lemma take_digits l : forall r m d s, alld l ->
  take_float m d s (l ++ r) =
  (l ++ fst (take_float (m || negb (match l with [] => true | _ => false end)) d s r),
   snd (take_float (m || negb (match l with [] => true | _ => false end)) d s r)).
Proof.
  induction l as [|c l IH]; intros r m d s H; cbn [app].
  - cbn [negb]. rewrite orb_false_r. apply surjective_pairing.
  - inversion H; subst. cbn [take_float]. rewrite H2. rewrite IH by assumption. cbn [negb orb]. rewrite orb_true_r. reflexivity.
Qed.
Lemma take_stop r m d s : stops r -> take_float m d s r = ([], r).
Proof.
  destruct r as [|c r]; intros H; [reflexivity|]. cbn [stops] in H. destruct H as (A & B & C & D).
  cbn [take_float]. rewrite A. rewrite (proj2 (Z.eqb_neq c 46)) by assumption.
  rewrite (proj2 (Z.eqb_neq c 101)), (proj2 (Z.eqb_neq c 69)) by assumption. cbn [andb orb]. reflexivity.
Qed.

(** The shape of a printed number. *)
Definition shape (l1 l2 : list Z) (ex : option (bool * list Z)) : list Z :=
  l1 ++ with_point l2 ++ match ex with Some (sg, l3) => [101; if sg then 45 else 43] ++ l3 | None => [] end.

Lemma digit_not c : isdigit c = true -> c <> 46 /\ c <> 101 /\ c <> 69 /\ c <> 45 /\ c <> 43.
Proof. unfold isdigit. lia. Qed.

Lemma take_shape l1 l2 ex r : alld l1 -> l1 <> [] -> alld l2 ->
  match ex with Some (_, l3) => alld l3 | None => True end -> stops r ->
  take_float false false false (shape l1 l2 ex ++ r) = (shape l1 l2 ex, r).
Proof.
  intros A1 N1 A2 A3 R. unfold shape. rewrite <- app_assoc, take_digits by assumption.
  destruct l1 as [|c1 l1]; [congruence|]. cbn [orb negb]. set (L := c1 :: l1).
  assert (TE : forall dec, take_float true dec false
     (match ex with Some (sg, l3) => [101; if sg then 45 else 43] ++ l3 | None => [] end ++ r) =
     (match ex with Some (sg, l3) => [101; if sg then 45 else 43] ++ l3 | None => [] end, r)).
  { intros dec. destruct ex as [[sg l3]|]; [|apply take_stop; exact R].
    cbn [app]. cbn [take_float]. change (isdigit 101) with false. change (101 =? 46) with false. change (101 =? 101) with true.
    cbn [andb orb negb].
    assert (X : ((if sg then 45 else 43) =? 43) || ((if sg then 45 else 43) =? 45) = true) by (destruct sg; reflexivity).
    rewrite X, take_digits by assumption. rewrite !(take_stop r _ dec true) by exact R. cbn [fst snd]. rewrite app_nil_r. reflexivity. }
  destruct l2 as [|c2 l2]; cbn [with_point].
  - cbn [app]. rewrite TE. reflexivity.
  - rewrite <- app_assoc. change ((46 :: c2 :: l2) ++ ?x) with (46 :: ((c2 :: l2) ++ x)).
    assert (P : forall x, take_float true false false (46 :: x) =
      (46 :: fst (take_float true true false x), snd (take_float true true false x))).
    { intros x. cbn [take_float]. change (isdigit 46) with false. change (46 =? 46) with true. cbn [andb negb].
      destruct (take_float true true false x). reflexivity. }
    rewrite P, take_digits by assumption. cbn [orb negb]. rewrite TE. reflexivity.
Qed.

Lemma conv_shape l1 l2 ex : alld l1 -> l1 <> [] -> alld l2 ->
  match ex with Some (_, l3) => alld l3 /\ l3 <> [] | None => True end ->
  conv_dec (shape l1 l2 ex) =
  Some (value (l1 ++ l2) 0,
        match ex with Some (true, l3) => - value l3 0 | Some (false, l3) => value l3 0 | None => 0 end - Z.of_nat (length l2)).
Proof.
  intros A1 N1 A2 A3. unfold conv_dec, shape. rewrite eat_digits by assumption.
  assert (LL : 0 < Z.of_nat (length l1)) by (destruct l1; [congruence|cbn [length]; lia]).
  set (t := match ex with Some (sg, l3) => [101; if sg then 45 else 43] ++ l3 | None => [] end).
  assert (T : match t with [] => True | c :: _ => isdigit c = false end)
    by (unfold t; destruct ex as [[sg l3]|]; cbn; auto).
  assert (T46 : match t with 46 :: _ => False | _ => True end)
    by (unfold t; destruct ex as [[sg l3]|]; cbn; auto).
  assert (S : eat (with_point l2 ++ t) (0 + Z.of_nat (length l1)) (value l1 0) =
              (Z.of_nat (length l1), value l1 0, with_point l2 ++ t)).
  { rewrite Z.add_0_l. apply eat_end. destruct l2; cbn [with_point app]; [exact T|reflexivity]. }
  rewrite S. clear S.
  assert (S : match with_point l2 ++ t with 46 :: r => eat r 0 (value l1 0) | _ => (0, value l1 0, with_point l2 ++ t) end =
              (Z.of_nat (length l2), value (l1 ++ l2) 0, t)).
  { destruct l2 as [|c l2]; cbn [with_point app length].
    - rewrite app_nil_r. destruct ex as [[sg l3]|]; reflexivity.
    - change (c :: l2 ++ t) with ((c :: l2) ++ t). rewrite eat_digits by assumption. rewrite Z.add_0_l.
      rewrite eat_end by exact T. rewrite value_app. reflexivity. }
  rewrite S. clear S. rewrite (proj2 (Z.eqb_neq _ 0)) by lia.
  unfold t. destruct ex as [[sg l3]|]; [|reflexivity]. cbn [app]. destruct A3 as [A3 N3].
  assert (E3 : eat l3 0 0 = (Z.of_nat (length l3), value l3 0, [])).
  { rewrite <- (app_nil_r l3) at 1. rewrite eat_digits by assumption. reflexivity. }
  assert (L3 : 0 < Z.of_nat (length l3)) by (destruct l3; [congruence|cbn [length]; lia]).
  destruct sg; rewrite E3, (proj2 (Z.eqb_neq _ 0)) by lia; reflexivity.
Qed.

(** The decimal text has the value it was made from. *)
Lemma show_shape d k : six d -> -99 <= k <= 99 ->
  exists l1 l2 ex, show_dec (d, k) = shape l1 l2 ex /\ alld l1 /\ l1 <> [] /\ alld l2 /\
    (match ex with Some (_, l3) => alld l3 /\ l3 <> [] | None => True end) /\
    value (l1 ++ l2) 0 <> 0 /\
    (inject_Z (value (l1 ++ l2) 0) *
     p10 (match ex with Some (true, l3) => - value l3 0 | Some (false, l3) => value l3 0 | None => 0 end - Z.of_nat (length l2)) == dval (d, k))%Q.
Proof.
  intros S K. unfold six in S. set (t := digits 6 d).
  assert (T : alld t) by apply digits_alld. assert (TL : length t = 6%nat) by apply digits_len.
  assert (TV : value t 0 = d) by (apply digits_value; cbn; lia).
  assert (G : forall l1 l2 j x, t = l1 ++ l2 ++ repeat 48 j -> x - Z.of_nat (length l2) = k - 5 + Z.of_nat j ->
     value (l1 ++ l2) 0 <> 0 /\ (inject_Z (value (l1 ++ l2) 0) * p10 (x - Z.of_nat (length l2)) == dval (d, k))%Q).
  { intros l1 l2 j x E X. assert (V : value (l1 ++ l2) 0 * 10 ^ Z.of_nat j = d).
    { rewrite <- (value_zeros j (value (l1 ++ l2) 0)), <- value_app, <- app_assoc, <- E. exact TV. }
    split; [intros H; rewrite H in V; lia|].
    unfold dval. cbn [fst snd]. rewrite <- V, inject_Z_mult.
    assert (P : (inject_Z (10 ^ Z.of_nat j) == p10 (Z.of_nat j))%Q).
    { unfold p10. change 10%Q with (inject_Z 10). apply Zpower_Qpower. lia. }
    rewrite P, <- Qmult_assoc, <- p10_plus. replace (Z.of_nat j + (k - 5)) with (x - Z.of_nat (length l2)) by lia. reflexivity. }
  unfold show_dec. fold t. destruct ((-4 <=? k) && (k <? 6)) eqn:E1.
  - destruct (0 <=? k) eqn:E2.
    + destruct (strip_split (skipn (Z.to_nat k + 1) t)) as [j J]. set (l2 := strip _) in *.
      exists (firstn (Z.to_nat k + 1) t), l2, None. unfold shape. rewrite app_nil_r. split; [reflexivity|].
      split; [apply firstn_alld, T|]. split.
      { intros H. apply (f_equal (@length Z)) in H. rewrite firstn_length, TL in H. cbn in H. lia. }
      split; [apply strip_alld, skipn_alld, T|]. split; [exact I|].
      assert (SL : length (skipn (Z.to_nat k + 1) t) = (length l2 + j)%nat).
      { rewrite J at 1. rewrite app_length, repeat_length. reflexivity. }
      rewrite skipn_length, TL in SL.
      apply (G _ _ j); [rewrite <- J; symmetry; apply firstn_skipn|lia].
    + destruct (strip_split t) as [j J]. set (l2 := strip t) in *.
      assert (SL : length t = (length l2 + j)%nat) by (rewrite J at 1; rewrite app_length, repeat_length; reflexivity).
      assert (L2 : l2 <> []).
      { intros H. rewrite H in J. cbn [app] in J. assert (X : value t 0 = 0) by (rewrite J, value_zeros; lia). lia. }
      exists [48], (repeat 48 (Z.to_nat (- k - 1)) ++ l2), None. unfold shape. rewrite app_nil_r.
      assert (WP : with_point (repeat 48 (Z.to_nat (- k - 1)) ++ l2) = 46 :: repeat 48 (Z.to_nat (- k - 1)) ++ l2).
      { destruct (repeat 48 _ ++ l2) eqn:X; [|reflexivity]. apply app_eq_nil in X. destruct X as [_ X]. contradiction. }
      rewrite WP. split; [reflexivity|]. split; [repeat constructor|]. split; [discriminate|].
      split; [apply alld_app; split; [apply zeros_alld|apply strip_alld, T]|]. split; [exact I|].
      assert (V0 : value ([48] ++ repeat 48 (Z.to_nat (- k - 1)) ++ l2) 0 = value ([] ++ l2) 0).
      { rewrite !value_app. rewrite value_zeros. reflexivity. }
      rewrite V0. rewrite app_length, repeat_length.
      destruct (G [] l2 j (k + 1)) as [G1 G2]; [exact J|lia|]. split; [exact G1|].
      replace (0 - Z.of_nat (Z.to_nat (- k - 1) + length l2)) with (k + 1 - Z.of_nat (length l2)) by lia. exact G2.
  - destruct (strip_split (skipn 1 t)) as [j J]. set (l2 := strip _) in *.
    exists (firstn 1 t), l2, (Some (k <? 0, digits 2 (Z.abs k))). unfold shape. split; [reflexivity|].
    split; [apply firstn_alld, T|]. split.
    { intros H. apply (f_equal (@length Z)) in H. rewrite firstn_length, TL in H. cbn in H. lia. }
    split; [apply strip_alld, skipn_alld, T|]. split; [split; [apply digits_alld|discriminate]|].
    assert (SL : length (skipn 1 t) = (length l2 + j)%nat).
    { rewrite J at 1. rewrite app_length, repeat_length. reflexivity. }
    rewrite skipn_length, TL in SL.
    rewrite (digits_value 2 (Z.abs k)) by (cbn; lia).
    assert (KV : (if k <? 0 then - Z.abs k else Z.abs k) = k) by (destruct (Z.ltb_spec k 0); lia).
    destruct (k <? 0); rewrite KV; apply (G _ _ j); try (rewrite <- J; symmetry; apply firstn_skipn); lia.
Qed.

(** * Reading back *)

(** What is read for a printed float. *)
Definition short (b : Z) : Z :=
  if f_mag b =? 0 then b
  else nearest (dval (dec6 (f_abs b))) + (if f_neg b then 2 ^ 31 else 0).

Lemma mag_sign b : is_float b -> b = f_mag b + (if f_neg b then 2 ^ 31 else 0) /\ 0 <= f_mag b < 2 ^ 31.
Proof.
  unfold is_float, f_mag, f_neg. intros H. destruct (Z.leb_spec (2 ^ 31) b).
  - rewrite (Z.mod_eq b) by lia. assert (b / 2 ^ 31 = 1) by (symmetry; apply (Z.div_unique b (2 ^ 31) 1 (b - 2 ^ 31)); lia). lia.
  - rewrite Z.mod_small by lia. lia.
Qed.
Lemma with_sign m (s : bool) : 0 <= m < 2 ^ 31 ->
  let b := m + (if s then 2 ^ 31 else 0) in is_float b /\ f_mag b = m /\ f_neg b = s.
Proof.
  intros H. cbv zeta. destruct s.
  - split; [unfold is_float; lia|]. split.
    + unfold f_mag. replace (m + 2 ^ 31) with (m + 1 * 2 ^ 31) by lia. rewrite Z.mod_add by lia. apply Z.mod_small. lia.
    + unfold f_neg. lia.
  - rewrite Z.add_0_r. split; [unfold is_float; lia|]. split; [apply Z.mod_small; lia|unfold f_neg; lia].
Qed.
Lemma abs_mag a b : f_mag a = f_mag b -> f_abs a = f_abs b.
Proof. unfold f_abs, f_m, f_e. intros ->. reflexivity. Qed.
Lemma finite_mag a b : f_mag a = f_mag b -> f_finite a = f_finite b.
Proof. unfold f_finite. intros ->. reflexivity. Qed.

Lemma short_nz b : is_float b -> f_finite b = true -> f_mag b <> 0 ->
  let r := nearest (dval (dec6 (f_abs b))) in
  positive r /\ f_mag r = r /\ f_mag (short b) = r /\ f_neg (short b) = f_neg b /\ is_float (short b) /\
  dec6 (f_abs (short b)) = dec6 (f_abs b) /\ 0 < r < 255 * 2 ^ 23.
Proof.
  intros B F N. cbv zeta. destruct (mag_sign b B) as [_ M].
  assert (PB : positive b) by (split; [exact F|lia]). destruct (stable b PB) as (P & R & D). clear PB. unfold short.
  rewrite (proj2 (Z.eqb_neq (f_mag b) 0)) by assumption.
  revert P R D. generalize (nearest (dval (dec6 (f_abs b)))). generalize (dec6 (f_abs b)).
  intros dk r P R D.
  assert (RR : 0 < r < 255 * 2 ^ 23).
  { destruct P as [P1 P2]. unfold f_finite in P1. rewrite R in P1, P2. lia. }
  destruct (with_sign r (f_neg b) ltac:(lia)) as (W1 & W2 & W3).
  split; [exact P|]. split; [exact R|]. split; [exact W2|]. split; [exact W3|]. split; [exact W1|]. split; [|exact RR].
  rewrite (abs_mag _ r) by (rewrite W2, R; reflexivity). exact D.
Qed.

Lemma short_same_text b : is_float b -> f_finite b = true -> show_float (short b) = show_float b.
Proof.
  intros B F. destruct (Z.eq_dec (f_mag b) 0) as [Z|N].
  - unfold short. rewrite Z. reflexivity.
  - destruct (short_nz b B F N) as (P & R & M & G & _ & D & RR). unfold show_float. rewrite G, D, F, M.
    assert (FF : f_finite (short b) = true) by (unfold f_finite; rewrite M; lia). rewrite FF.
    rewrite (proj2 (Z.eqb_neq (nearest _) 0)) by lia. rewrite (proj2 (Z.eqb_neq (f_mag b) 0)) by lia. reflexivity.
Qed.

Lemma short_finite b : is_float b -> f_finite b = true -> is_float (short b) /\ f_finite (short b) = true.
Proof.
  intros B F. destruct (Z.eq_dec (f_mag b) 0) as [Z|N].
  - unfold short. rewrite Z. auto.
  - destruct (short_nz b B F N) as (P & R & M & G & I & D & RR). split; [exact I|unfold f_finite; rewrite M; lia].
Qed.

Lemma short_short b : is_float b -> f_finite b = true -> short (short b) = short b.
Proof.
  intros B F. destruct (Z.eq_dec (f_mag b) 0) as [Z|N].
  - unfold short. rewrite Z. cbn [Z.eqb]. rewrite Z. reflexivity.
  - destruct (short_nz b B F N) as (P & R & M & G & I & D & RR). unfold short at 1. rewrite M, G, D.
    rewrite (proj2 (Z.eqb_neq _ 0)) by lia. unfold short. rewrite (proj2 (Z.eqb_neq _ 0)) by assumption. reflexivity.
Qed.

Lemma show_dec_first d k : six d -> -99 <= k <= 99 ->
  exists c l, show_dec (d, k) = c :: l /\ isdigit c = true.
Proof.
  intros S K. destruct (show_shape d k S K) as (l1 & l2 & ex & E & A1 & N1 & _).
  destruct l1 as [|c l1]; [congruence|]. exists c. rewrite E. unfold shape. cbn [app]. eexists. split; [reflexivity|].
  inversion A1; assumption.
Qed.

Lemma signed_plain c l : isdigit c = true ->
  take_signed (c :: l) = (false, fst (take_float false false false (c :: l)), snd (take_float false false false (c :: l))).
Proof.
  intros H. destruct (digit_not c H) as (_ & _ & _ & X & Y). unfold take_signed.
  rewrite (proj2 (Z.eqb_neq c 45)), (proj2 (Z.eqb_neq c 43)) by assumption. reflexivity.
Qed.
Lemma signed_minus l : take_signed (45 :: l) = (true, fst (take_float false false false l), snd (take_float false false false l)).
Proof. reflexivity. Qed.
Lemma signed_text (s : bool) c l r x : isdigit c = true ->
  take_float false false false (c :: l ++ r) = (c :: l, x) ->
  take_signed ((if s then [45] else []) ++ (c :: l) ++ r) = (s, c :: l, x).
Proof.
  intros H T. cbn [app]. destruct s; cbn [app].
  - rewrite signed_minus, T. reflexivity.
  - rewrite signed_plain by assumption. rewrite T. reflexivity.
Qed.

Lemma get_float_text b r : is_float b -> f_finite b = true -> stops r ->
  exists sg t, take_signed (show_float b ++ r) = (sg, t, r) /\ conv_float sg t = (short b, true) /\
    exists c l, show_float b = c :: l /\ isspace c = false.
Proof.
  intros B F R. unfold show_float. rewrite F. destruct (Z.eqb_spec (f_mag b) 0) as [Z|N].
  - exists (f_neg b), [48]. rewrite <- app_assoc. split; [|split].
    + apply (signed_text (f_neg b) 48 [] r r eq_refl).
      pose proof (take_digits [48] r false false false ltac:(repeat constructor)) as T. cbn [app] in T |- *. rewrite T.
      rewrite take_stop by exact R. reflexivity.
    + destruct (mag_sign b B) as [E _]. unfold conv_float. cbn [conv_dec eat isdigit]. 
      change (conv_dec [48]) with (Some (0, 0)). cbv beta iota. change (0 =? 0) with true. cbv beta iota.
      change (255 * 2 ^ 23 <=? 0) with false. cbv beta iota. rewrite Z in E. unfold short. rewrite Z. cbn [Z.eqb negb].
      rewrite E at 2. reflexivity.
    + destruct (f_neg b); cbn [app]; eexists; eexists; split; reflexivity.
  - destruct (mag_sign b B) as [_ M].
    assert (PB : positive b) by (split; [exact F|lia]).
    destruct (dec6_top b PB) as [T K]. destruct (positive_range b PB) as (_ & W & _).
    destruct (dec6_spec (f_abs b) W) as (_ & S & _). destruct (short_nz b B F N) as (_ & _ & _ & _ & _ & _ & RR).
    destruct (dec6 (f_abs b)) as [d k] eqn:DK. cbn [fst snd] in *.
    destruct (show_dec_first d k S ltac:(lia)) as (c & l & EC & DC).
    destruct (show_shape d k S ltac:(lia)) as (l1 & l2 & ex & E & A1 & N1 & A2 & A3 & V0 & V).
    exists (f_neg b), (show_dec (d, k)). rewrite <- app_assoc. split; [|split].
    + rewrite EC. apply signed_text; [exact DC|]. rewrite app_comm_cons, <- EC, E. apply take_shape; try assumption.
      destruct ex as [[? ?]|]; [apply A3|exact I].
    + unfold conv_float. rewrite E, conv_shape by assumption. rewrite (proj2 (Z.eqb_neq _ 0)) by exact V0.
      rewrite (nearest_comp _ _ V). unfold short. rewrite (proj2 (Z.eqb_neq _ 0)) by assumption. rewrite DK.
      rewrite (proj2 (Z.leb_gt _ _)) by lia. reflexivity.
    + rewrite EC. destruct (f_neg b); cbn [app]; eexists; eexists; (split; [reflexivity|]); [reflexivity|].
      unfold isdigit in DC. unfold isspace. lia.
Qed.

Definition at_end (r : list Z) : bool := match r with [] => true | _ => false end.

Lemma get_float_show b r : is_float b -> f_finite b = true -> stops r ->
  get_float (open_in (show_float b ++ r)) = (Some (short b), {| left := r; fail := false; eof := at_end r |}).
Proof.
  intros B F R. destruct (get_float_text b r B F R) as (sg & t & T & C & (c & l & E & SP)).
  unfold get_float, get_num. cbn [good open_in fail eof negb andb left]. rewrite E in *. cbn [app skip_ws] in *. rewrite SP.
  rewrite T. rewrite C. reflexivity.
Qed.
Lemma get_float_ws w l : isspace w = true -> get_float (open_in (w :: l)) = get_float (open_in l).
Proof. intros H. unfold get_float, get_num. cbn [good open_in fail eof negb andb left skip_ws]. rewrite H. reflexivity. Qed.

(** A value that is not a number stops the reading. *)
Lemma get_float_bad b r : is_float b -> f_finite b = false ->
  exists l, get_float (open_in (show_float b ++ r)) = (Some 0, {| left := l; fail := true; eof := false |}).
Proof.
  intros B F. unfold show_float. rewrite F. destruct (f_neg b), (f_isnan b); cbn; eexists; reflexivity.
Qed.

(** * Integers *)

Lemma udec_spec f : forall v, 0 <= v < 10 ^ Z.of_nat f -> (0 < f)%nat ->
  alld (udec f v) /\ udec f v <> [] /\ value (udec f v) 0 = v.
Proof.
  induction f as [|f IH]; intros v H P; [lia|]. cbn [udec]. destruct (Z.ltb_spec v 10) as [L|G].
  - split; [repeat constructor; apply digit_is|]. split; [discriminate|]. unfold value. cbn [fold_left]. unfold digit.
    rewrite Z.mod_small by lia. lia.
  - assert (F : (0 < f)%nat).
    { destruct f; [|lia]. change (10 ^ Z.of_nat 1) with 10 in H. lia. }
    rewrite Nat2Z.inj_succ, Z.pow_succ_r in H by lia.
    destruct (IH (v / 10)) as (A & N & V); [|exact F|].
    { split; [apply Z.div_pos; lia|apply Z.div_lt_upper_bound; lia]. }
    split; [apply alld_app; split; [exact A|repeat constructor; apply digit_is]|]. split.
    + intros X. apply app_eq_nil in X. destruct X; discriminate.
    + rewrite value_app, V. unfold value. cbn [fold_left]. unfold digit. pose proof (Z.div_mod v 10 ltac:(lia)). lia.
Qed.

Definition stops_int (r : list Z) : Prop := match r with [] => True | c :: _ => isdigit c = false end.

Lemma get_int_text v r : - 2 ^ 31 <= v < 2 ^ 31 -> stops_int r ->
  conv_int (show_int v ++ r) = (v, true) /\ rest_int (show_int v ++ r) = r /\
  exists c l, show_int v = c :: l /\ isspace c = false.
Proof.
  intros H R. unfold show_int.
  assert (G : forall u, 0 <= u <= 2 ^ 31 -> alld (udec 20 u) /\ udec 20 u <> [] /\ value (udec 20 u) 0 = u).
  { intros u U. apply udec_spec; [|lia]. split; [lia|]. apply Z.le_lt_trans with (2 ^ 31); [lia|reflexivity]. }
  assert (EAT : forall u, 0 <= u <= 2 ^ 31 -> exists n, 0 < n /\ eat (udec 20 u ++ r) 0 0 = (n, u, r)).
  { intros u U. destruct (G u U) as (A & N & V). exists (Z.of_nat (length (udec 20 u))). split.
    - destruct (udec 20 u); [congruence|cbn [length]; lia].
    - rewrite eat_digits, Z.add_0_l, V by assumption. apply eat_end. exact R. }
  destruct (Z.ltb_spec v 0) as [NEG|POS].
  - destruct (EAT (- v)) as (n & N & E); [lia|]. unfold conv_int, rest_int. cbn [app]. rewrite E.
    rewrite (proj2 (Z.eqb_neq n 0)) by lia. rewrite (proj2 (Z.ltb_ge _ _)) by lia. rewrite (proj2 (Z.leb_gt _ _)) by lia.
    rewrite Z.opp_involutive. split; [reflexivity|]. split; [reflexivity|]. eexists. eexists. split; [reflexivity|reflexivity].
  - destruct (EAT v) as (n & N & E); [lia|]. destruct (G v) as (A & NN & V); [lia|].
    destruct (udec 20 v) as [|c l] eqn:U; [congruence|].
    assert (DC : isdigit c = true) by (inversion A; assumption). destruct (digit_not c DC) as (_ & _ & _ & X & Y).
    assert (M : forall T (a b : list Z -> T) (d : T), match (c :: l) ++ r with 45 :: q => a q | 43 :: q => b q | _ => d end = d).
    { intros. cbn [app]. clear - X Y. destruct c as [|p|p]; try reflexivity. do 6 (destruct p as [p|p|]; try reflexivity; try congruence). }
    unfold conv_int, rest_int. rewrite !M, E.
    rewrite (proj2 (Z.eqb_neq n 0)) by lia. rewrite (proj2 (Z.ltb_ge _ _)) by lia. rewrite (proj2 (Z.leb_gt _ _)) by lia.
    split; [reflexivity|]. split; [reflexivity|]. exists c, l. split; [reflexivity|]. unfold isdigit in DC. unfold isspace. lia.
Qed.

Lemma get_int_show v r : - 2 ^ 31 <= v < 2 ^ 31 -> stops_int r ->
  get_int (open_in (show_int v ++ r)) = (Some v, {| left := r; fail := false; eof := at_end r |}).
Proof.
  intros H R. destruct (get_int_text v r H R) as (C & E & (c & l & S & SP)).
  unfold get_int, get_num. cbn [good open_in fail eof negb andb left]. rewrite S in *. cbn [app skip_ws] in *. rewrite SP.
  rewrite C, E. reflexivity.
Qed.
Lemma get_int_ws w l : isspace w = true -> get_int (open_in (w :: l)) = get_int (open_in l).
Proof. intros H. unfold get_int, get_num. cbn [good open_in fail eof negb andb left skip_ws]. rewrite H. reflexivity. Qed.

(** * What is read is close to what was printed *)

Lemma short_close b : is_float b -> f_finite b = true -> close_to b (short b).
Proof.
  intros B F. destruct (short_finite b B F) as [SB SF]. split; [exact SB|]. split; [exact SF|].
  destruct (Z.eq_dec (f_mag b) 0) as [Z|N].
  - unfold short. rewrite Z. cbn [Z.eqb]. split; [reflexivity|].
    assert (E : (real b - real b == 0)%Q) by ring. rewrite E. apply Qmult_le_0_compat; [apply Qabs.Qabs_nonneg|discriminate].
  - destruct (short_nz b B F N) as (P & R & M & G & I & D & RR). split; [exact G|].
    assert (X : (Qabs.Qabs (f_abs (short b) - f_abs b) <= f_abs b * (6 # 1000000))%Q).
    { destruct (mag_sign b B) as [_ MB]. assert (PB : positive b) by (split; [exact F|lia]).
      assert (PS : positive (short b)) by (split; [exact SF|lia]).
      destruct (positive_range b PB) as (_ & W & (e0 & m0 & E0 & M0 & N0 & B0 & V0)). destruct (dec6_spec (f_abs b) W) as ([L1 L2] & S & [C1 C2] & CC).
      destruct (dec6_top b PB) as ([T1 T2] & K). set (x := f_abs b) in *. set (v := dval (dec6 x)) in *.
      destruct (nearest_spec v) as (e & m & NE & E & MM & N3 & E1 & E2 & RM & D1 & D2).
      { split.
        - apply Qle_trans with (p10 (-50)); [vm_compute; discriminate|exact T1].
        - apply Qlt_trans with (inject_Z (2 ^ 24 - 1) * p2 104)%Q; [exact T2|vm_compute; reflexivity]. }
      destruct (mk_val e m E MM N3) as [_ V].
      assert (A : (f_abs (short b) == inject_Z m * p2 e)%Q).
      { rewrite (abs_mag _ (mk e m)); [exact V|]. rewrite M, <- NE. symmetry. exact R. }
      rewrite A. set (y := (inject_Z m * p2 e)%Q) in *. set (k := lg 10 90 40 x) in *.
      pose proof (p10_5 k) as U. pose proof (p10_pos (k - 5)) as UP. pose proof (p2_pos e) as EP.
      fold v in C1, C2.
      assert (Q1 : (- (x * (6 # 1000000)) <= y - x <= x * (6 # 1000000))%Q).
      { destruct (Qlt_le_dec v (p2 (-126))) as [SUB|NORM].
        2: { assert (p2 e * 8388608 <= v)%Q.
             { destruct E1 as [E1|E1].
               - subst e. change (p2 (-126)) with (p2 (-149 + 23)) in NORM. rewrite p2_plus in NORM. exact NORM.
               - rewrite p2_plus in E1. exact E1. }
             split; lra. }
        assert (e = -149) as ->.
        { destruct E1 as [E1|E1]; [exact E1|]. assert (e + 23 < -126); [|lia].
          apply (qpow_lt_inv 2); [discriminate|]. fold (p2 (e + 23)). fold (p2 (-126)). lra. }
        destruct (Z_le_gt_dec k (-40)) as [SMALL|BIG].
        - (* the same float *)
          assert (U1 : (p10 (k - 5) <= p10 (-45))%Q) by (apply p10_le; lia).
          assert (U2 : (p10 (-45) * (1 # 2) < p2 (-149) * (1 # 2))%Q) by (vm_compute; reflexivity).
          assert (XS : exists n, (x == inject_Z n * p2 (-149))%Q /\ 0 <= n).
          { assert (e0 = -149 \/ e0 = -148 \/ -147 <= e0) as [H|[H|H]] by lia.
            - exists m0. rewrite V0, H. split; [reflexivity|lia].
            - exfalso. subst e0. rewrite V0 in *.
              assert (8388608 <= inject_Z m0)%Q by (change 8388608%Q with (inject_Z 8388608); rewrite <- Zle_Qle; lia).
              assert (Y : (8388608 * p2 (-148) <= inject_Z m0 * p2 (-148))%Q) by (pose proof (p2_pos (-148)); nra).
              assert (Y2 : (p2 (-126) + p10 (-45) < 8388608 * p2 (-148))%Q) by (vm_compute; reflexivity). lra.
            - exfalso. rewrite V0 in *.
              assert (8388608 <= inject_Z m0)%Q by (change 8388608%Q with (inject_Z 8388608); rewrite <- Zle_Qle; lia).
              pose proof (p2_le (-147) e0 H) as HH.
              assert (Y : (8388608 * p2 (-147) <= inject_Z m0 * p2 e0)%Q) by (pose proof (p2_pos (-147)); nra).
              assert (Y2 : (p2 (-126) + p10 (-45) < 8388608 * p2 (-147))%Q) by (vm_compute; reflexivity). lra. }
          destruct XS as (n & XN & NN).
          assert (EN : nearest v = n).
          { apply nearest_is; [|exact SUB|lra|lra]. apply Qle_trans with (p10 (-50)); [vm_compute; discriminate|exact T1]. }
          assert (MN : m = n) by (rewrite NE in EN; unfold mk in EN; lia).
          assert (y == x)%Q by (unfold y; rewrite XN, MN; reflexivity).
          assert (0 < x)%Q by (pose proof (p10_pos k); lra). lra.
        - assert (H1 : (p2 (-149) * (1 # 2) <= p10 (-39) * (1 # 1000000))%Q) by (vm_compute; discriminate).
          pose proof (p10_le (-39) k ltac:(lia)). split; lra. }
      apply Qabs.Qabs_Qle_condition. exact Q1. }
    unfold real. rewrite G. assert (PA : (0 <= f_abs b)%Q).
    { destruct (mag_sign b B) as [_ MB]. assert (PB : positive b) by (split; [exact F|lia]). destruct (positive_range b PB) as ([Q1 _] & _). pose proof (p2_pos (-149)). lra. }
    destruct (f_neg b).
    + rewrite Qabs.Qabs_opp, (Qabs.Qabs_pos _ PA).
      setoid_replace (- f_abs (short b) - - f_abs b)%Q with (- (f_abs (short b) - f_abs b))%Q by ring. rewrite Qabs.Qabs_opp. exact X.
    + rewrite (Qabs.Qabs_pos (f_abs b) PA). exact X.
Qed.

(** Six digits are kept. *)
Lemma to_six d x : 0 < d < 10 ^ 6 -> exists d' k, six d' /\ (inject_Z d * p10 x == dval (d', k))%Q.
Proof.
  intros H.
  assert (G : forall n : nat, forall d x, 10 ^ (5 - Z.of_nat n) <= d < 10 ^ 6 -> (n <= 5)%nat ->
    exists d' k, six d' /\ (inject_Z d * p10 x == dval (d', k))%Q).
  { clear. induction n as [|n IH]; intros d x H N.
    - change (5 - Z.of_nat 0) with 5 in H. exists d, (x + 5). split; [unfold six; lia|]. unfold dval. cbn [fst snd].
      replace (x + 5 - 5) with x by lia. reflexivity.
    - destruct (Z_lt_le_dec d 100000) as [L|L].
      + destruct (IH (d * 10) (x - 1)) as (d' & k & S & E); [|lia|].
        { replace (5 - Z.of_nat n) with (Z.succ (5 - Z.of_nat (S n))) by lia. rewrite Z.pow_succ_r by lia. lia. }
        exists d', k. split; [exact S|]. rewrite <- E. rewrite inject_Z_mult. change (inject_Z 10) with 10%Q.
        assert (P : (p10 x == p10 (x - 1) * 10)%Q) by (replace x with (x - 1 + 1) at 1 by lia; apply p10_succ). rewrite P. ring.
      + exists d, (x + 5). split; [unfold six; lia|]. unfold dval. cbn [fst snd].
        replace (x + 5 - 5) with x by lia. reflexivity. }
  apply (G 5%nat); [|lia]. change (10 ^ (5 - Z.of_nat 5)) with 1. lia.
Qed.

Lemma short_exact b : is_float b -> f_finite b = true -> six_digit b -> short b = b.
Proof.
  intros B F [Z|(d & x & D & (R1 & R2) & E)].
  - unfold short. rewrite Z. reflexivity.
  - destruct (mag_sign b B) as [EB MB]. unfold short. destruct (Z.eqb_spec (f_mag b) 0) as [|N]; [reflexivity|].
    destruct (to_six d x D) as (d' & k & S & EQ). rewrite EQ in R1, R2. rewrite (nearest_comp _ _ EQ) in E.
    assert (KK : -49 <= k <= 39).
    { unfold dval in R1, R2. cbn [fst snd] in R1, R2. unfold six in S.
      assert (D1 : (100000 <= inject_Z d')%Q) by (change 100000%Q with (inject_Z 100000); rewrite <- Zle_Qle; lia).
      assert (D2 : (inject_Z d' <= 1000000)%Q) by (change 1000000%Q with (inject_Z 1000000); rewrite <- Zle_Qle; lia).
      pose proof (p10_pos (k - 5)) as P.
      assert (L : (p10 k <= inject_Z d' * p10 (k - 5))%Q) by (rewrite p10_5; nra).
      assert (U : (inject_Z d' * p10 (k - 5) <= p10 (k + 1))%Q) by (rewrite p10_6; nra).
      split.
      - assert (-40 < k + 1); [|lia]. apply (qpow_lt_inv 10); [discriminate|]. fold (p10 (k + 1)).
        apply Qlt_le_trans with (p2 (-126)); [vm_compute; reflexivity|]. lra.
      - assert (k < 40); [|lia]. apply (qpow_lt_inv 10); [discriminate|]. fold (p10 k).
        apply Qle_lt_trans with (inject_Z d' * p10 (k - 5))%Q; [exact L|]. apply Qlt_trans with (p2 128); [exact R2|vm_compute; reflexivity]. }
    pose proof (six_digits d' k S KK (conj R1 R2)) as SD.
    rewrite <- E in SD. rewrite (abs_mag (f_mag b) b) in SD.
    + rewrite SD, <- E. symmetry. exact EB.
    + unfold f_mag. apply Z.mod_mod. lia.
Qed.
