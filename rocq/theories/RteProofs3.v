(** Proofs about the routes: the evaluation of steps keeps to them. *)
From Coq Require Import ZArith List Bool Lia.
From Verif Require Import CipModel CipSpec CipProofs CipProofs2 CipProofs3 RteModel RteSpec RteProofs RteProofs2.
Import ListNotations.
Open Scope Z_scope.

Section Neutral.
Context (w : Z) (nn : bool).

(** * The orders an evaluation may give *)

Definition cross (a b : list (list order)) : list (list order) := flat_map (fun x => map (fun y => x ++ y) b) a.
Lemma in_cross : forall a b x y, In x a -> In y b -> In (x ++ y) (cross a b).
Proof. intros a b x y Ha Hb. apply in_flat_map. exists x. split; [exact Ha|]. exact (in_map (fun y => x ++ y) b y Hb). Qed.
Definition sortv (t : place) : list (list order) :=
  let tank := match t with TankS => V09 | _ => V08 end in
  let other := match t with TankS => V08 | _ => V09 end in
  [[]; [off V07; off other] ++ [on tank; off V10; off V11; off V12];
   [off V07; off other] ++ [off tank; off V10; off V11; off V12] ++ (if nn then [on V11] else [on V12]);
   [off V07; off other] ++ [off tank; off V10; on V11; off V12]].
Lemma sort_in : forall e t f m, noneutro e = nn -> In (fst (sort w e t f m)) (sortv t).
Proof.
  intros e t f m N. unfold sort, sortv. rewrite N. destruct (_ && negb (force m)); [left; reflexivity|]. cbv zeta. cbn [fst].
  match goal with |- context [if ?x then [on _; _; _; _] else _] => destruct x end; [right; left; reflexivity|].
  destruct (some e); [right; right; left; reflexivity|right; right; right; left; reflexivity].
Qed.
Definition refillv : list (list order) := [[]; [off V00]; [on V00]; [on V00; off V00]].
Lemma refill_in : forall e, In (refill e) refillv.
Proof. intros e. unfold refill, refillv. destruct (lm e), (lh e); cbn; auto. Qed.
Definition drawv : list (list order) := [on V04; off V00; off V01] :: map (fun r => [off V04; on V01] ++ r) refillv.
Lemma draw_in : forall e m, In (fst (draw w e m)) drawv.
Proof.
  intros e m. unfold draw, drawv. cbv zeta. cbn [fst]. destruct (empty _); [right|left; reflexivity].
  exact (in_map (fun r => [off V04; on V01] ++ r) refillv _ (refill_in e)).
Qed.
Definition returnv : list (list order) :=
  [[off V08; off V09; off V10] ++ [on V11; off V12; off V07]; [off V08; off V09; off V10] ++ [off V11; off V12; on V07]].
Lemma return_in : forall e b m, In (fst (return_w w e b m)) returnv.
Proof. intros e b m. unfold return_w, returnv. cbv zeta. cbn [fst]. destruct (full _ || b); [left|right; left]; reflexivity. Qed.

Definition fromv (p : place) : list (list order) := match p with Water => refillv | TankW => drawv | _ => [[]] end.
Definition tov (p : place) : list (list order) := match p with TankW => returnv | TankK => sortv TankK | TankS => sortv TankS | _ => [[]] end.
Definition do_tov (from to : place) : list (list order) := fromv from ++ cross (fromv from) (tov to).
Lemma do_to_in : forall e from to m, noneutro e = nn -> In (fst (do_to w e from to m)) (do_tov from to).
Proof.
  intros e from to m N. unfold do_to, do_tov. cbv zeta.
  set (a := match from with Water => (refill e, m) | TankW => draw w e m | _ => ([], m) end).
  assert (A : In (fst a) (fromv from)) by (unfold a; destruct from; cbn [fst fromv]; try (left; reflexivity); [apply draw_in|apply refill_in]).
  apply in_or_app. destruct (match from with TankK => negb (lkl e) | TankS => negb (lsl e) | _ => false end); [left; exact A|right].
  cbn [fst]. apply in_cross; [exact A|]. destruct to; cbn [tov]; try (left; reflexivity); [apply return_in|apply sort_in|apply sort_in]; exact N.
Qed.
Definition do_fromv (from to : place) : list (list order) :=
  let f := match from with TankK => [[]] ++ sortv TankK | TankS => [[]] ++ sortv TankS | _ => fromv from end in [[]] ++ f ++ cross f (tov to).
Lemma do_from_in : forall e from to m, noneutro e = nn -> In (fst (do_from w e from to m)) (do_fromv from to).
Proof.
  intros e from to m N. unfold do_from, do_fromv. cbv zeta. destruct (quit e); [left; reflexivity|].
  match goal with |- context [let a := ?x in _] => set (a := x) | |- context [fst (if _ then ?x else _)] => set (a := x) end.
  set (f := match from with TankK => [[]] ++ sortv TankK | TankS => [[]] ++ sortv TankS | _ => fromv from end).
  assert (A : In (fst a) f).
  { unfold a, f. destruct from; cbn [fst fromv]; try (left; reflexivity); [apply draw_in| | |apply refill_in].
    - destruct (lsl e); [right; apply sort_in, N|left; reflexivity].
    - destruct (lkl e); [right; apply sort_in, N|left; reflexivity]. }
  apply in_or_app. right. apply in_or_app.
  destruct (match from with TankK => negb (lkl e) | TankS => negb (lsl e) | _ => false end); [left; exact A|right].
  cbn [fst]. apply in_cross; [exact A|]. destruct to; cbn [tov]; try (left; reflexivity); [apply return_in|apply sort_in|apply sort_in]; exact N.
Qed.
Definition oporcipv (to : place) : list (list order) := [] :: tov to.
Lemma oporcip_in : forall e to m, noneutro e = nn -> In (fst (do_oporcip w e to m)) (oporcipv to).
Proof.
  intros e to m N. unfold do_oporcip, oporcipv. destruct (isline e); [left; reflexivity|]. right.
  destruct to; cbn [tov fst]; try (left; reflexivity); try (apply sort_in, N).
  destruct (lwh e); [left|right; left]; reflexivity.
Qed.
Definition oporcircv (to : place) : list (list order) := match to with TankW => [[off V07; on V11]; [on V07; off V11]] | _ => [[]] end.
Lemma oporcirc_in : forall e to m, In (fst (do_oporcirc e to m)) (oporcircv to).
Proof. intros e to m. destruct to; cbn; auto. destruct (lwh e); auto. Qed.
Definition feedingv (x : vlv) : list (list order) := [[]; [on x]; [off x]; [on x; off x]].
Lemma feeding_in : forall e x m, In (fst (feeding w e x m)) (feedingv x).
Proof.
  intros e x m. unfold feeding, feedingv. cbv zeta. cbn [fst].
  match goal with |- context [(if ?a then [on x] else []) ++ (if ?b then [off x] else [])] => destruct b, a end; cbn; auto 6.
Qed.
Definition circv (t : vlv) : list (list order) := [[]; back t; back V10].
Lemma circ_in : forall e t m, In (fst (circ_return w e t m)) (circv t).
Proof.
  intros e t m. unfold circ_return, circv. destruct (negb (nostop e)); [left; reflexivity|].
  destruct (lh e); [destruct (1000 <? _); [right; left|left]; reflexivity|]. destruct (lm e); [left|right; right; left]; reflexivity.
Qed.
Definition do_circv (p : place) : list (list order) :=
  map (cons (off V06)) (match p with
                        | TankK => cross ([] :: feedingv V02) (circv V08) | TankS => cross ([] :: feedingv V03) (circv V09)
                        | _ => [] :: feedingv V00 end).
Lemma do_circ_in : forall e p m, In (fst (do_circ w e p m)) (do_circv p).
Proof.
  intros e p m. unfold do_circ, do_circv.
  destruct p; cbv zeta; cbn [fst]; apply in_map;
    try (match goal with |- In (fst (if ?b then _ else _)) _ => destruct b end; [right; apply feeding_in|left; reflexivity]);
    (apply in_cross; [|apply circ_in]; match goal with |- In (fst (if ?b then _ else _)) _ => destruct b end; [right; apply feeding_in|left; reflexivity]).
Qed.
Definition opolv (t : place) : list (list order) := cross (sortv t) ([] :: refillv).
Lemma opol_in : forall e t m, noneutro e = nn -> In (fst (do_opolrr w e t m)) (opolv t).
Proof.
  intros e t m N. unfold do_opolrr, opolv. cbv zeta. cbn [fst]. apply in_cross; [apply sort_in, N|].
  destruct (quit e); [left; reflexivity|right; apply refill_in].
Qed.
Lemma filrr_in : forall e m, In (fst (do_filrr e m)) ([] :: refillv).
Proof. intros e m. unfold do_filrr. cbn [fst]. destruct (quit e); [left; reflexivity|right; apply refill_in]. Qed.
Definition intov (same : bool) (x : vlv) : list (list order) :=
  [[on x; off V11; off V12]; [off x; off V11; off V12]]
  ++ (if same then [] else [[off x; off V11] ++ (if nn then [on V11] else [on V12])]).
Definition pumpv (from to : place) : list (list order) :=
  cross (match from with Water => [[]; [on V00]; [off V00]; [on V00; off V00]] | _ => [[]] end)
        (match to with TankW | HeadW => intov (same from TankW) V07 | TankK | HeadK => intov (same from TankK) V08
                       | TankS | HeadS => intov (same from TankS) V09 | _ => [[]] end).
Lemma pump_in : forall e from to m, noneutro e = nn -> In (fst (do_pump e from to m)) (pumpv from to).
Proof.
  intros e from to m N. unfold do_pump, pumpv. cbv zeta. cbn [fst]. rewrite N. apply in_cross.
  - destruct from; try (left; reflexivity). destruct (ll e), (lm e || lh e); cbn; auto.
  - assert (X : forall x (b s h : bool), In (if b && negb s then [off x; off V11] ++ (if nn then [on V11] else [on V12]) else [(x, negb (h && scold e)); off V11; off V12]) (intov s x)).
    { intros x b s h. unfold intov. destruct b, s, (h && scold e); cbn; auto. }
    destruct to; try (left; reflexivity); apply X.
Qed.

Definition either (f : place -> list (list order)) (a b : place) : list (list order) := f a ++ f b.
Definition variants (n : Z) : list (list order) :=
  match n with
  | 5 | 8 | 14 => either (fun s => do_tov s Drain) TankW Water
  | 6 | 9 | 23 | 43 | 79 => oporcipv Drain
  | 7 => either (fun s => do_fromv s Drain) TankW Water
  | 11 | 66 | 77 => do_circv Water
  | 12 | 15 | 16 | 78 => oporcircv Drain
  | 22 => do_tov TankS Drain
  | 24 => do_fromv TankS Drain
  | 28 => do_circv TankS
  | 29 => oporcircv TankS
  | 33 => either (fun s => do_tov s TankS) TankW Water
  | 34 => oporcipv TankS
  | 35 => either (fun s => do_fromv s TankS) TankW Water
  | 37 => either (fun s => do_tov s TankW) TankW Water ++ either (fun s => do_tov s Drain) TankW Water
  | 39 | 59 | 67 => either oporcircv TankW Drain
  | 40 | 60 | 63 | 73 | 84 | 91 => either oporcipv TankW Drain
  | 42 => do_tov TankK Drain
  | 44 => do_fromv TankK Drain
  | 48 => do_circv TankK
  | 49 => oporcircv TankK
  | 53 => do_tov Water TankK
  | 54 => oporcipv TankK
  | 55 => do_fromv Water TankK
  | 57 | 62 | 72 | 83 | 86 => either (do_tov Water) TankW Drain
  | 64 | 74 | 85 => either (do_fromv Water) TankW Drain
  | 105 | 115 => [] :: refillv
  | 111 => opolv TankS
  | 121 => opolv TankK
  | 151 | 152 => pumpv TankW Drain
  | 153 | 187 => pumpv Water HeadW
  | 154 | 188 => pumpv No No
  | 155 => pumpv TankS TankS
  | 156 | 157 | 175 | 176 => pumpv TankS HeadW
  | 160 => pumpv Water TankS
  | 161 | 180 => pumpv TankW HeadW
  | 162 => pumpv TankK TankK
  | 163 | 164 => pumpv TankK HeadS
  | 167 | 186 => pumpv Water HeadK
  | 168 => pumpv TankS HeadS
  | 169 | 170 => pumpv TankW HeadK
  | 173 => pumpv Water TankW
  | 174 => pumpv TankK HeadK
  | 179 | 185 => pumpv Water HeadS
  | 181 | 182 => pumpv TankK Neutral
  | 183 | 184 => pumpv TankW Neutral
  | _ => [[]]
  end.
Lemma do_in : forall e n m, noneutro e = nn -> isknown n = true -> In (fst (do_orders w e n m)) (variants n).
Proof.
  intros e n m N K. apply known_steps in K. unfold known in K. cbn [In] in K.
  pose proof (fun a b => do_to_in e a b m N) as A1. pose proof (fun a b => do_from_in e a b m N) as A2.
  pose proof (fun a => oporcip_in e a m N) as A3. pose proof (fun a => oporcirc_in e a m) as A4.
  pose proof (fun a => do_circ_in e a m) as A5. pose proof (filrr_in e m) as A6. pose proof (fun a => opol_in e a m N) as A7.
  pose proof (fun a b => pump_in e a b m N) as A8.
  unfold do_orders, variants, tsrc, tdst, media, rdst, either.
  repeat (destruct K as [<-|K]; [
    first [left; reflexivity | apply A1 | apply A2 | apply A3 | apply A4 | apply A5 | apply A6 | apply A7 | apply A8
          | destruct (tankw e), (progk e), (rinse e); cbn [andb];
            first [first [exact (A1 _ _) | exact (A2 _ _) | exact (A3 _) | exact (A4 _)] | apply in_or_app; left; first [exact (A1 _ _) | exact (A2 _ _) | exact (A3 _) | exact (A4 _)] | apply in_or_app; right; first [exact (A1 _ _) | exact (A2 _ _) | exact (A3 _) | exact (A4 _)]
                  | apply in_or_app; left; apply in_or_app; left; first [exact (A1 _ _) | exact (A2 _ _) | exact (A3 _) | exact (A4 _)] | apply in_or_app; left; apply in_or_app; right; first [exact (A1 _ _) | exact (A2 _ _) | exact (A3 _) | exact (A4 _)]
                  | apply in_or_app; right; apply in_or_app; left; first [exact (A1 _ _) | exact (A2 _ _) | exact (A3 _) | exact (A4 _)] | apply in_or_app; right; apply in_or_app; right; first [exact (A1 _ _) | exact (A2 _ _) | exact (A3 _) | exact (A4 _)]]]|]).
  destruct K.
Qed.
End Neutral.

Definition ok_do (nn : bool) (x : unit) (n : Z) (cs : list order) : bool := check nn n n (told cs).
Lemma do_ok_1 : nested known (fun _ => [tt]) (variants true) (ok_do true) = true.
Proof. vm_compute. reflexivity. Qed.
Lemma do_ok_2 : nested known (fun _ => [tt]) (variants false) (ok_do false) = true.
Proof. vm_compute. reflexivity. Qed.
Lemma do_check : forall nn n cs, In n known -> In cs (variants nn n) -> check nn n n (told cs) = true.
Proof.
  intros [] n cs K H.
  - exact (nested_use known (fun _ => [tt]) (variants true) (ok_do true) do_ok_1 tt n cs K (or_introl eq_refl) H).
  - exact (nested_use known (fun _ => [tt]) (variants false) (ok_do false) do_ok_2 tt n cs K (or_introl eq_refl) H).
Qed.
Lemma do_inv : forall w nn e n m v, noneutro e = nn -> isknown n = true -> inv nn n v -> inv nn n (apply (fst (do_orders w e n m)) v).
Proof.
  intros w nn e n m v N K V. apply (check_sound nn n n); [|exact V].
  apply do_check; [apply known_steps, K|apply do_in; assumption].
Qed.
Lemma halt_inv : forall nn n kp v, inv nn n v -> inv nn n (apply (halt kp) v).
Proof.
  intros nn n kp v [A B].
  assert (X : forall x, apply (halt kp) v x = true -> v x = true).
  { intros x H. rewrite apply_told in H. destruct kp, x; cbn in H; try discriminate H; exact H. }
  split; [intros x W H; apply A; [exact W|apply X, H]|]. intros x y E Hx Hy. exact (B x y E (X x Hx) (X y Hy)).
Qed.
Lemma react_inv : forall w nn xs p, inv nn (cur p) (vs p) -> isknown (cur p) = true -> Forall (fun x => noneutro (snd x) = nn) xs ->
  chain (cur p) (map fst xs) ->
  let q := react_all w p xs in inv nn (cur q) (vs q) /\ cur q = last_step (cur p) (map fst xs).
Proof.
  intros w nn xs. induction xs as [|[a e] r IH]; intros p V K N C; [split; [exact V|reflexivity]|].
  inversion N as [|? ? N1 N2]; subst. cbn [snd] in *.
  change (react_all w p ((a, e) :: r)) with (react_all w (react w p (a, e)) r). cbn [map fst] in C |- *.
  destruct a; cbn [chain] in C; cbn [react fst snd last_step fold_left].
  - apply IH; cbn [cur vs]; auto. apply halt_inv, V.
  - destruct C as (C1 & C2 & C3). apply IH; cbn [cur vs]; auto. apply (init_inv (noneutro e) e (cur p)); auto.
  - destruct C as (C1 & C2). destruct (err e); [apply IH; auto|]. apply IH; cbn [cur vs]; auto. subst. apply do_inv; auto.
  - apply IH; auto.
  - apply IH; auto.
  - apply IH; auto.
Qed.
Lemma start_inv : forall nn m, inv nn (cur (plant0 m)) (vs (plant0 m)).
Proof. intros nn m. split; cbn; congruence. Qed.
Lemma history_inv : forall w nn m o es xs, history o es xs -> Forall (fun x => noneutro (snd x) = nn) xs ->
  inv nn (at_step (map fst xs)) (vs (react_all w (plant0 m) xs)).
Proof.
  intros w nn m o es xs H N. pose proof (history_chain o es xs H) as C.
  pose proof (react_inv w nn xs (plant0 m) (start_inv nn m) eq_refl N C) as [A B].
  rewrite B in A. exact A.
Qed.
