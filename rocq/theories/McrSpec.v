(** What an operator expects of the recipes of a washing line. *)
From Coq Require Import ZArith List Bool Lia.
From Verif Require Import UtfSpec McrModel.
Import ListNotations.
Open Scope Z_scope.

(** * A book of recipes *)

(** Names are texts of at most 23 characters of the code page, apart from those that need three bytes in
    UTF-8 (the numero sign is allowed). *)
Definition text (l : list Z) : Prop :=
  (length l <= 23)%nat /\ Forall chr l /\ forallb defined l = true /\ forallb short_char l = true.
(** How a name is shown. *)
Definition shows (l : list Z) : list Z := utf8 (map cp1251 l).
(** A recipe: its name and 120 values. *)
Record recipe := { rname : list Z; rval : Z -> Z }.
(** The book: the recipes, the one that is edited, its name as shown, the copied recipe, the time the shown name
    was put down last; the file, whether and when a value was changed, the time of the last save; the list for the panel. *)
Record ledger := { recs : Z -> recipe; place : Z; shown : list Z; clip : option recipe; synced : Z;
                   disk : Z -> recipe; edited : bool; edit_t : Z; menu : list Z }.

Definition with_val (v x : Z) (c : recipe) : recipe := {| rname := rname c; rval := fun k => if k =? v then x else rval c k |}.
Definition with_name (l : list Z) (c : recipe) : recipe := {| rname := l; rval := rval c |}.
Definition put_rec (r : Z) (c : recipe) (f : Z -> recipe) : Z -> recipe := fun k => if k =? r then c else f k.

(** The float of a small natural number. *)
Definition flt (n : Z) : Z := if n =? 0 then 0 else (127 + Z.log2 n) * 2 ^ 23 + (n * 2 ^ (23 - Z.log2 n) - 2 ^ 23).
Definition orders : list Z := [0; flt 1; flt 2; flt 3; flt 4].
(** What a recipe is reset to: 0.2 and 0.1 are given by their bits. *)
Definition default (v : Z) : Z :=
  nth (Z.to_nat v)
   (map flt [0; 0; 200; 200; 1; 15; 0; 10; 30; 30; 30; 5; 80; 70; 90; 60; 200; 200; 200; 200; 40; 15; 30;
             300; 600; 600; 500; 500; 600; 600; 120; 0; 0; 0; 0; 0; 5; 600; 30; 500; 30; 8; 15; 2; 20; 20; 20]
    ++ map flt [95; 2; 30] ++ [0x3E4CCCCD] ++ map flt [500; 130; 0; 30; 0; 30; 0]
    ++ map flt [15] ++ [0x3F000000] ++ map flt [10] ++ [0x3DCCCCCD] ++ map flt [1000; 40; 0; 2; 0; 15; 0]
    ++ map flt [300]) 0.
Definition reset_rec (c : recipe) : recipe :=
  {| rname := rname c; rval := fun v => if v =? 82 then rval c v else default v |}.
Definition blank : recipe := {| rname := []; rval := fun _ => 0 |}.

(** What happens to a book. *)
Inductive deed := SName (l : list Z) | SVal (t v x : Z) | SGo (r : Z) | STick (t : Z) | SReload | SOther (c : recipe).
(** The list for the panel: number and name of each recipe in use. *)
Definition digits (n : Z) : list Z := if n <? 10 then [48 + n] else [48 + n / 10; 48 + n mod 10].
Definition in_use (c : recipe) : bool := negb ((rval c 0 =? 0) || (rval c 0 =? 0x80000000)).
Definition listing (f : Z -> recipe) : list Z :=
  flat_map (fun r => if in_use (f r) then digits (r + 1) ++ [35; 35] ++ shows (rname (f r)) ++ [124; 124] else [])
    (map Z.of_nat (seq 0 25)).
(** After 10 s the shown name is put down. *)
Definition s_name (t : Z) (b : ledger) : ledger :=
  if 10000 <? t - synced b then
    let f := put_rec (place b) (with_name (shown b) (recs b (place b))) (recs b) in
    {| recs := f; place := place b; shown := shown b; clip := clip b; synced := t; disk := disk b; edited := edited b; edit_t := edit_t b; menu := listing f |}
  else b.
(** After 30 s without a new value all recipes go to the file. *)
Definition s_file (t : Z) (b : ledger) : ledger :=
  if 30000 <? t - edit_t b then
    {| recs := recs b; place := place b; shown := shown b; clip := clip b; synced := synced b;
       disk := if edited b then recs b else disk b; edited := false; edit_t := t; menu := menu b |}
  else b.
(** Value 1 is an order: 1 reset, 2 copy, 3 paste, 4 clear; it is carried out and removed. *)
Definition s_order (t : Z) (b : ledger) : ledger :=
  let c := recs b (place b) in let o := rval c 1 in
  if o =? 0 then b
  else
    let c1 := if o =? flt 1 then reset_rec c else if o =? flt 3 then match clip b with Some d => d | None => c end
              else if o =? flt 4 then blank else c in
    {| recs := put_rec (place b) (with_val 1 0 c1) (recs b); place := place b;
       shown := if o =? flt 3 then match clip b with Some d => rname d | None => shown b end else if o =? flt 4 then [] else shown b;
       clip := if o =? flt 2 then Some c else clip b; synced := synced b;
       disk := disk b; edited := true; edit_t := t; menu := menu b |}.
Definition s_step (b : ledger) (d : deed) : ledger :=
  match d with
  | SName l => {| recs := recs b; place := place b; shown := l; clip := clip b; synced := synced b; disk := disk b; edited := edited b; edit_t := edit_t b; menu := menu b |}
  | SVal t v x => {| recs := put_rec (place b) (with_val v x (recs b (place b))) (recs b); place := place b; shown := shown b; clip := clip b;
                     synced := synced b; disk := disk b; edited := true; edit_t := t; menu := menu b |}
  | SGo r => if (0 <=? r) && (r <? 25) then
               let f := put_rec (place b) (with_name (shown b) (recs b (place b))) (recs b) in
               {| recs := f; place := r; shown := rname (f r); clip := clip b; synced := synced b; disk := disk b; edited := edited b; edit_t := edit_t b; menu := menu b |}
             else b
  | STick t => s_order t (s_file t (s_name t b))
  | SReload => {| recs := disk b; place := place b; shown := rname (disk b (place b)); clip := clip b; synced := synced b; disk := disk b; edited := edited b; edit_t := edit_t b; menu := menu b |}
  | SOther c => {| recs := recs b; place := place b; shown := shown b; clip := Some c; synced := synced b; disk := disk b; edited := edited b; edit_t := edit_t b; menu := menu b |}
  end.
Definition s_run (b : ledger) (ds : list deed) : ledger := fold_left s_step ds b.
(** The book when the controller is switched on. *)
Definition s_boot (t : Z) (f : Z -> recipe) : ledger :=
  {| recs := f; place := 0; shown := rname (f 0); clip := None; synced := t; disk := f; edited := false; edit_t := t; menu := listing f |}.

(** * Bytes *)

(** These bytes hold the recipe. *)
Definition holds (b : Z -> Z) (c : recipe) : Prop :=
  (forall k, (k < length (rname c))%nat -> b (Z.of_nat k) = nth k (rname c) 0) /\ b (Z.of_nat (length (rname c))) = 0
  /\ (forall v, 0 <= v < 120 -> b (32 + 4 * v) + 256 * b (32 + 4 * v + 1) + 65536 * b (32 + 4 * v + 2) + 16777216 * b (32 + 4 * v + 3) = rval c v).
Definition file_of (f : Z -> Z) (g : Z -> recipe) : Prop := forall r, 0 <= r < 25 -> holds (fun k => f (512 * r + k)) (g r).
(** A recipe as it is copied. *)
Definition image (c : recipe) (k : Z) : Z :=
  if k <? Z.of_nat (length (rname c)) then nth (Z.to_nat k) (rname c) 0
  else if k <? 32 then 0 else (rval c ((k - 32) / 4) / 256 ^ ((k - 32) mod 4)) mod 256.

(** Recipes with a proper name and a proper order. *)
Definition sane (c : recipe) : Prop := text (rname c) /\ In (rval c 1) orders.
Definition float32 (x : Z) : Prop := 0 <= x < 2 ^ 32.
(** Deeds of an operator; the clock does not go back. *)
Definition proper (d : deed) : Prop :=
  match d with
  | SName l => text l
  | SVal _ v x => 0 <= v < 120 /\ float32 x /\ (v = 1 -> In x orders)
  | SOther c => text (rname c) /\ forall v, 0 <= v < 120 -> float32 (rval c v)
  | _ => True
  end.
Fixpoint timely (t : Z) (ds : list deed) : Prop :=
  match ds with
  | [] => True
  | SVal u _ _ :: r | STick u :: r => t <= u /\ timely u r
  | _ :: r => timely t r
  end.
(** The calls that make up a deed. *)
Definition call (d : deed) : ev :=
  match d with
  | SName l => Rename (shows l)
  | SVal t v x => Edit t (v + 1) x
  | SGo r => Go r
  | STick t => Tick t
  | SReload => Reload
  | SOther c => Other (image c)
  end.
(** What is seen of the recipes: the values (unless all bits are set), the names, the shown name, the list,
    and the same of the file. *)
Definition agrees (w : Z) (s : mgr) (b : ledger) : Prop :=
  (forall r v j, 0 <= r < 25 -> 0 <= v < 120 -> rval (recs b r) v <> 0xFFFFFFFF -> get w j (mem s) r v = Some (rval (recs b r) v))
  /\ (forall r, 0 <= r < 25 -> read_name (mem s) r = Some (shows (rname (recs b r))))
  /\ cur s = place b /\ name s = Some (shows (shown b)) /\ txt s = menu b
  /\ (forall r v j, 0 <= r < 25 -> 0 <= v < 120 -> rval (disk b r) v <> 0xFFFFFFFF -> get w j (file s) r v = Some (rval (disk b r) v))
  /\ (forall r, 0 <= r < 25 -> read_name (file s) r = Some (shows (rname (disk b r)))).

(** * Saving *)

(** Deeds that change no value: a new name, another recipe to edit, an evaluation, another line copies. *)
Definition quiet (d : deed) : Prop := match d with SName _ | SGo _ | STick _ | SOther _ => True | _ => False end.
Definition no_orders (f : Z -> recipe) : Prop := forall r, 0 <= r < 25 -> rval (f r) 1 = 0.
Definition last_time (t : Z) (ds : list deed) : Z := fold_left (fun t d => match d with SVal u _ _ | STick u => u | _ => t end) ds t.

(** * Names of media *)

(** The text in an array: letters of the Latin alphabet, digits and signs. *)
Definition plain (l : list Z) : Prop := (length l <= 29)%nat /\ Forall (fun c => 0 < c < 128) l.
Definition array_of (a l : list Z) : Prop := exists rest, a = l ++ 0 :: rest.
(** The name of medium [r] as an operator would see it. *)
Definition media_name (s : media) (r : Z) : list Z := if r =? mcur s then mname s else stored s r.
(** A text with a letter that takes more than one byte. *)
Definition wide (l : list Z) : Prop := Forall (fun c => 0 < c < 256) l /\ exists c, In c l /\ 128 <= c /\ c <> 152.
