(** Reference descriptions for StatProps.v. *)
From Coq Require Import ZArith List Bool.
From Verif Require Import StatModel.
Import ListNotations.
Open Scope Z_scope.

(** A C string that fits a buffer of [size] bytes. *)
Definition ok_text (size : Z) (t : list Z) : Prop :=
  Z.of_nat (length t) < size /\ Forall (fun c => c <> 0) t.

Definition ok_rec (r : rec) : Prop :=
  - 2 ^ 31 <= r_n r < 2 ^ 31 /\ ok_text 96 (r_id r) /\ ok_text 72 (r_wash r) /\
  ok_text 72 (r_prog r) /\ ok_text 72 (r_acid r).

(** Order of dictionaries on texts. *)
Inductive before : list Z -> list Z -> Prop :=
| before_end c t : before [] (c :: t)
| before_char c d s t : c < d -> before (c :: s) (d :: t)
| before_tail c s t : before s t -> before (c :: s) (c :: t).

(** Records under their names, in order of names, none twice. *)
Fixpoint ordered (l : list (list Z * rec)) : Prop :=
  match l with
  | [] => True
  | (k, r) :: l' => r_id r = k /\ match l' with [] => True | (k', _) :: _ => before k k' end /\ ordered l'
  end.

(** The arguments of an event are C strings. *)
Definition ok_event (e : sev) : Prop :=
  match e with
  | SSelect id | SCaustic id => Forall (fun c => c <> 0) id
  | SAcid id d => Forall (fun c => c <> 0) id /\ Forall (fun c => c <> 0) d
  | SEnd id p d _ =>
      Forall (fun c => c <> 0) id /\ Forall (fun c => c <> 0) p /\ Forall (fun c => c <> 0) d
  | _ => True
  end.

(** A stretch in which nothing is written to the file. *)
Definition no_save (e : sev) : bool :=
  match e with SEnd _ _ _ true | SRestart => false | _ => true end.

(** The record shown for an object. *)
Fixpoint shown (k : list Z) (l : list (list Z * rec)) : option rec :=
  match l with
  | [] => None
  | (k', r) :: l' => if list_eq_dec Z.eq_dec k k' then Some r else shown k l'
  end.

(** Text in UTF-8 for letters below 2048. *)
Definition utf8 (t : list Z) : list Z :=
  concat (map (fun c => if c <? 128 then [c] else [192 + c / 64; 128 + c mod 64]) t).
(** The record of an object selected for the first time: never washed, times not
    known, program not defined (in Russian). *)
Definition first_rec (id : list Z) : rec :=
  let not_known := utf8 [1053; 1077; 32; 1080; 1079; 1074; 1077; 1089; 1090; 1085; 1086] in
  let not_defined := utf8 [1053; 1077; 32; 1086; 1087; 1088; 1077; 1076; 1077; 1083; 1077; 1085; 1086] in
  {| r_n := 0; r_id := id; r_wash := not_known; r_prog := not_defined; r_acid := not_known |}.

(** What one event does to the record of one object. *)
Definition touch (k : list Z) (e : sev) (o : option rec) : option rec :=
  match e, o with
  | SSelect id, None => if list_eq_dec Z.eq_dec k id then Some (first_rec id) else None
  | SCaustic id, Some r =>
      if list_eq_dec Z.eq_dec k id
      then Some {| r_n := r_n r + 1; r_id := r_id r; r_wash := r_wash r; r_prog := r_prog r; r_acid := r_acid r |}
      else o
  | SAcid id d, Some r =>
      if list_eq_dec Z.eq_dec k id
      then Some {| r_n := 0; r_id := r_id r; r_wash := r_wash r; r_prog := r_prog r; r_acid := d |}
      else o
  | SEnd id p d _, Some r =>
      if list_eq_dec Z.eq_dec k id
      then Some {| r_n := r_n r; r_id := r_id r; r_wash := d; r_prog := p; r_acid := r_acid r |}
      else o
  | _, _ => o
  end.
