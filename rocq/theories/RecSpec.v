(** Words for stating the properties of recipes, independent of how the program
    computes. *)
From Coq Require Import ZArith List Bool QArith String.
From Verif Require Import Base TimeModel FTextModel FTextSpec RecModel.
Import ListNotations.
Open Scope list_scope.
Open Scope Z_scope.

(** A value that survives being written and read: close to it, and unchanged if
    six digits are enough for it. *)
Definition same_value (a b : Z) : Prop := close_to a b /\ (six_digit a -> b = a).

(** Equal for the comparison of the program: the same bits or two zeros. *)
Definition same_number (a b : Z) : Prop := a = b \/ (f_mag a = 0 /\ f_mag b = 0).

(** A finite float. *)
Definition number (b : Z) : Prop := is_float b /\ f_finite b = true.

(** A name that fits on a line. *)
Definition one_line (l : list Z) : Prop := ~ In 10 l.

(** Recipe [b] is what remains of [a]. *)
Definition same_recipe (a b : recipe) : Prop :=
  r_name a = r_name b /\ Forall2 same_value (r_par a) (r_par b).

(** A storage of the declared size. *)
Definition sized (s : storage) : Prop :=
  0 <= s_cnt s < 2 ^ 31 /\ 0 <= s_pcnt s < 2 ^ 31 /\
  Z.of_nat (List.length (s_recs s)) = s_cnt s /\
  Forall (fun r => Z.of_nat (List.length (r_par r)) = s_pcnt s) (s_recs s) /\
  0 <= s_act s /\ (s_cnt s = 0 -> s_act s = 0) /\ (0 < s_cnt s -> s_act s < s_cnt s).

(** Content that can be written to a file and read back. *)
Definition writable (s : storage) : Prop :=
  Forall (fun r => one_line (r_name r) /\ Forall number (r_par r)) (s_recs s).

(** Number of recipe and parameter within the storage. *)
Definition within (s : storage) (r p : Z) : Prop := 1 <= r <= s_cnt s /\ 1 <= p <= s_pcnt s.

(** A history of stores: recipe, parameter, value. *)
Definition history := list (Z * Z * Z).
Fixpoint stores (s : storage) (h : history) : option storage :=
  match h with
  | [] => Some s
  | (r, p, v) :: t => match setRecPar s r p v with Some s1 => stores s1 t | None => None end
  end.
(** The last value stored at a place. *)
Fixpoint last_stored (h : history) (r p : Z) (old : Z) : Z :=
  match h with
  | [] => old
  | (r', p', v) :: t => last_stored t r p (if (r =? r') && (p =? p') then v else old)
  end.

(** What a restart of the program finds in the file. *)
Definition restarted (s : storage) (file : option (list Z)) (s' : storage) : Prop :=
  create (s_cnt s) (s_pcnt s) file = Some s'.
(** The file holds the content of the storage. *)
Definition on_disk (s : storage) (file : option (list Z)) : Prop :=
  exists s', restarted s file s' /\ Forall2 same_recipe (s_recs s) (s_recs s').

(** Parameter number [j] of an object is a target of a map. *)
Definition covers (m : rmap) (j : Z) : Prop := m_obj m <= j < m_obj m + m_qty m.
(** A map with ordinary numbers. *)
Definition plain (m : rmap) : Prop := 0 < m_rec m /\ 0 < m_obj m /\ 0 < m_qty m /\
  m_rec m < 2 ^ 30 /\ m_obj m < 2 ^ 30 /\ m_qty m < 2 ^ 30.
(** A map the program accepts. *)
Definition accepted (s : storage) (npar : Z) (m : rmap) : Prop :=
  m_rec m + m_qty m <= s_pcnt s + 1 /\ m_obj m + m_qty m <= npar.
(** The value parameter [j] gets: from the last map that covers it. *)
Fixpoint target (ms : list rmap) (r : recipe) (j old : Z) : Z :=
  match ms with
  | [] => old
  | m :: t => target t r j
                (if (m_obj m <=? j) && (j <? m_obj m + m_qty m)
                 then nth (Z.to_nat (m_rec m + (j - m_obj m) - 1)) (r_par r) 0 else old)
  end.

(** The text of a list of recipes: the active ones with their numbers. *)
Fixpoint listing (i : Z) (act : list Z) (rs : list recipe) : list Z :=
  match act, rs with
  | f :: act', r :: rs' =>
      (if f =? 0 then [] else show_int (i + 1) ++ [35; 35] ++ r_name r ++ [124; 124]) ++ listing (i + 1) act' rs'
  | _, _ => []
  end.

(** Evaluations far enough apart: each more than 10 s after the one before. *)
Fixpoint spaced (w t : Z) (nows : list Z) : Prop :=
  match nows with
  | [] => True
  | n :: r => 10000 < get_delta_millisec w n t /\ spaced w n r
  end.

(** The form of a command: number, name, index, and a text or digits. *)
Definition form (n v i : list Z) (x : list Z + list Z) : list Z :=
  codes "__RECMAN[" ++ n ++ codes "]:set_cmd( """ ++ v ++ codes """, " ++ i ++ codes ", " ++
  match x with inl s => [34] ++ s ++ [34; 32; 41] | inr d => d ++ codes " )" end.
Definition proper (n v i : list Z) (x : list Z + list Z) : Prop :=
  n <> [] /\ Forall (fun c => isdigit c = true) n /\ v <> [] /\ Forall (fun c => wordchar c = true) v /\ i <> [] /\ Forall (fun c => isdigit c = true) i /\
  match x with
  | inl s => Forall (fun c => any c = true) s
  | inr d => d <> [] /\ Forall (fun c => isdigit c || (c =? 46) = true) d
  end.

(** An [int]. *)
Definition is_int (v : Z) : Prop := - 2 ^ 31 <= v < 2 ^ 31.

(** An object with the number and name of the recipe loaded last of another. *)
Definition noted (o o' : tobj) : tobj := mkO (o_par o) (o_saved o) (o_nmr o') (o_name o').
(** The same for the first objects of a project. *)
Fixpoint note_all (os os' : list tobj) : list tobj :=
  match os, os' with
  | o :: r, o' :: r' => noted o o' :: note_all r r'
  | _, _ => os
  end.

(** Calls with finite numbers and names on one line; files can be written. *)
Definition orderly (e : rev) : Prop :=
  match e with
  | Tick _ ok => ok = true
  | SetPar _ _ _ v => number v
  | Cmd _ _ _ v str => number v /\ one_line str
  | _ => True
  end.

(** The program after a start: each storage created from its file (or none), each
    adapter for one of them. *)
Definition booted (g : mgr) : Prop :=
  Forall2 (fun s f => exists cnt pcnt, 0 < cnt < 2 ^ 31 /\ 0 < pcnt < 2 ^ 31 /\
             create cnt pcnt f = Some s /\ writable s) (g_st g) (f_rec g) /\
  List.length (f_ad g) = List.length (g_ad g) /\
  Forall (fun a => exists s, nth_error (g_st g) (a_st a) = Some s /\
             Z.of_nat (List.length (a_active a)) = s_cnt s) (g_ad g).

(** Calls the program can carry out. *)
Definition sane (e : rev) : Prop :=
  match e with
  | Cmd _ _ _ v _ => to_int v <> None
  | Load _ _ r => 0 <= r < 2 ^ 31
  | Text l => match parse_cmd l with Ignored => True | Call n _ _ f _ => n <> 0 /\ to_int f <> None | Throws => False end
  | _ => True
  end.
