(** Specification vocabulary for the parameter properties (C03-C06). *)
From Coq Require Import ZArith List Bool Lia.
From Verif Require Import Base NvModel ParamModel.
Import ListNotations.
Open Scope Z_scope.

(** The arrays of a project, given their sizes: consecutive, starting with the
    parameter manager's own one-element array (param_ex.cpp:188-198). *)
Fixpoint consecutive (start : Z) (counts : list Z) : list parr :=
  match counts with
  | [] => []
  | c :: rest => mkArr start c :: consecutive (start + 4 * c) rest
  end.

Fixpoint total (counts : list Z) : Z :=
  match counts with [] => 0 | c :: rest => 4 * c + total rest end.

Definition project (counts : list Z) : list parr := consecutive 0 (1 :: counts).

(** The project fits into the parameter memory. *)
Definition fits (counts : list Z) : Prop :=
  Forall (fun c => 0 <= c) counts /\ total (1 :: counts) <= C_TOTAL_PARAMS_SIZE.

Definition project_size (counts : list Z) : Z := total (1 :: counts).

(** [idx] is a legal parameter number of array [n]. *)
Definition valid (counts : list Z) (n : nat) (idx : Z) : Prop :=
  exists c, nth_error (1 :: counts) n = Some c /\ 1 <= idx <= c.

Definition validb (counts : list Z) (n : nat) (idx : Z) : bool :=
  match nth_error (1 :: counts) n with
  | Some c => (1 <=? idx) && (idx <=? c)
  | None => false
  end.

(** Abstract controller: current and stored value of every parameter. *)
Definition pmap := nat -> Z -> Z.
Record abstract := mkAbs { cur : pmap; sto : pmap }.

Definition put (f : pmap) (n : nat) (idx v : Z) : pmap :=
  fun n' i' => if Nat.eqb n' n && (i' =? idx) then v else f n' i'.
Definition put_array (f g : pmap) (n : nat) : pmap :=
  fun n' i' => if Nat.eqb n' n then g n' i' else f n' i'.

Definition astep (counts : list Z) (s : abstract) (o : pop) : abstract :=
  match o with
  | PSet n idx v =>
      if validb counts n idx then mkAbs (put (cur s) n idx v) (sto s) else s
  | PSave n idx v =>
      if validb counts n idx
      then mkAbs (put (cur s) n idx v) (put (sto s) n idx v) else s
  | PSaveAll n => mkAbs (cur s) (put_array (sto s) (cur s) n)
  | PReset n => mkAbs (put_array (cur s) (fun _ _ => 0) n)
                      (put_array (sto s) (fun _ _ => 0) n)
  | PReboot _ => mkAbs (sto s) (sto s)
  end.

Definition arun (counts : list Z) (s : abstract) (l : list pop) : abstract :=
  fold_left (astep counts) l s.

(** Assigned values are 32-bit. *)
Definition op_u32 (o : pop) : Prop :=
  match o with PSet _ _ v | PSave _ _ v => 0 <= v < 2 ^ 32 | _ => True end.

(** A file holds bytes. *)
Definition bytes (m : mem) : Prop := forall x, 0 <= m x < 256.

(** The value an out-of-range read of array [n] should give after history [l]:
    the last value assigned out of range since the last reboot. *)
Fixpoint last_oor (counts : list Z) (n : nat) (acc : Z) (l : list pop) : Z :=
  match l with
  | [] => acc
  | PSet n' idx v :: t =>
      last_oor counts n
        (if Nat.eqb n n' && negb (validb counts n idx) then v else acc) t
  | PReboot _ :: t => last_oor counts n 0 t
  | _ :: t => last_oor counts n acc t
  end.

(** Byte [x] of the parameter image as kept in the backing file. *)
Definition img (f : mem) : mem := fun x => f (64 + x).

(** Where the arrays of a project should be placed: one after the other, an
    array which does not fit any more gets nothing. *)
Fixpoint expected_starts (used : Z) (counts : list Z) : list (option Z) :=
  match counts with
  | [] => []
  | c :: rest =>
      if used + 4 * c <=? C_TOTAL_PARAMS_SIZE
      then Some used :: expected_starts (used + 4 * c) rest
      else None :: expected_starts used rest
  end.
