(** Specification vocabulary for the non-volatile memory properties. *)
From Coq Require Import ZArith List Bool Lia.
From Verif Require Import Base NvModel.
Import ListNotations.
Open Scope Z_scope.

(** The blocks that were actually handed out, in order. *)
Fixpoint granted (rs : list (option range)) : list range :=
  match rs with
  | [] => []
  | Some r :: t => r :: granted t
  | None :: t => granted t
  end.

(** Byte [x] of the backing file belongs to block [r]. *)
Definition occupies (r : range) (x : Z) : Prop :=
  exists off, 0 <= off < r_size r /\ x = file_addr r off.

(** Capacity in bytes of each storage. *)
Definition capacity (k : kind) : Z :=
  match k with NVRAM => 31 | EEPROM => 32735 end.

Definition kind_eqb (a b : kind) : bool :=
  match a, b with NVRAM, NVRAM => true | EEPROM, EEPROM => true | _, _ => false end.

(** What the allocator is supposed to answer: a request is granted, with the
    requested size, exactly when it fits into what is left of its storage. *)
Fixpoint expected_answers (used : kind -> Z) (reqs : list (kind * Z))
  : list (option (kind * Z)) :=
  match reqs with
  | [] => []
  | (k, n) :: rest =>
      if used k + n <=? capacity k
      then Some (k, n) ::
           expected_answers (fun k' => if kind_eqb k' k then used k' + n else used k') rest
      else None :: expected_answers used rest
  end.

(** Requests for which the size check cannot wrap. *)
Definition sane_request (q : kind * Z) : Prop :=
  0 <= snd q < 2 ^ 32 - 32768.

(** Abstract machine: each block is a private array of known size. *)
Definition arrays := nat -> Z -> Z.

Definition set_bytes (a : arrays) (b : nat) (off : Z) (bytes : list Z) : arrays :=
  fun b' o => if Nat.eqb b' b && (off <=? o) && (o <? off + Z.of_nat (length bytes))
              then nthz bytes (o - off) else a b' o.

Definition spec_step (sizes : list Z) (a : arrays) (x : access)
  : arrays * answer :=
  match x with
  | AWrite b off bytes =>
      match nth_error sizes b with
      | None => (a, AnsNoBlock)
      | Some sz =>
          if off + Z.of_nat (length bytes) <=? sz
          then (set_bytes a b off bytes, AnsWrite (Z.of_nat (length bytes)))
          else (a, AnsWrite 0)
      end
  | ARead b off len =>
      match nth_error sizes b with
      | None => (a, AnsNoBlock)
      | Some sz =>
          if off + len <=? sz
          then (a, AnsRead len (map (fun i => a b (off + i)) (zseq len)))
          else (a, AnsRead 0 [])
      end
  end.

Fixpoint spec_run (sizes : list Z) (a : arrays) (l : list access)
  : arrays * list answer :=
  match l with
  | [] => (a, [])
  | x :: rest =>
      let '(a1, r) := spec_step sizes a x in
      let '(a2, rs) := spec_run sizes a1 rest in
      (a2, r :: rs)
  end.

(** Accesses whose offset plus length is representable in 32 bits. *)
Definition sane_access (x : access) : Prop :=
  match x with
  | AWrite _ off bytes => 0 <= off /\ off + Z.of_nat (length bytes) < 2 ^ 32
  | ARead _ off len => 0 <= off /\ 0 <= len /\ off + len < 2 ^ 32
  end.
