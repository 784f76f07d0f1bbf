(** Model of the non-volatile memory manager.

    Sources: /repo/PAC/common/sys/base_mem.cpp, base_mem.h and
    /repo/PAC/linux/l_mem.cpp (PAC_PC / WAGO 750-860 build: one file
    "nvram.txt" or /dev/nvram backs both storages). *)
From Coq Require Import ZArith List Bool Lia.
From Verif Require Import Base.
Import ListNotations.
Open Scope Z_scope.

(** base_mem.h:176-180 [MEMORY_TYPE]. *)
Inductive kind := NVRAM | EEPROM.

(** base_mem.cpp:112-113, 116-117 (and 121-122, 126-127): sizes. *)
Definition EEPROM_SIZE : Z := 32768.
Definition NVRAM_SIZE : Z := 32.

(** [NV_memory::available_start_pos] / [available_end_pos] as passed to the
    constructors, base_mem.cpp:115-142. *)
Definition avail_start (k : kind) : Z :=
  match k with NVRAM => 0 | EEPROM => NVRAM_SIZE end.
Definition avail_end (k : kind) : Z :=
  match k with NVRAM => NVRAM_SIZE - 1 | EEPROM => EEPROM_SIZE - 1 end.

(** base_mem.h:143-149 [memory_range]; a range with [memory == 0] is what a
    refused request returns (base_mem.cpp:191,200,217). *)
Record range := mkRange { r_kind : kind; r_start : Z; r_size : Z }.

(** base_mem.h:216+ [last_NVRAM_pos], [last_EEPROM_pos]. *)
Record alloc := mkAlloc { last_nv : Z; last_ee : Z }.

Definition last (a : alloc) (k : kind) : Z :=
  match k with NVRAM => last_nv a | EEPROM => last_ee a end.

Definition set_last (a : alloc) (k : kind) (v : Z) : alloc :=
  match k with
  | NVRAM => mkAlloc v (last_ee a)
  | EEPROM => mkAlloc (last_nv a) v
  end.

(** base_mem.cpp:144-145. *)
Definition alloc_init : alloc := mkAlloc (avail_start NVRAM) (avail_start EEPROM).

(** base_mem.cpp:157-226 [NV_memory_manager::get_memory_block]; the sum
    [*last_mem_pos + count] is [u_int] arithmetic.  [None] stands for the
    null range. *)
Definition get_memory_block (a : alloc) (k : kind) (count : Z)
  : alloc * option range :=
  if avail_end k <? u32 (last a k + count) then (a, None)
  else (set_last a k (u32 (last a k + count)),
        Some (mkRange k (last a k) count)).

(** A history of requests; the answers in order. *)
Fixpoint run_requests (a : alloc) (reqs : list (kind * Z))
  : alloc * list (option range) :=
  match reqs with
  | [] => (a, [])
  | (k, n) :: rest =>
      let '(a1, r) := get_memory_block a k n in
      let '(a2, rs) := run_requests a1 rest in
      (a2, r :: rs)
  end.

(** l_mem.cpp:68-117 [SRAM::read]/[SRAM::write]: the file offset of byte
    [off] of a range is [available_start_pos + (range start + off)]
    (base_mem.cpp:70, 91 already add the range start, which itself includes
    [available_start_pos]).  [u_int] arithmetic. *)
Definition file_addr (r : range) (off : Z) : Z :=
  u32 (avail_start (r_kind r) + u32 (r_start r + off)).

(** base_mem.cpp:96-104 [memory_range::check_params] ([u_int] sum). *)
Definition check_params (r : range) (count start_pos : Z) : bool :=
  r_size r <? u32 (start_pos + count).   (* true = error *)

(** base_mem.cpp:54-72 [memory_range::read] + SRAM::read.  The result is the
    number of bytes read and the bytes (as a function of the offset in the
    destination buffer).  Simplification: the OS read delivers all bytes. *)
Definition range_read (m : mem) (r : range) (count start_pos : Z)
  : Z * (Z -> Z) :=
  if check_params r count start_pos then (0, fun _ => 0)
  else (count, fun i => m (file_addr r start_pos + i)).

(** base_mem.cpp:74-94 [memory_range::write] + SRAM::write. *)
Definition range_write (m : mem) (r : range) (buf : Z -> Z)
  (count start_pos : Z) : mem * Z :=
  if check_params r count start_pos then (m, 0)
  else (mwrite m (file_addr r start_pos) buf count, count).

(** Histories of accesses through a list of granted blocks; an access to a
    block number that was not granted does not exist. *)
Inductive access :=
| AWrite (blk : nat) (off : Z) (bytes : list Z)
| ARead (blk : nat) (off len : Z).

Inductive answer :=
| AnsWrite (n : Z)
| AnsRead (n : Z) (bytes : list Z)
| AnsNoBlock.

Definition zseq (n : Z) : list Z := map Z.of_nat (seq 0 (Z.to_nat n)).

Definition nthz (l : list Z) (i : Z) : Z := nth (Z.to_nat i) l 0.

Definition access_step (blks : list range) (m : mem) (a : access)
  : mem * answer :=
  match a with
  | AWrite b off bytes =>
      match nth_error blks b with
      | None => (m, AnsNoBlock)
      | Some r =>
          let '(m', n) := range_write m r (nthz bytes)
                            (Z.of_nat (length bytes)) off in
          (m', AnsWrite n)
      end
  | ARead b off len =>
      match nth_error blks b with
      | None => (m, AnsNoBlock)
      | Some r =>
          let '(n, f) := range_read m r len off in
          (m, AnsRead n (map f (zseq n)))
      end
  end.

Fixpoint access_run (blks : list range) (m : mem) (l : list access)
  : mem * list answer :=
  match l with
  | [] => (m, [])
  | a :: rest =>
      let '(m1, r) := access_step blks m a in
      let '(m2, rs) := access_run blks m1 rest in
      (m2, r :: rs)
  end.
