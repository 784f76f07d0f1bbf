(** Model of the saved parameters.

    Sources: /repo/PAC/common/param_ex.cpp and param_ex.h.  Both
    instantiations of [saved_params] ([u_int_4], [float]) have 4-byte elements;
    a float is modelled by its 32-bit pattern. *)
From Coq Require Import ZArith List Bool Lia.
From Verif Require Import Base NvModel.
Import ListNotations.
Open Scope Z_scope.

(** param_ex.h:59-67. *)
Definition C_TOTAL_PARAMS_SIZE : Z := 30720.
Definition C_SYS_MEM_SIZE : Z := 10.
Definition C_LAST_IDX_OFFSET : Z := 4.

(** param_ex.cpp:21-31 (constructor): the two blocks, taken from the fresh
    memory manager.  The manager is created before any other user of it. *)
Definition CRC_mem : range := mkRange NVRAM 0 C_SYS_MEM_SIZE.
Definition params_mem : range := mkRange EEPROM 32 C_TOTAL_PARAMS_SIZE.

Lemma params_blocks_allocated :
  snd (run_requests alloc_init [(NVRAM, C_SYS_MEM_SIZE); (EEPROM, C_TOTAL_PARAMS_SIZE)])
  = [Some CRC_mem; Some params_mem].
Proof. vm_compute. reflexivity. Qed.

(** 4-byte little-endian access (the supported controllers and the PC are
    little-endian). *)
Definition le4 (m : mem) (a : Z) : Z :=
  m a + 256 * m (a + 1) + 65536 * m (a + 2) + 16777216 * m (a + 3).

Definition byte_of (v : Z) (k : Z) : Z := (v / 256 ^ k) mod 256.

(** param_ex.cpp:167-186 [params_manager::get_params_data]: the new [last_idx]
    and the start position ([None] = not enough memory; the C++ then leaves
    [start_pos] unset).  [last_idx + size] is [u_int]. *)
Definition get_params_data (last_idx size : Z) : Z * option Z :=
  if C_TOTAL_PARAMS_SIZE <? u32 (last_idx + size) then (last_idx, None)
  else (u32 (last_idx + size), Some last_idx).

(** A project creates its arrays one after the other (param_ex.h:474-480);
    [counts] are the element counts. *)
Fixpoint make_arrays (last_idx : Z) (counts : list Z)
  : Z * list (option Z) :=
  match counts with
  | [] => (last_idx, [])
  | c :: rest =>
      let '(l1, s) := get_params_data last_idx (c * 4) in
      let '(l2, ss) := make_arrays l1 rest in
      (l2, s :: ss)
  end.

(** A created array: start in the parameter image, element count. *)
Record parr := mkArr { p_start : Z; p_count : Z }.

(** State of the running controller: backing file, RAM image [params],
    and the stub element of every array (param_ex.h:345 [stub]). *)
Record pstate := mkP { p_file : mem; p_ram : mem; p_stub : nat -> Z }.

(** param_ex.cpp:157-165 [params_manager::save]. *)
Definition pm_save (s : pstate) (start count : Z) : pstate :=
  let c := if count =? 0 then C_TOTAL_PARAMS_SIZE else count in
  let '(f, _) := range_write (p_file s) params_mem
                   (fun i => p_ram s (start + i)) c start in
  mkP f (p_ram s) (p_stub s).

(** Store of one element into the RAM image ([values[idx] = value]). *)
Definition ram_store (r : mem) (a v : Z) : mem := mwrite r a (byte_of v) 4.

(** param_ex.h:191-200 [operator[]]: index test. *)
Definition in_range (arr : parr) (idx : Z) : bool :=
  (idx <=? p_count arr) && (0 <? idx).

Definition upd_stub (f : nat -> Z) (n : nat) (v : Z) : nat -> Z :=
  fun k => if Nat.eqb k n then v else f k.

(** Assignment through [operator[]]. *)
Definition p_set (s : pstate) (n : nat) (arr : parr) (idx v : Z) : pstate :=
  if in_range arr idx
  then mkP (p_file s) (ram_store (p_ram s) (p_start arr + 4 * (idx - 1)) v) (p_stub s)
  else mkP (p_file s) (p_ram s) (upd_stub (p_stub s) n v).

(** Read through [operator[]] / [get_val]. *)
Definition p_get (s : pstate) (n : nat) (arr : parr) (idx : Z) : Z :=
  if in_range arr idx then le4 (p_ram s) (p_start arr + 4 * (idx - 1))
  else p_stub s n.

(** param_ex.h:489-505 [saved_params::save]. *)
Definition p_save (s : pstate) (n : nat) (arr : parr) (idx v : Z) : pstate :=
  if in_range arr idx
  then pm_save
         (mkP (p_file s) (ram_store (p_ram s) (p_start arr + 4 * (idx - 1)) v)
              (p_stub s))
         (p_start arr + (idx - 1) * 4) 4
  else s.

(** param_ex.h:512-518 [saved_params::save_all]. *)
Definition p_save_all (s : pstate) (arr : parr) : pstate :=
  pm_save s (p_start arr) (p_count arr * 4).

(** param_ex.h:522-532 [saved_params::reset_to_0]. *)
Definition p_reset0 (s : pstate) (arr : parr) : pstate :=
  pm_save (mkP (p_file s)
               (mwrite (p_ram s) (p_start arr) (fun _ => 0) (p_count arr * 4))
               (p_stub s))
          (p_start arr) (4 * p_count arr).

(** param_ex.cpp:79-87 [params_manager::init] after a restart: RAM zeroed,
    then the whole block is read; stubs are 0 in the new process
    (param_ex.h:250).  (A null range or failed read would leave zeroes.) *)
Definition pm_init (f : mem) : pstate :=
  let '(n, g) := range_read f params_mem C_TOTAL_PARAMS_SIZE 0 in
  mkP f (fun x => if (0 <=? x) && (x <? n) then g x else 0) (fun _ => 0).

(** param_ex.cpp:99-102: the recorded total size. *)
Definition stored_size (f : mem) : Z :=
  let '(_, g) := range_read f CRC_mem 4 C_LAST_IDX_OFFSET in
  le4 g 0.

(** param_ex.cpp:89-155 [final_init] + [reset_to_default]; [defaults] is the
    RAM image left by the memset, the custom function and the [reset_params] /
    [init_params] hooks together with [P_IS_RESET_PARAMS = 0].
    Simplification: saves performed inside the hooks are subsumed by the final
    [save()]. *)
Definition final_init (s : pstate) (last_idx : Z) (defaults : mem) : pstate :=
  if stored_size (p_file s) =? last_idx then s
  else
    let '(f1, _) := range_write (p_file s) CRC_mem (byte_of last_idx) 4
                      C_LAST_IDX_OFFSET in
    pm_save (mkP f1 defaults (p_stub s)) 0 0.

(** A complete start of the controller. *)
Definition boot (f : mem) (last_idx : Z) (defaults : mem) : pstate :=
  final_init (pm_init f) last_idx defaults.

(** Operations of a running project. *)
Inductive pop :=
| PSet (n : nat) (idx v : Z)
| PSave (n : nat) (idx v : Z)
| PSaveAll (n : nat)
| PReset (n : nat)
| PReboot (defaults : mem).

Definition pstep (arrs : list parr) (last_idx : Z) (s : pstate) (o : pop) : pstate :=
  match o with
  | PSet n idx v =>
      match nth_error arrs n with Some a => p_set s n a idx v | None => s end
  | PSave n idx v =>
      match nth_error arrs n with Some a => p_save s n a idx v | None => s end
  | PSaveAll n =>
      match nth_error arrs n with Some a => p_save_all s a | None => s end
  | PReset n =>
      match nth_error arrs n with Some a => p_reset0 s a | None => s end
  | PReboot d => boot (p_file s) last_idx d
  end.

Definition prun (arrs : list parr) (last_idx : Z) (s : pstate) (l : list pop) : pstate :=
  fold_left (pstep arrs last_idx) l s.

(** Start-up seen as the sequence of byte stores reaching the file, in program
    order; a power failure keeps an arbitrary prefix of it.
    (Simplification: a multi-byte write stores its bytes in ascending order.) *)
Definition boot_stores (f : mem) (last_idx : Z) (defaults : mem)
  : list (Z * Z) :=
  if stored_size f =? last_idx then []
  else map (fun i => (file_addr CRC_mem C_LAST_IDX_OFFSET + i, byte_of last_idx i)) (zseq 4)
       ++ map (fun i => (file_addr params_mem 0 + i, defaults i)) (zseq C_TOTAL_PARAMS_SIZE).

Definition apply_stores (f : mem) (l : list (Z * Z)) : mem :=
  fold_left (fun m p => fun x => if x =? fst p then snd p else m x) l f.
