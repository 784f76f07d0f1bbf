(** Properties C01 and C02: non-volatile memory blocks. *)
From Coq Require Import ZArith List Bool Lia.
From Verif Require Import Base NvModel NvSpec NvProofs.
Import ListNotations.
Open Scope Z_scope.

(** C01: no byte of the backing file belongs to two blocks. *)
Theorem C01_blocks_disjoint : forall reqs,
  (forall q, In q reqs -> sane_request q) ->
  let blks := granted (snd (run_requests alloc_init reqs)) in
  forall i j r1 r2 x,
    nth_error blks i = Some r1 -> nth_error blks j = Some r2 -> i <> j ->
    occupies r1 x -> occupies r2 x -> False.
Proof. exact granted_disjoint. Qed.
Print Assumptions C01_blocks_disjoint.

(** C01: every block lies in its storage's part of the file. *)
Theorem C01_blocks_in_region : forall reqs,
  (forall q, In q reqs -> sane_request q) ->
  forall r x, In r (granted (snd (run_requests alloc_init reqs))) ->
    occupies r x ->
    match r_kind r with NVRAM => 0 <= x <= 30 | EEPROM => 64 <= x <= 32798 end.
Proof. exact granted_region. Qed.
Print Assumptions C01_blocks_in_region.

(** C01: a request is granted, with its size, exactly when it still fits. *)
Theorem C01_granted_iff_fits : forall reqs,
  (forall q, In q reqs -> sane_request q) ->
  map shape (snd (run_requests alloc_init reqs)) = expected_answers (fun _ => 0) reqs.
Proof. exact answers_expected. Qed.
Print Assumptions C01_granted_iff_fits.

(** C01: a refused request changes nothing. *)
Theorem C01_refused_unchanged : forall a k n,
  snd (get_memory_block a k n) = None -> fst (get_memory_block a k n) = a.
Proof. exact refused_unchanged. Qed.
Print Assumptions C01_refused_unchanged.

Example C01_example :
  let reqs := [(NVRAM, 10); (EEPROM, 30720); (EEPROM, 5000); (EEPROM, 2015); (EEPROM, 1)] in
  (forall q, In q reqs -> sane_request q) /\
  snd (run_requests alloc_init reqs) =
    [Some (mkRange NVRAM 0 10); Some (mkRange EEPROM 32 30720); None;
     Some (mkRange EEPROM 30752 2015); None].
Proof.
  cbv zeta. split; [|vm_compute; reflexivity].
  intros q Hq. unfold sane_request.
  repeat (destruct Hq as [<- | Hq]; [cbn; lia|]). contradiction.
Qed.

(** C01 without the size bound is false: three requests, the second one close
    to 2^32, leave blocks 0 and 2 sharing byte 64 of the file. *)
Theorem C01_disjoint_unbounded_refuted :
  let reqs := [(EEPROM, 30720); (EEPROM, 2 ^ 32 - 30720); (EEPROM, 100)] in
  let blks := granted (snd (run_requests alloc_init reqs)) in
  exists r1 r3, nth_error blks 0 = Some r1 /\ nth_error blks 2 = Some r3 /\
    occupies r1 64 /\ occupies r3 64.
Proof. exact overlap_witness. Qed.
Print Assumptions C01_disjoint_unbounded_refuted.

(** C02: for every allocation history and every access history the answers
    (bytes read and byte counts) are those of private arrays. *)
Theorem C02_blocks_are_private_arrays : forall reqs m0,
  (forall q, In q reqs -> sane_request q) ->
  let blks := granted (snd (run_requests alloc_init reqs)) in
  exists content0 : arrays, forall l,
  (forall x, In x l -> sane_access x) ->
  snd (access_run blks m0 l) = snd (spec_run (map r_size blks) content0 l).
Proof. exact accesses_refine. Qed.
Print Assumptions C02_blocks_are_private_arrays.

Example C02_example :
  let blks := granted (snd (run_requests alloc_init [(NVRAM, 10); (EEPROM, 20)])) in
  let l := [AWrite 0 4 [1;2;3;4]; AWrite 1 4 [9;9;9;9]; ARead 0 3 5; ARead 1 18 3;
            AWrite 1 17 [5;5;5]; ARead 1 16 4] in
  (forall x, In x l -> sane_access x) /\
  snd (access_run blks (fun _ => 0) l) =
    [AnsWrite 4; AnsWrite 4; AnsRead 5 [0;1;2;3;4]; AnsRead 0 [];
     AnsWrite 3; AnsRead 4 [0;5;5;5]].
Proof.
  cbv zeta. split; [|vm_compute; reflexivity].
  intros x Hx. repeat (destruct Hx as [<- | Hx]; [cbn; lia|]). contradiction.
Qed.

(** C02 without the bound on offset + length is false: a write through block 1
    with offset 2^32-100 is accepted and lands in block 0. *)
Theorem C02_private_arrays_unbounded_refuted :
  let blks := granted (snd (run_requests alloc_init [(EEPROM, 100); (EEPROM, 100)])) in
  exists l m0, forall content0 : arrays,
    snd (access_run blks m0 l) <> snd (spec_run (map r_size blks) content0 l).
Proof. exact oob_write_witness. Qed.
Print Assumptions C02_private_arrays_unbounded_refuted.
