(** Properties C03 - C06: saved parameters. *)
From Coq Require Import ZArith List Bool Lia.
From Verif Require Import Base NvModel NvSpec ParamModel ParamSpec ParamProofs.
Import ListNotations.
Open Scope Z_scope.

(** C03: for every layout that fits, every initial storage content recorded for
    this layout and every history, each parameter reads as in the abstract
    machine with a current and a stored value per parameter. *)
Theorem C03_saved_parameters_survive : forall counts f0 d0 l,
  fits counts -> stored_size f0 = project_size counts -> Forall op_u32 l ->
  let s0 := boot f0 (project_size counts) d0 in
  exists t0, cur t0 = sto t0 /\
  forall n a i, nth_error (project counts) n = Some a -> valid counts n i ->
    p_get (prun (project counts) (project_size counts) s0 l) n a i
    = cur (arun counts t0 l) n i.
Proof. exact param_history. Qed.
Print Assumptions C03_saved_parameters_survive.

(** The arrays [project counts] are the ones the manager really creates. *)
Theorem C03_project_is_created : forall counts,
  fits counts ->
  make_arrays 0 (1 :: counts) =
    (project_size counts, map (fun a => Some (p_start a)) (project counts)).
Proof. exact project_is_created. Qed.
Print Assumptions C03_project_is_created.

Example C03_example :
  let counts := [3; 0; 2] in
  let f0 := mwrite (fun _ => 0) 4 (byte_of 24) 4 in
  let l := [PSave 1 2 70000; PSet 1 3 5; PSet 3 1 8; PReboot (fun _ => 9);
            PSet 1 1 4; PSaveAll 1; PReset 3; PSave 2 1 77; PReboot (fun _ => 9)] in
  fits counts /\ stored_size f0 = project_size counts /\ Forall op_u32 l /\
  let s := prun (project counts) (project_size counts) (boot f0 24 (fun _ => 9)) l in
  map (fun '(n, a, i) => p_get s n a i)
    [(1%nat, mkArr 4 3, 1); (1%nat, mkArr 4 3, 2); (1%nat, mkArr 4 3, 3);
     (3%nat, mkArr 16 2, 1)] = [4; 70000; 0; 0].
Proof.
  cbv zeta. split; [|split; [|split]].
  - split; [repeat constructor; lia | vm_compute; congruence].
  - vm_compute. reflexivity.
  - repeat constructor; cbn; lia.
  - vm_compute. reflexivity.
Qed.

(** C04: nothing is touched when the recorded size matches. *)
Theorem C04_same_layout_keeps_storage : forall f L d,
  stored_size f = L ->
  p_file (boot f L d) = f /\
  forall x, 0 <= x < C_TOTAL_PARAMS_SIZE -> p_ram (boot f L d) x = img f x.
Proof. exact boot_same. Qed.
Print Assumptions C04_same_layout_keeps_storage.

(** C04: a completed start after a layout change leaves the defaults in memory
    and in the storage, together with the new size mark. *)
Theorem C04_changed_layout_reinitialises : forall f L d,
  0 <= L < 2 ^ 32 -> stored_size f <> L ->
  stored_size (p_file (boot f L d)) = L /\
  forall x, 0 <= x < C_TOTAL_PARAMS_SIZE ->
    p_ram (boot f L d) x = d x /\ img (p_file (boot f L d)) x = d x.
Proof. exact boot_reinit. Qed.
Print Assumptions C04_changed_layout_reinitialises.

(** The list of byte stores used for crash points is the complete effect of a
    start-up on the file. *)
Theorem C04_stores_complete : forall f L d x,
  apply_stores f (boot_stores f L d) x = p_file (boot f L d) x.
Proof. exact boot_stores_complete. Qed.
Print Assumptions C04_stores_complete.

(** C04, the failure: power lost after [k >= 4] of the byte stores of a
    reinitialising start.  The next start, whatever its defaults, does not
    reinitialise; it runs with defaults in the first [k - 4] bytes and the stale
    content of the old layout everywhere else. *)
Theorem C04_power_failure_leaves_stale_parameters : forall f L d d' (k : nat),
  0 <= L < 2 ^ 32 -> stored_size f <> L -> (4 <= k)%nat ->
  let f' := apply_stores f (firstn k (boot_stores f L d)) in
  boot_stores f' L d' = [] /\
  forall x, 0 <= x < C_TOTAL_PARAMS_SIZE ->
    p_ram (boot f' L d') x = if x <? Z.of_nat k - 4 then d x else img f x.
Proof. exact crash_accepted. Qed.
Print Assumptions C04_power_failure_leaves_stale_parameters.

Example C04_example :
  let f := fun x => if x <? 64 then 0 else 170 in
  stored_size f <> 24 /\
  (let s := boot f 24 (fun _ => 1) in (p_ram s 5, img (p_file s) 30719) = (1, 1)) /\
  (let f' := apply_stores f (firstn 6 (boot_stores f 24 (fun _ => 1))) in
   map (p_ram (boot f' 24 (fun _ => 1))) [0; 1; 2; 3] = [1; 1; 170; 170]).
Proof. cbv zeta. split; [vm_compute; congruence | split; vm_compute; reflexivity]. Qed.

(** C05: an out-of-range assignment or save changes neither the parameters in
    memory nor the storage. *)
Theorem C05_out_of_range_changes_nothing : forall counts s o n idx v,
  fits counts -> (o = PSet n idx v \/ o = PSave n idx v) -> ~ valid counts n idx ->
  p_file (pstep (project counts) (project_size counts) s o) = p_file s /\
  p_ram (pstep (project counts) (project_size counts) s o) = p_ram s.
Proof. exact oor_step. Qed.
Print Assumptions C05_out_of_range_changes_nothing.

(** C05: an out-of-range read returns the last out-of-range assignment to the
    same array since start-up, 0 if none. *)
Theorem C05_out_of_range_read : forall counts f0 d0 l n a idx,
  fits counts -> nth_error (project counts) n = Some a -> ~ valid counts n idx ->
  p_get (prun (project counts) (project_size counts)
           (boot f0 (project_size counts) d0) l) n a idx
  = last_oor counts n 0 l.
Proof. exact oor_read. Qed.
Print Assumptions C05_out_of_range_read.

(** The documented "always 0" therefore fails: assigning element 9 of a
    3-element array makes element 0 read as 42. *)
Example C05_stub_keeps_value :
  let s := prun (project [3]) (project_size [3]) (boot (fun _ => 0) 16 (fun _ => 0))
             [PSet 1 9 42] in
  p_get s 1 (mkArr 4 3) 0 = 42 /\ ~ valid [3] 1 0 /\ ~ valid [3] 1 9.
Proof.
  cbv zeta. split; [vm_compute; reflexivity|].
  split; intros (c & Hc & Hi); cbn in Hc; injection Hc as <-; lia.
Qed.

(** C06: storage is granted in creation order as long as it fits. *)
Theorem C06_allocation : forall counts used,
  0 <= used <= C_TOTAL_PARAMS_SIZE -> Forall (fun c => 0 <= c < 2 ^ 29) counts ->
  snd (make_arrays used counts) = expected_starts used counts.
Proof. intros counts used. exact (make_arrays_expected counts used). Qed.
Print Assumptions C06_allocation.

Example C06_example :
  Forall (fun c => 0 <= c < 2 ^ 29) [1; 7000; 700; 600] /\
  snd (make_arrays 0 [1; 7000; 700; 600]) = [Some 0; Some 4; None; Some 28004].
Proof. split; [repeat constructor; lia | vm_compute; reflexivity]. Qed.
