(** C06, C07, C08: block memories (core cache SRAM, tile eDRAM). *)
From Verif Require Import PyBase MemoryModel MemorySpec MemoryProofs.

(** C06 (memory reads return the last write, and writes touch nothing else). *)
Theorem C06_memory_last_write :
  forall size h start len batch,
    0 <= size -> 0 <= start -> start + len <= size -> 0 < len ->
    exists vs,
      fst (mem_read (mem_run (mem_init size) h) start len batch) = Ok vs /\ zlen vs = len /\
      forall i, 0 <= i < len -> is_int32_of (znth 0 vs i) (last_stored size (rev h) (start + i)).
Proof. exact mem_read_after_history. Qed.
Print Assumptions C06_memory_last_write.

(** Two overlapping writes, one rejected write and one value wider than 32 bits. *)
Example C06_case :
  let h := [MW 2 [7; 8; 9] 1; MW 3 [4294967299; -1] 2; MW 7 [5; 5] 1; MR 0 8 1] in
  fst (mem_read (mem_run (mem_init 8) h) 1 6 1) = Ok [0; 7; 3; -1; 0; 0] /\
  map (last_stored 8 (rev h)) [1; 2; 3; 4; 5; 6] = [0; 7; 4294967299; -1; 0; 0].
Proof. vm_compute. auto. Qed.

(** C07 (out-of-range memory accesses are rejected without effect, all others succeed). *)
Theorem C07_memory_bounds :
  forall size h a,
    0 <= size ->
    let m := mem_run (mem_init size) h in
    match a with
    | MW s vs b => if accepted size a then exists m', mem_write m s vs b = (Ok tt, m')
                   else mem_write m s vs b = (Raise IndexError, m)
    | MR s n b => if accepted size a then exists vs m', mem_read m s n b = (Ok vs, m') /\ cells m' = cells m
                  else exists e, mem_read m s n b = (Raise e, m)
    | MZ => True
    end.
Proof.
  intros size h a Hs m.
  destruct (mem_run_wf _ h (mem_init_wf size Hs)) as [W E]. cbn [msize mem_init] in E. fold m in W, E.
  pose proof (mem_access_checks m a W) as H. rewrite E in H. exact H.
Qed.
Print Assumptions C07_memory_bounds.

Example C07_case :
  let m := mem_run (mem_init 8) [MW 2 [7; 8; 9] 1] in
  mem_write m 6 [1; 2; 3] 1 = (Raise IndexError, m) /\
  mem_read m (-1) 2 1 = (Raise IndexError, m) /\
  mem_read m 3 0 1 = (Raise ValueError, m) /\
  fst (mem_read m 2 6 1) = Ok [7; 8; 9; 0; 0; 0].
Proof. vm_compute. auto. Qed.

(** C08 (memory access counters are exact). *)
Theorem C08_memory_counters :
  forall size h, 0 <= size ->
    let s := mstat (mem_run (mem_init size) h) in
    let h' := since_reset h in
    read_operations s = sum_over size batch_of_read h' /\
    write_operations s = sum_over size batch_of_write h' /\
    read_cells s = sum_over size cells_of_read h' /\
    write_cells s = sum_over size cells_of_write h' /\
    total_operations s = read_operations s + write_operations s /\
    total_operated_cells s = read_cells s + write_cells s.
Proof. exact mem_counts_exact. Qed.
Print Assumptions C08_memory_counters.

Example C08_case :
  let h := [MW 0 [1] 5; MZ; MW 2 [7; 8; 9] 2; MR 1 4 3; MW 7 [1; 1] 1; MR 0 0 1] in
  mstat (mem_run (mem_init 8) h) = MkMStats 3 4 2 3 5 7.
Proof. vm_compute. reflexivity. Qed.
