(** Independent specification of reset and of a second run. *)
From Verif Require Import PyBase ConfigModel MemoryModel VfuModel MvmuModel CoreModel DramModel RouterModel SystemModel SystemSpec NodeModel.

(** A core as it is after construction and loading of weights: registers and counters are zero. *)
Definition fresh_core (c : core_cfg) (k : core) : Prop :=
  co_cache k = mem_init (k_cache c) /\ co_vfu k = vstats0 /\
  Forall (fun u => mv_in u = inreg_init (c_size (k_mv c)) /\ mv_out u = outreg_init (c_size (k_mv c)) /\ mv_stat u = mv_stats0) (co_mvmus k).
Definition fresh_job (c : sys_cfg) (j : job) : Prop :=
  0 <= k_cache (y_core c) /\ 0 <= c_size (k_mv (y_core c)) /\
  forall i, on_node c i -> Forall (fun x => fresh_core (y_core c) (fst x)) (j_cores j i).
(** Reset of the matrix units needs RRAM crossbars. *)
Definition units_have_rram (c : sys_cfg) (j : job) : Prop :=
  have_rram (c_storage (k_mv (y_core c))) = true \/
  forall i, on_node c i -> Forall (fun x => co_mvmus (fst x) = []) (j_cores j i).

(** Everything but the two counters of the SRAM parts. *)
Definition stats_without_sram (st : mv_stats) : mv_stats :=
  MkMvStats (dac_conversions st) (dac_active_cycles st) (rram_mvm_operations st) (snh_pos_samples st) (snh_neg_samples st)
    (mux_pos_selections st) (mux_neg_selections st) (adc_conversions st) (adc_overflow_times st) (adc_active_cycles st)
    0 0 (sna_operations st).
Definition unit_without_sram (u : mvmu) : mvmu :=
  MkMvmu (mv_in u) (mv_out u) (rram_pos u) (rram_neg u) (sram_pos u) (sram_neg u) (stats_without_sram (mv_stat u)).
Definition core_without_sram (k : core) : core := MkCore (co_cache k) (co_vfu k) (map unit_without_sram (co_mvmus k)).
Definition proc_without_sram (p : cproc) : cproc := MkCProc (core_without_sram (cp_core p)) (cp_prog p) (cp_phase p) (cp_writes p).

(** Two states of a node that agree in memory, registers, weights, packets, programs and all other counters. *)
Definition same_tile (t t' : tile) : Prop :=
  t_dram t = t_dram t' /\ t_prog t = t_prog t' /\ t_phase t = t_phase t' /\ t_log t = t_log t' /\
  map proc_without_sram (t_cores t) = map proc_without_sram (t_cores t').
Definition same_state (s s' : sys) : Prop :=
  s_crash s = s_crash s' /\ n_crash (s_net s) = n_crash (s_net s') /\
  (forall i, n_router (s_net s) i = n_router (s_net s') i) /\ (forall i, same_tile (s_tile s i) (s_tile s' i)).

(** Two jobs that differ in the activation only. *)
Definition same_programs (j j' : job) : Prop := (forall i, j_prog j' i = j_prog j i) /\ (forall i, j_cores j' i = j_cores j i).

(** Executions of a node. *)
Inductive nd_reach (c : sys_cfg) (j : job) : Z -> node -> Prop :=
| nd_start_ t : nd_reach c j t (node_first c t j)
| nd_step_ t t' a n n' : nd_reach c j t n -> t <= t' -> node_step c t' a n = Some n' -> nd_reach c j t' n'.
Fixpoint nd_run (c : sys_cfg) (l : list (Z * ndact)) (n : node) : option node :=
  match l with
  | [] => Some n
  | (t, a) :: l' => match node_step c t a n with Some n' => nd_run c l' n' | None => None end
  end.
Fixpoint nd_ascending (t : Z) (l : list (Z * ndact)) : bool :=
  match l with [] => true | (t', _) :: l' => (t <=? t') && nd_ascending t' l' end.

(** A tile as it was before the first run (its cores up to the SRAM counters, or exactly if there is no SRAM), with a stopped router. *)
Definition restored (c : sys_cfg) (j : job) (i : Z) (s : sys) : Prop :=
  d_mem (t_dram (s_tile s i)) = mem_init (y_size c) /\ d_valid (t_dram (s_tile s i)) = repeat false (Z.to_nat (y_size c)) /\
  d_stat (t_dram (s_tile s i)) = dstats0 /\
  r_running (n_router (s_net s) i) = false /\ r_stat (n_router (s_net s) i) = rstats0 /\
  map (fun p => core_without_sram (cp_core p)) (t_cores (s_tile s i)) = map (fun x => core_without_sram (fst x)) (j_cores j i) /\
  (have_sram (c_storage (k_mv (y_core c))) = false -> map cp_core (t_cores (s_tile s i)) = map fst (j_cores j i)).

(** Two nodes in the same state at the same time; the network busy cycles of the first include those of [n].  The cycles of a
    tile and of a core are the same as soon as it is finished. *)
Record same_node (n a b : node) : Prop := {
  sn_state : same_state (nd_sys a) (nd_sys b); sn_start : nd_start a = nd_start b; sn_next : nd_next a = nd_next b;
  sn_busy : nd_busy a = nd_busy b + nd_busy n;
  sn_tile : forall i, t_prog (s_tile (nd_sys b) i) = [] -> nd_tile_cycles a i = nd_tile_cycles b i;
  sn_core : forall i k, 0 <= k -> core_halted (nd_sys b) i k = true -> nd_core_cycles a i k = nd_core_cycles b i k }.

(** Cycle counts within the time elapsed, those of a core within those of a tile that halts. *)
Record cycles_ok (c : sys_cfg) (j : job) (t : Z) (n : node) : Prop := {
  cy_next : t <= nd_next n; cy_start : nd_start n <= t;
  cy_busy : 0 <= nd_busy n <= nd_next n - nd_start n;
  cy_core : forall i k, 0 <= nd_core_cycles n i k <= t - nd_start n;
  cy_tile : forall i, 0 <= nd_tile_cycles n i <= t - nd_start n;
  cy_both : forall i k, 0 <= k -> In THalt (j_prog j i) -> t_prog (s_tile (nd_sys n) i) = [] -> nd_core_cycles n i k <= nd_tile_cycles n i }.

(** Some running router of the node has a packet to send. *)
Definition packet_waits (c : sys_cfg) (s : sys) : Prop :=
  exists i, on_node c i /\ r_running (n_router (s_net s) i) = true /\ r_queue (n_router (s_net s) i) <> [].
