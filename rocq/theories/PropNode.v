(** Properties C52, C53, C57 and C61: reset, repeated runs and cycle counts. *)
From Verif Require Import PyBase ConfigModel MemoryModel VfuModel MvmuModel CoreModel DramModel RouterModel SystemModel SystemSpec SystemExamples
  NodeModel NodeSpec NodeReset NodeClaims NodeExamples.

(** ** C52: reset restores the initial state *)
(** In every reachable state, if reset is possible at all: memory, validity flags, statistics and router are as at the beginning, and the
    cores as after loading, up to the SRAM counters (exactly if there is no SRAM); nothing is left of requests and packets of a tile that halted. *)
Theorem C52_restored :
  forall c j t n, 0 <= y_size c -> fresh_job c j -> units_have_rram c j -> nd_reach c j t n ->
    exists n', node_reset c n = (Ok tt, n') /\ forall i, on_node c i -> restored c j i (nd_sys n') /\
      (In THalt (j_prog j i) -> t_prog (s_tile (nd_sys n) i) = [] -> let d := t_dram (s_tile (nd_sys n') i) in
         d_running d = false /\ d_queue d = [] /\ d_pending d = [] /\ d_bus d = [] /\ r_queue (n_router (s_net (nd_sys n')) i) = []).
Proof. exact node_restores. Qed.
Print Assumptions C52_restored.

(** False for the requests and the running flag of a tile that did not halt. *)
Theorem C52_refuted_requests :
  exists c j t n n' i, 0 <= y_size c /\ fresh_job c j /\ nd_reach c j t n /\ completed_run c (nd_sys n) /\ node_reset c n = (Ok tt, n') /\
    on_node c i /\ d_running (t_dram (s_tile (nd_sys n') i)) = true /\ d_pending (t_dram (s_tile (nd_sys n') i)) <> [].
Proof. exact reset_keeps_requests. Qed.
Print Assumptions C52_refuted_requests.

(** False for the SRAM counters, the network busy cycles and the cycle counts, also if all tiles halt. *)
Theorem C52_refuted_counters :
  exists c j t n n' i p u, 0 <= y_size c /\ fresh_job c j /\ all_halt c j /\ nd_reach c j t n /\ completed_run c (nd_sys n) /\ node_reset c n = (Ok tt, n') /\
    on_node c i /\ In p (t_cores (s_tile (nd_sys n') i)) /\ In u (co_mvmus (cp_core p)) /\
    0 < sram_mac_operations (mv_stat u) /\ 0 < mux_sram_selections (mv_stat u) /\ 0 < nd_busy n' /\ 0 < nd_tile_cycles n' 0 /\ 0 < nd_core_cycles n' 0 0.
Proof. exact reset_keeps_counters. Qed.
Print Assumptions C52_refuted_counters.
Theorem C52_keeps_cycles :
  forall c n, nd_busy (snd (node_reset c n)) = nd_busy n /\ nd_tile_cycles (snd (node_reset c n)) = nd_tile_cycles n /\ nd_core_cycles (snd (node_reset c n)) = nd_core_cycles n.
Proof. exact node_reset_keeps. Qed.
Print Assumptions C52_keeps_cycles.
Example C52_case :
  map (fun i => cells (d_mem (t_dram (s_tile (nd_sys mvm_end) i)))) [0; 1; 2] = [[5; 6; 7; 8; 77; 0; 0; 0]; [0; 0; 5; 6; 7; 8; 0; 0]; [0; 0; 0; 0; 0; 0; 0; 0]] /\
  map (fun i => cells (d_mem (t_dram (s_tile (nd_sys mvm_reset) i)))) [0; 1; 2] = [[0; 0; 0; 0; 0; 0; 0; 0]; [0; 0; 0; 0; 0; 0; 0; 0]; [0; 0; 0; 0; 0; 0; 0; 0]] /\
  map (fun p => map (fun u => out_regs (mv_out u)) (co_mvmus (cp_core p))) (t_cores (s_tile (nd_sys mvm_reset) 2)) = [[[0; 0]; [0; 0]]].
Proof. vm_compute. repeat split. Qed.

(** ** C53: reset raises exactly if there are matrix units but no RRAM crossbars *)
Theorem C53_raises :
  forall c j t n, fresh_job c j -> nd_reach c j t n ->
    (fst (node_reset c n) = Ok tt <-> units_have_rram c j) /\ (fst (node_reset c n) = Raise AttributeError <-> ~ units_have_rram c j).
Proof. exact node_reset_result. Qed.
Print Assumptions C53_raises.
Theorem C53_refuted :
  exists c j t n, 0 <= y_size c /\ fresh_job c j /\ all_halt c j /\ nd_reach c j t n /\ completed_run c (nd_sys n) /\ fst (node_reset c n) = Raise AttributeError.
Proof. exact digital_raises. Qed.
Print Assumptions C53_refuted.
Example C53_case : fst (node_reset three mvm_end) = Ok tt /\ fst (node_reset digital digital_end) = Raise AttributeError.
Proof. vm_compute. repeat split. Qed.

(** ** C57: the second run is the first *)
(** After a completed run of halting programs and a reset, every schedule is possible in the second run, with the same or another activation,
    exactly if it is in a first run with that activation, and leads to the same state, with the same cycle counts; only the network busy cycles add up (and the SRAM counters are not compared). *)
Theorem C57_second_run :
  forall c j t n, 0 <= y_size c -> fresh_job c j -> units_have_rram c j -> all_halt c j -> nd_reach c j t n -> completed_run c (nd_sys n) ->
    exists n0, node_reset c n = (Ok tt, n0) /\
      forall j' now l, same_programs j j' ->
                    match nd_run c l (node_again c now j' n0), nd_run c l (node_first c now j') with
                    | Some a, Some b => same_node n a b | None, None => True | _, _ => False end.
Proof. exact second_run. Qed.
Print Assumptions C57_second_run.
Example C57_case :
  map (fun i => cells (d_mem (t_dram (s_tile (nd_sys mvm_again) i)))) [0; 1; 2] = map (fun i => cells (d_mem (t_dram (s_tile (nd_sys mvm_end) i)))) [0; 1; 2] /\
  map (fun p => map (fun u => out_regs (mv_out u)) (co_mvmus (cp_core p))) (t_cores (s_tile (nd_sys mvm_again) 2)) =
    map (fun p => map (fun u => out_regs (mv_out u)) (co_mvmus (cp_core p))) (t_cores (s_tile (nd_sys mvm_end) 2)) /\
  nd_busy mvm_end = 1 /\ nd_busy mvm_again = 2.
Proof. vm_compute. repeat split. Qed.

(** ** C61: cycle counts *)
Theorem C61_cycles :
  forall c j t n, 0 <= y_size c -> nd_reach c j t n -> cycles_ok c j t n.
Proof. exact cycles. Qed.
Print Assumptions C61_cycles.
(** The busy cycles are the samples at which a packet waits. *)
Theorem C61_busy_samples :
  forall c t a n n', node_step c t a n = Some n' ->
    (a = NdMonitor /\ packet_waits c (nd_sys n) -> nd_busy n' = nd_busy n + 1) /\
    (~ (a = NdMonitor /\ packet_waits c (nd_sys n)) -> nd_busy n' = nd_busy n).
Proof. exact busy_samples. Qed.
Print Assumptions C61_busy_samples.
(** Without a halt instruction a core may be active longer than its tile. *)
Theorem C61_refuted_without_halt :
  exists c j t n i k, 0 <= y_size c /\ nd_reach c j t n /\ completed_run c (nd_sys n) /\ on_node c i /\ nd_tile_cycles n i < nd_core_cycles n i k.
Proof. exact late_core. Qed.
Print Assumptions C61_refuted_without_halt.
Example C61_case : map (nd_tile_cycles mvm_end) [0; 1; 2] = [15; 16; 0] /\ nd_core_cycles mvm_end 0 0 = 8 /\ nd_busy mvm_end = 1.
Proof. vm_compute. repeat split. Qed.
