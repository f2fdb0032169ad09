(** Property C97: the results of a node in the simulation of all nodes. *)
From Verif Require Import PyBase MemoryModel CoreModel DramModel RouterModel SystemModel SystemSpec NodeModel NodeSpec
  DesModel DesSpec DesExamples DesManyModel DesManySpec DesManyExamples DesSameSpec DesSameRun.

(** ** C97: if its tiles halt, a node has the results it has alone, and all nodes take as long as the slowest of them *)
(** From the end of its process on, all memories, registers, units, statistics and cycle counts of a node are those that the simulation
    of the node alone ends with; refuted for tiles without a halt instruction by C95_refuted_result. *)
Theorem C97_result : forall c js t0 x k n, 0 <= y_size c -> all_halt c (js k) -> never_crashes c (js k) ->
  many_reach c js t0 x -> in_run c k -> node_of x k = Some n -> process_over n = true ->
  forall t r, ends_with c (js k) t0 t r -> r = node_result c n.
Proof. exact same_result. Qed.
Print Assumptions C97_result.
(** So the other nodes make no difference. *)
Theorem C97_independent : forall c js js' t0 x x' k, 0 <= y_size c -> all_halt c (js k) -> never_crashes c (js k) -> js' k = js k -> in_run c k ->
  many_reach c js t0 x -> many_returned c x -> many_reach c js' t0 x' -> many_returned c x' ->
  exists n n', node_of x k = Some n /\ node_of x' k = Some n' /\ node_result c n = node_result c n'.
Proof. exact same_job. Qed.
Print Assumptions C97_independent.
(** The simulation of all nodes ends at the time at which that of the slowest node alone ends. *)
Theorem C97_time : forall c js t0 x, many_reach c js t0 x -> many_returned c x ->
  (forall k, in_run c k -> exists t r, ends_with c (js k) t0 t r /\ t <= v_now x) /\
  (0 < w_nodes (y_net c) -> exists k t r, in_run c k /\ ends_with c (js k) t0 t r /\ t = v_now x).
Proof. exact same_end. Qed.
Print Assumptions C97_time.
(** The two nodes of C95: alone they end at 17 and 16. *)
Example C97_case : let s k := sim_after two (pair_jobs k) 1000 in let x := many_after two pair_jobs 1000 in
  let seen n := (z_busy n, map (fun T => (cells (y_mem (c_mem (x_ctl T))), c_stat (x_ctl T), u_stat (x_rt T), map k_cycles (x_cores T), x_cycles T)) (z_tiles n)) in
  many_reach two pair_jobs 0 x /\ many_returned two x /\ (v_now x = 17 /\ w_now (s 0) = 17 /\ w_now (s 1) = 16) /\
  map (fun n => map x_cycles (z_tiles n)) (v_nodes x) = [[17; 14; 11]; [0; 16; 0]] /\ map seen (v_nodes x) = [seen (w_node (s 0)); seen (w_node (s 1))].
Proof. split; [apply many_after_reach|]. vm_compute. repeat split. Qed.
