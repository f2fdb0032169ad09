(** Property C94: which simulations return. *)
From Verif Require Import PyBase MemoryModel CoreModel DramModel DramSpec RouterModel SystemModel SystemSpec SystemExamples NodeModel NodeSpec LiveSpec LiveClaims
  DesModel DesSpec DesExamples DesIdleSpec DesReturnSpec DesReturn DesReturnExamples.

(** ** C94: the simulation of a job returns if some execution of the node completes it *)
(** It does not always: a latency decides. *)
Theorem C94_refuted : exists c c' j t A s s',
  0 <= y_size c /\ usable_latencies c /\ usable_latencies c' /\ same_shape c c' /\ all_halt c j /\ delays_ok c j /\ delays_ok c' j /\
  sreach c j t A /\ completed_run c A /\ (forall i, on_node c i -> written_once (d_history (t_dram (s_tile A i)))) /\
  sim_reach c j 0 s /\ returned c s /\ sim_reach c' j 0 s' /\ only_ticks s' /\ read_left s'.
Proof. exact latency_decides. Qed.
Print Assumptions C94_refuted.
(** But then a read has been left waiting although its data is there; otherwise the simulation returns with the results of that execution. *)
Theorem C94_returns : forall c c' j t A t0, 0 <= y_size c -> usable_latencies c -> usable_latencies c' -> same_shape c c' -> all_halt c j -> delays_ok c' j ->
  sreach c j t A -> completed_run c A -> (forall i, on_node c i -> written_once (d_history (t_dram (s_tile A i)))) ->
  exists n s, goes_on c' n (des_first c' t0 j) s /\ (returned c' s /\ results_of c' A s \/ only_ticks s /\ read_left s).
Proof. exact returns_or_left. Qed.
Print Assumptions C94_returns.
(** With at most one reader on each tile it returns, with any latencies. *)
Theorem C94_single_reader : forall c c' j t A t0, 0 <= y_size c -> usable_latencies c -> usable_latencies c' -> same_shape c c' -> all_halt c j -> delays_ok c' j ->
  sreach c j t A -> completed_run c A -> (forall i, on_node c i -> written_once (d_history (t_dram (s_tile A i)))) ->
  (forall i, on_node c i -> readers j i <= 1) ->
  exists n s, goes_on c' n (des_first c' t0 j) s /\ returned c' s /\ results_of c' A s.
Proof. exact one_reader_returns. Qed.
Print Assumptions C94_single_reader.
(** At a standstill of the simulation the node, in the state the simulation shows, can do nothing at any time, and its programs are not
    completed: no event is missing from the queue. *)
Theorem C94_standstill : forall c j t0 s, 0 <= y_size c -> sim_reach c j t0 s -> only_ticks s ->
  exists t N, t <= w_now s /\ nd_reach c j t N /\ (agrees c t0 s N /\ (forall t', wedged c t' (nd_sys N)) /\ ~ completed_run c (nd_sys N) \/ crashed N).
Proof. exact standstill. Qed.
Print Assumptions C94_standstill.
(** The relay of C76 with other latencies. *)
Example C94_case : delays_ok slow relay_job /\ returned slow (sim_after slow relay_job 1000) /\ w_now (sim_after slow relay_job 1000) = 43 /\
  tiles_of (sim_after slow relay_job 1000) =
    [([0; 0; 0; 0; 77; 0; 0; 0], 30, [15], 24); ([0; 0; 77; 0; 0; 0; 0; 0], 43, [43], 40); ([0; 0; 0; 0; 0; 0; 0; 0], 0, [], 0)] /\
  map (fun i => cells (d_mem (t_dram (s_tile relay_end i)))) [0; 1; 2] = [[0; 0; 0; 0; 77; 0; 0; 0]; [0; 0; 77; 0; 0; 0; 0; 0]; [0; 0; 0; 0; 0; 0; 0; 0]].
Proof. split; [now apply relay_delays|]. vm_compute. repeat split. Qed.
