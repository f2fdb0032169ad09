(** Property C96: which simulations of all nodes end. *)
From Verif Require Import PyBase MemoryModel CoreModel DramModel DramSpec RouterModel SystemModel SystemSpec SystemExamples SystemDeadlock NodeModel NodeSpec LiveSpec
  DesModel DesSpec DesExamples DesIdleSpec DesReturnSpec DesManyModel DesManySpec DesManyEnd DesManyResult DesManyExamples.

(** ** C96: the simulation of all nodes ends if and only if each node does *)
(** If each node returns alone, the simulation of all nodes ends. *)
Theorem C96_ends : forall c js t0, (forall k, in_run c k -> returns_alone c (js k) t0) ->
  exists x, many_reach c js t0 x /\ (many_returned c x \/ exists e, many_raised c x e).
Proof. exact all_end. Qed.
Print Assumptions C96_ends.
(** If no execution of a node raises an exception, it returns exactly if each node returns alone. *)
Theorem C96_returns : forall c js t0, (forall k, in_run c k -> delays_ok c (js k)) -> (forall k, in_run c k -> never_crashes c (js k)) ->
  (exists x, many_reach c js t0 x /\ many_returned c x) <-> (forall k, in_run c k -> returns_alone c (js k) t0).
Proof. exact all_return. Qed.
Print Assumptions C96_returns.
(** One node that comes to a standstill keeps it from returning; without exceptions it then goes on forever. *)
Theorem C96_standstill : forall c js t0 k s, in_run c k -> sim_reach c (js k) t0 s -> only_ticks s -> forall x, many_reach c js t0 x -> ~ many_returned c x.
Proof. exact still_node. Qed.
Print Assumptions C96_standstill.
Theorem C96_endless : forall c js t0 k s, (forall k, in_run c k -> delays_ok c (js k)) -> (forall k, in_run c k -> never_crashes c (js k)) ->
  in_run c k -> sim_reach c (js k) t0 s -> only_ticks s -> forall x, many_reach c js t0 x -> exists x', many_step (real c) c x = YStep x'.
Proof. exact still_endless. Qed.
Print Assumptions C96_endless.
(** If each job is completed by some execution of its node (with any latencies), the simulation can return with the results of those
    executions only. With at most one reader on each tile it does return. *)
Theorem C96_results : forall c c' js t0 A, 0 <= y_size c -> usable_latencies c -> usable_latencies c' -> same_shape c c' ->
  (forall k, in_run c' k -> all_halt c (js k)) -> (forall k, in_run c' k -> exists t, sreach c (js k) t (A k)) -> (forall k, in_run c' k -> completed_run c (A k)) ->
  (forall k i, in_run c' k -> on_node c i -> written_once (d_history (t_dram (s_tile (A k) i)))) ->
  forall x k, many_reach c' js t0 x -> many_returned c' x -> in_run c' k -> exists n, node_of x k = Some n /\ results_of c' (A k) (MkDes 0 [] n).
Proof. exact whole_results. Qed.
Print Assumptions C96_results.
Theorem C96_single_reader : forall c c' js t0 A, 0 <= y_size c -> usable_latencies c -> usable_latencies c' -> same_shape c c' ->
  (forall k, in_run c' k -> all_halt c (js k)) -> (forall k, in_run c' k -> delays_ok c' (js k)) ->
  (forall k, in_run c' k -> exists t, sreach c (js k) t (A k)) -> (forall k, in_run c' k -> completed_run c (A k)) ->
  (forall k i, in_run c' k -> on_node c i -> written_once (d_history (t_dram (s_tile (A k) i)))) ->
  (forall k i, in_run c' k -> on_node c i -> readers (js k) i <= 1) -> exists x, many_reach c' js t0 x /\ many_returned c' x.
Proof. exact whole_returns. Qed.
Print Assumptions C96_single_reader.

(** Each of the two nodes returns alone, and so do both together. *)
Example C96_case : let s k := sim_after two (pair_jobs k) 1000 in let x := many_after two pair_jobs 1000 in
  (returned two (s 0) /\ w_now (s 0) = 17) /\ (returned two (s 1) /\ w_now (s 1) = 16) /\ many_returned two x /\ v_now x = 17.
Proof. vm_compute. repeat split. Qed.
(** Node 0 returns alone; node 1 comes to a standstill, at which only its monitor and a polling sender are left. *)
Example C96_case_standstill : let x := many_after two still_jobs 800 in
  many_reach two still_jobs 0 x /\ map z_fin (v_nodes x) = [FCond; FRunning] /\ map e_ev (v_queue x) = [MOf 1 VMonitor; MOf 1 (VPollTime 0)] /\
  map e_ev (w_queue (sim_after two hol_job 800)) = [VMonitor; VPollTime 0].
Proof. split; [apply many_after_reach|]. vm_compute. repeat split. Qed.
