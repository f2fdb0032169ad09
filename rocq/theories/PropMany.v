(** Property C95: the simulation of all nodes with the event queue of simpy. *)
From Verif Require Import PyBase MemoryModel CoreModel DramModel RouterModel SystemModel SystemSpec NodeModel NodeSpec DesModel DesSpec DesExamples DesManyModel DesManySpec DesManyClaims DesManyExamples.

(** ** C95: in the simulation of all nodes each node does what it does alone *)
(** Up to the end of its process, a node is in a state of its own simulation, with the same events to come in the same order. *)
Theorem C95_alone : forall c js t0 x k n, many_reach c js t0 x -> in_run c k -> node_of x k = Some n -> process_over n = false ->
  exists s, sim_reach c (js k) t0 s /\ part_is x k s.
Proof. exact many_alone. Qed.
Print Assumptions C95_alone.
(** At all times its state is one of an execution of the node, up to the count of its monitor, unless an execution raises an exception. *)
Theorem C95_refinement : forall c js t0 x k, many_reach c js t0 x -> in_run c k ->
  exists n t N, node_of x k = Some n /\ t <= v_now x /\ nd_reach c (js k) t N /\ (agrees c t0 (counted n (nd_busy N)) N \/ crashed N).
Proof. exact many_refines. Qed.
Print Assumptions C95_refinement.
(** The simulation goes on until it returns or raises an exception, and time does not run backwards. *)
Theorem C95_progress : forall c js t0 x, many_reach c js t0 x -> (exists x', many_step (real c) c x = YStep x') \/ (exists e, many_raised c x e) \/ many_returned c x.
Proof. exact many_goes_on. Qed.
Print Assumptions C95_progress.
Theorem C95_time : forall c js t0 x x', many_reach c js t0 x -> many_step (real c) c x = YStep x' -> t0 <= v_now x <= v_now x'.
Proof. exact many_time. Qed.
Print Assumptions C95_time.
(** It raises an exception only if an execution of one of the nodes does. *)
Theorem C95_exceptions : forall c js t0 x e, (forall k, in_run c k -> delays_ok c (js k)) -> many_reach c js t0 x -> many_raised c x e ->
  exists k t N, in_run c k /\ nd_reach c (js k) t N /\ crashed N.
Proof. exact many_raises. Qed.
Print Assumptions C95_exceptions.
(** It returns only if each node returns alone, and then all programs are completed. *)
Theorem C95_returns : forall c js t0 x, many_reach c js t0 x -> many_returned c x -> forall k, in_run c k -> returns_alone c (js k) t0.
Proof. exact many_returns. Qed.
Print Assumptions C95_returns.
Theorem C95_completion : forall c js t0 x k, many_reach c js t0 x -> many_returned c x -> in_run c k ->
  exists n t N, node_of x k = Some n /\ t <= v_now x /\ nd_reach c (js k) t N /\ (ends_alike c t0 (counted n (nd_busy N)) N \/ crashed N).
Proof. exact many_completes. Qed.
Print Assumptions C95_completion.
(** What is not true: that the result of a node does not depend on the other nodes. The cores of a tile without halt instruction
    run on until the last node is finished. *)
Theorem C95_refuted_result : exists c j js js', in_run c 0 /\ js 0 = j /\ js' 0 = j /\
  exists x x' n n', many_reach c js 0 x /\ many_returned c x /\ many_reach c js' 0 x' /\ many_returned c x' /\
    node_of x 0 = Some n /\ node_of x' 0 = Some n' /\ tiles_of (MkDes 0 [] n) <> tiles_of (MkDes 0 [] n').
Proof. exact loose_differs. Qed.
Print Assumptions C95_refuted_result.

(** The two nodes of C73: memories, cycles of tiles and cores, and waiting times, first in the middle of the run. *)
Example C95_case_middle : let x := many_after two pair_jobs 240 in
  many_reach two pair_jobs 0 x /\ v_now x = 10 /\ map z_fin (v_nodes x) = [FRunning; FRunning] /\
  (length (events_of 0 (v_queue x)) = 8%nat /\ length (events_of 1 (v_queue x)) = 3%nat).
Proof. split; [apply many_after_reach|]. vm_compute. repeat split. Qed.
Example C95_case : let x := many_after two pair_jobs 1000 in
  many_reach two pair_jobs 0 x /\ many_returned two x /\ v_now x = 17 /\ map z_busy (v_nodes x) = [1; 0] /\
  parts x = [[([5; 6; 7; 8; 77; 0; 0; 0], 17, [17], 11); ([0; 0; 5; 6; 7; 8; 0; 0], 14, [], 4); ([0; 0; 0; 0; 0; 0; 0; 0], 11, [11], 0)];
             [([0; 0; 0; 0; 0; 0; 0; 0], 0, [], 0); ([0; 0; 0; 0; 9; 0; 0; 0], 16, [16], 4); ([0; 0; 0; 0; 0; 0; 0; 0], 0, [], 0)]] /\
  parts x = map (fun k => tiles_of (sim_after two (pair_jobs k) 1000)) [0; 1].
Proof. split; [apply many_after_reach|]. vm_compute. repeat split. Qed.
(** Node 1 loads outside the memory: an exception, and node 0 stops in the middle. *)
Example C95_case_raise : let x := many_after two bad_jobs 1000 in
  many_reach two bad_jobs 0 x /\ many_raised two x IndexError /\ v_now x = 7 /\ map z_fin (v_nodes x) = [FRunning; FRunning].
Proof. split; [apply many_after_reach|]. vm_compute. repeat split. Qed.
