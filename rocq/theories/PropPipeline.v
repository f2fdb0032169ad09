(** Property theorems: pipeline of a core. *)
From Verif Require Import PyBase PipelineModel PipelineSpec PipelineProofs PipelineTime.
Open Scope Z_scope.

(** C27 (a core executes its program exactly once and in order).  In every execution, with any
    latencies and delays, the instructions whose execution has begun are a prefix of the program up
    to its first hlt, and all but possibly the last of them have been completed. *)
Theorem C27_executed_in_order :
  forall (op : Type) (hlt : op -> bool) c prog p, preach hlt c prog p ->
    prefix (p_started p) (upto_hlt hlt prog) /\
    (p_started p = p_finished p \/ exists x, p_started p = p_finished p ++ [x]).
Proof. exact @executed_prefix. Qed.
Print Assumptions C27_executed_in_order.

Theorem C27_complete_means_all_executed :
  forall (op : Type) (hlt : op -> bool) c prog p t, preach hlt c prog p -> p_active p = Some t ->
    p_finished p = upto_hlt hlt prog /\ existsb hlt prog = true.
Proof. exact @complete_all. Qed.
Print Assumptions C27_complete_means_all_executed.

(** Instructions are numbers, 0 is hlt; two orders of the steps. *)
Example C27_case :
  upto_hlt is0 [7; 8; 9; 0; 6; 0] = [7; 8; 9; 0] /\
  p_finished (run_greedy is0 lat235 every 200 (pipe_init [7; 8; 9; 0; 6; 0])) = [7; 8; 9; 0] /\
  p_finished (run_greedy is0 lat235 (rev every) 200 (pipe_init [7; 8; 9; 0; 6; 0])) = [7; 8; 9; 0].
Proof. vm_compute. auto. Qed.

(** C28 (a core finishes only by executing hlt).  Without one it never completes; with one the
    pipeline can always make a step (after a delay) until it completes, and it makes at most eight
    steps per instruction and one more. *)
Theorem C28_without_hlt_never_completes :
  forall (op : Type) (hlt : op -> bool) c prog p, preach hlt c prog p -> existsb hlt prog = false -> p_active p = None.
Proof. exact @no_hlt_never_completes. Qed.
Print Assumptions C28_without_hlt_never_completes.

Theorem C28_with_hlt_never_stuck :
  forall (op : Type) (hlt : op -> bool) c prog p, preach hlt c prog p -> existsb hlt prog = true -> p_active p = None ->
    exists n b p', 0 <= n /\ b <> PTick /\ pstep hlt c b (later n p) = Some p'.
Proof. exact @never_stuck. Qed.
Print Assumptions C28_with_hlt_never_stuck.

Theorem C28_bounded_number_of_steps :
  forall (op : Type) (hlt : op -> bool) c prog n p, psteps hlt c prog n p -> Z.of_nat n <= 8 * zlen prog + 1.
Proof. exact @steps_bound. Qed.
Print Assumptions C28_bounded_number_of_steps.

Example C28_case :
  p_active (run_greedy is0 lat235 every 200 (pipe_init [7; 8])) = None /\
  p_finished (run_greedy is0 lat235 every 200 (pipe_init [7; 8])) = [7; 8] /\
  p_active (run_greedy is0 lat235 every 200 (pipe_init [7; 8; 9; 0; 6; 0])) = Some 19.
Proof. vm_compute. auto. Qed.

(** C29 (core execution time follows the pipeline recurrence).  In every execution in which time
    passes only when no step can be made, the times recorded at the stage boundaries are those of
    the recurrence, and the active cycles are the exit time of the first hlt. *)
Theorem C29_stage_times :
  forall (op : Type) (hlt : op -> bool) c prog p,
    0 <= l_fetch c -> 0 <= l_decode c -> (forall i, 0 <= l_exec c i) -> treach hlt c prog p ->
    t_edone p = firstn (length (p_finished p)) (map r_edone (schedule hlt c prog)) /\
    t_eget p = firstn (length (p_started p)) (map r_eget (schedule hlt c prog)) /\
    prefix (t_dput p) (map r_dput (schedule hlt c prog)) /\ prefix (t_dget p) (map r_dget (schedule hlt c prog)) /\
    prefix (t_fput p) (map r_fput (schedule hlt c prog)) /\
    (length (p_started p) <= length (t_dput p) <= length (t_dget p))%nat /\ (length (t_dget p) <= length (t_fput p))%nat.
Proof. intros op hlt c prog p F D E. exact (timing hlt c F D E prog p). Qed.
Print Assumptions C29_stage_times.

Theorem C29_active_cycles :
  forall (op : Type) (hlt : op -> bool) c prog p t,
    0 <= l_fetch c -> 0 <= l_decode c -> (forall i, 0 <= l_exec c i) -> treach hlt c prog p -> p_active p = Some t ->
    t = last (map r_edone (schedule hlt c prog)) 0.
Proof. intros op hlt c prog p t F D E. exact (active_cycles hlt c F D E prog p t). Qed.
Print Assumptions C29_active_cycles.

(** The active cycles are at least the two filling latencies and all execution times, and exactly
    that when no execution is shorter than fetch and decode. *)
Theorem C29_total_time :
  forall (op : Type) (hlt : op -> bool) c prog p t,
    0 <= l_fetch c -> 0 <= l_decode c -> (forall i, 0 <= l_exec c i) -> treach hlt c prog p -> p_active p = Some t ->
    l_fetch c + l_decode c + exec_sum c (length (upto_hlt hlt prog)) <= t /\
    ((forall i, l_fetch c <= l_exec c i) -> (forall i, l_decode c <= l_exec c i) ->
     t = l_fetch c + l_decode c + exec_sum c (length (upto_hlt hlt prog))).
Proof. intros op hlt c prog p t F D E. exact (total_time hlt c F D E prog p t). Qed.
Print Assumptions C29_total_time.

(** Fetch 2, decode 3, execution times 5, 1, 4, 4. *)
Example C29_case :
  schedule is0 lat235 [7; 8; 9; 0; 6; 0] =
    [MkRow 2 2 5 5 10; MkRow 4 5 8 10 11; MkRow 6 8 11 11 15; MkRow 8 11 14 15 19] /\
  t_edone (run_greedy is0 lat235 every 200 (pipe_init [7; 8; 9; 0; 6; 0])) = [10; 11; 15; 19] /\
  t_dput (run_greedy is0 lat235 (rev every) 200 (pipe_init [7; 8; 9; 0; 6; 0])) = [5; 8; 11; 14].
Proof. vm_compute. auto. Qed.
