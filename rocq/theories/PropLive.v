(** Progress and completion of a node: C76-C77. *)
From Verif Require Import PyBase MemoryModel CoreModel DramModel DramSpec RouterModel RouterSpec SystemModel SystemSpec SystemExamples
  LiveSpec LiveProofs LiveDet LiveBound LiveSingle LiveExamples LiveClaims.

(** ** C76: whether the programs complete does not depend on timing *)
(** It does: a core that waits for data can be left waiting when the data arrives. *)
Theorem C76_refuted :
  exists c j t A t' B, 0 <= y_size c /\ usable_latencies c /\ all_halt c j /\
    sreach c j t A /\ completed_run c A /\ (forall i, on_node c i -> written_once (d_history (t_dram (s_tile A i)))) /\
    sreach c j t' B /\ wedged c t' B /\ ~ completed_run c B /\ missed_read c B.
Proof. exact timing_decides. Qed.
Print Assumptions C76_refuted.
(** This is the only reason: if one execution completes and no cell is stored to twice, then any execution, with any latencies, that
    has come to an end has completed or has missed a read. *)
Theorem C76_wedged :
  forall c c' j t A t' B, 0 <= y_size c -> usable_latencies c -> usable_latencies c' -> same_shape c c' -> all_halt c j ->
    sreach c j t A -> completed_run c A -> (forall i, on_node c i -> written_once (d_history (t_dram (s_tile A i)))) ->
    sreach c' j t' B -> wedged c' t' B -> completed_run c' B \/ missed_read c' B.
Proof. exact wedged_or_missed. Qed.
Print Assumptions C76_wedged.
(** And every execution can be continued to such an end. *)
Theorem C76_continues :
  forall c c' j t A t' B, 0 <= y_size c -> usable_latencies c -> usable_latencies c' -> same_shape c c' -> all_halt c j ->
    sreach c j t A -> completed_run c A -> (forall i, on_node c i -> written_once (d_history (t_dram (s_tile A i)))) ->
    sreach c' j t' B -> exists n t2 B2, sworks c' t' B n t2 B2 /\ (completed_run c' B2 \/ missed_read c' B2).
Proof. exact completes_or_misses. Qed.
Print Assumptions C76_continues.
(** Reads are missed only on tiles where several processes read. *)
Theorem C76_single_reader :
  forall c j t s, 0 <= y_size c -> (forall i, on_node c i -> readers j i <= 1) -> sreach c j t s -> s_crash s = None -> ~ missed_read c s.
Proof. exact single_reader. Qed.
Print Assumptions C76_single_reader.
(** So for programs with at most one reader on each tile completion does not depend on timing. *)
Theorem C76_single_completes :
  forall c c' j t A t' B, 0 <= y_size c -> usable_latencies c -> usable_latencies c' -> same_shape c c' -> all_halt c j ->
    (forall i, on_node c i -> readers j i <= 1) ->
    sreach c j t A -> completed_run c A -> (forall i, on_node c i -> written_once (d_history (t_dram (s_tile A i)))) ->
    sreach c' j t' B -> wedged c' t' B -> completed_run c' B.
Proof. exact single_completes. Qed.
Print Assumptions C76_single_completes.
Theorem C76_single_always :
  forall c c' j t A t' B, 0 <= y_size c -> usable_latencies c -> usable_latencies c' -> same_shape c c' -> all_halt c j ->
    (forall i, on_node c i -> readers j i <= 1) ->
    sreach c j t A -> completed_run c A -> (forall i, on_node c i -> written_once (d_history (t_dram (s_tile A i)))) ->
    sreach c' j t' B -> exists n t2 B2, sworks c' t' B n t2 B2 /\ completed_run c' B2.
Proof. exact single_always. Qed.
Print Assumptions C76_single_always.

(** The two executions of the refutation: with the store first all cores halt, with the loads first the second one never does. *)
Example C76_case_cores :
  map cp_phase (t_cores (s_tile early 0)) = [PHalted; PHalted; PHalted] /\ map cp_phase (t_cores (s_tile stuck 0)) = [PHalted; PLoad 1 4; PHalted] /\
  map q_id (d_pending (t_dram (s_tile stuck 0))) = [1] /\ znth false (d_valid (t_dram (s_tile stuck 0))) 4 = true.
Proof. repeat split; vm_compute; reflexivity. Qed.
(** A program with one reader on each tile: a store, a send that waits for it, a receive, and a load that waits for it. *)
Example C76_case_relay :
  (forall i, on_node three i -> readers relay_job i <= 1) /\ all_halt three relay_job /\ usable_latencies slow /\ same_shape three slow /\
  (exists t, sreach three relay_job t relay_end) /\ completed_run three relay_end /\
  (forall i, on_node three i -> written_once (d_history (t_dram (s_tile relay_end i)))) /\ missed_read three stuck.
Proof. exact relay_case. Qed.

(** ** C77: the work of a node is bounded *)
(** Apart from idle polls of a halting router, no execution has more steps than the programs allow. *)
Theorem C77_bound :
  forall c j t n t' s, 0 <= y_size c -> sworks c t (sys_start c t j) n t' s -> n <= job_steps c j.
Proof. exact bounded_work. Qed.
Print Assumptions C77_bound.
(** So every execution can be continued until nothing is left but such polls. *)
Theorem C77_settles :
  forall c j t s, 0 <= y_size c -> sreach c j t s -> exists n t' s', sworks c t s n t' s' /\ wedged c t' s'.
Proof. exact settles. Qed.
Print Assumptions C77_settles.

(** The relay takes 52 steps, polls included; the bound is 86. *)
Example C77_case_relay : length relay_run = 52%nat /\ job_steps three relay_job = 86.
Proof. exact relay_length. Qed.
Example C77_case_job : job_steps three copy_job = 1 + (7 * 5 + (21 + 14 + 4)) + (13 + 10 + 4) + 4 /\ job_steps three race_job = 1 + (70 + 4) + 4 + 4.
Proof. vm_compute. split; reflexivity. Qed.
(** A wedged node: no step is possible at any time. *)
Example C77_case_wedged : forall t, wedged three t stuck.
Proof. exact stuck_wedged. Qed.
