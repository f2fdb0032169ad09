(** Property C93: how the simulation with the event queue of simpy ends. *)
From Verif Require Import PyBase MemoryModel CoreModel DramModel RouterModel SystemModel SystemSpec SystemDeadlock SystemExamples NodeModel NodeSpec
  DesModel DesSpec DesExamples DesIdleSpec DesIdle DesEndSpec DesEnd.

(** ** C93: a simulation ends or comes to a standstill *)
Theorem C93_ends : forall c j t0, exists n s, goes_on c n (des_first c t0 j) s /\ (returned c s \/ (exists e, raised c s e) \/ only_ticks s).
Proof. exact sim_ends. Qed.
Print Assumptions C93_ends.
(** So the simulations that never end are those of C92. *)
Theorem C93_endless : forall c j t0,
  (forall s, sim_reach c j t0 s -> exists s', des_step (real c) c s = NStep s') <-> exists s, sim_reach c j t0 s /\ only_ticks s.
Proof. exact endless_iff. Qed.
Print Assumptions C93_endless.
(** The number of events, other than those of the monitor and of polling, has a bound that can be read off the programs. *)
Theorem C93_bound : forall c j t0 n, events_of_work c n (des_first c t0 j) <= all_events c j.
Proof. exact events_bounded. Qed.
Print Assumptions C93_bound.
(** The first simulation returns; the second one is at a standstill. *)
Example C93_case :
  (returned three (sim_after three copy_job 1000) /\ w_now (sim_after three copy_job 1000) = 17 /\
   events_of_work three 1000 (des_first three 0 copy_job) = 179 /\ all_events three copy_job = 248) /\
  (events_of_work three 300 (des_first three 0 hol_job) = 54 /\ events_of_work three 600 (des_first three 0 hol_job) = 54 /\ all_events three hol_job = 161).
Proof. repeat split; vm_compute; reflexivity. Qed.
