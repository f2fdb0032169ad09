(** Properties C90 to C92: the steps of the simulation with the event queue of simpy. *)
From Coq Require Import Permutation.
From Verif Require Import PyBase MemoryModel CoreModel DramModel RouterModel SystemModel SystemSpec SystemDeadlock SystemExamples NodeModel NodeSpec
  DesModel DesSpec DesExamples DesHeapSpec DesHeap DesIdleSpec DesIdle.

(** ** C90: the queue never runs empty, and no event comes at a time at which its process does not wait for it *)
(** [des_step] has two more outcomes, NEmpty and NStuck. *)
Theorem C90_progress : forall c j t0 s, sim_reach c j t0 s -> (exists s', des_step (real c) c s = NStep s') \/ (exists e, raised c s e) \/ returned c s.
Proof. exact sim_goes_on. Qed.
Print Assumptions C90_progress.
(** Both cores of tile 0 have started; the processes of the second overtake the first's put. *)
Example C90_case : let s := sim_after three race_job 6 in
  sim_reach three race_job 0 s /\ w_now s = 0 /\ length (w_queue s) = 20%nat /\
  skipn 13 (w_queue s) = [(0, Urgent, VStage 0 1 SF); (0, Urgent, VStage 0 1 SD); (0, Urgent, VStage 0 1 SX); (0, Urgent, VPipe 0 1);
                          (0, Normal, VPut 0 0 SF); (0, Normal, VPut 0 1 SF); (1, Normal, VMonitor)] /\
  exists s', des_step (real three) three s = NStep s'.
Proof. split; [apply after_reach|]. split; [vm_compute; reflexivity|]. split; [vm_compute; reflexivity|]. split; [vm_compute; reflexivity|]. eexists. vm_compute. reflexivity. Qed.

(** ** C91: events are processed in the order of simpy's heap *)
Theorem C91_heap : forall c j t0 h, heap_reach c j t0 h -> exists s, sim_reach c j t0 s /\ alike h s.
Proof. exact heap_simulated. Qed.
Print Assumptions C91_heap.
Theorem C91_queue : forall c j t0 s, sim_reach c j t0 s -> exists h, heap_reach c j t0 h /\ alike h s.
Proof. exact queue_simulated. Qed.
Print Assumptions C91_queue.
(** The least item is the last of the list; the one pushed is number 14. *)
Example C91_case : exists h h', heap_reach three race_job 0 h /\
  h_items h = [(0, 0, 13, VTile 2); (0, 0, 12, VTile 1); (0, 0, 11, VTile 0); (0, 0, 10, VMonitor)] /\
  heap_step three h h' /\ h_items h' = [(0, 0, 12, VTile 1); (1, 1, 14, VMonitor); (0, 0, 13, VTile 2); (0, 0, 11, VTile 0)] /\ h_eid h' = 15.
Proof.
  eexists. eexists. split.
  { apply (heap_first three race_job 0 10 [(0, 0, 13, VTile 2); (0, 0, 12, VTile 1); (0, 0, 11, VTile 0); (0, 0, 10, VMonitor)]); [reflexivity|].
    cbn. etransitivity; [apply Permutation_rev|]. reflexivity. }
  split; [reflexivity|]. split.
  { eapply (heap_pops _ _ (0, 0, 10, VMonitor) [(0, 0, 11, VTile 0); (0, 0, 12, VTile 1); (0, 0, 13, VTile 2)] _ _ [(0, 0, 12, VTile 1); (1, 1, 14, VMonitor); (0, 0, 13, VTile 2); (0, 0, 11, VTile 0)]).
    - cbn. discriminate.
    - cbn. etransitivity; [apply Permutation_rev|]. reflexivity.
    - intros y H. unfold less. cbn in H. destruct H as [<-|[<-|[<-|[]]]]; cbn; lia.
    - reflexivity.
    - cbn. etransitivity; [apply perm_swap|]. apply perm_skip. etransitivity; [|apply (Permutation_app_comm [(0, 0, 12, VTile 1); (0, 0, 13, VTile 2)] [(0, 0, 11, VTile 0)])]. reflexivity. }
  split; reflexivity.
Qed.

(** ** C92: every simulation ends *)
(** False: the programs of C44 are simulated for ever. *)
Theorem C92_refuted : exists c j, forall s, sim_reach c j 0 s -> exists s', des_step (real c) c s = NStep s'.
Proof. exact never_ends. Qed.
Print Assumptions C92_refuted.
(** A simulation with only the monitor and polling left never ends, and its memories, routers and cores do not change. *)
Theorem C92_idle : forall c j t0 s, sim_reach c j t0 s -> only_ticks s -> forall n, exists s', goes_on c n s s' /\ only_ticks s' /\ same_work s s'.
Proof. exact idle_forever. Qed.
Print Assumptions C92_idle.
Example C92_case : exists s, goes_on three 300 (des_first three 0 hol_job) s /\ only_ticks s /\ w_now s = 90.
Proof. exact hol_ticks. Qed.
