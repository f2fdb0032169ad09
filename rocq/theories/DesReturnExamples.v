(** Concrete simulations: one that returns although another latency of the memory brings it to a standstill. *)
From Verif Require Import PyBase PyLemmas MemoryModel CoreModel DramModel DramSpec RouterModel SystemModel SystemSpec SystemDet SystemExamples NodeModel NodeSpec NodeExamples
  LiveSpec LiveExamples LiveClaims CoreUse SystemDeadlock SystemClaims DesModel DesSpec DesExamples DesIdleSpec DesIdle DesReturnSpec DesReturn.

(** Cores 0 and 1 load what core 2 stores, after some other instructions. *)
Definition patient : core * list cop := (core_init (pair_core 1 1), [CSet 8 4 1] ++ repeat (CSet 9 0 1) 20 ++ [CLoad 10 8 1 1; CHlt]).
Definition patient_job : job := MkJob (fun _ => [THalt]) (fun i => if i =? 0 then [patient; patient; storer] else []) [].
Definition far : sys_cfg := MkSysCfg (MkNetCfg 3 1 3 8 2) (pair_core 1 1) 1 8 100.
Definition patient_run : list (Z * sact) := Eval vm_compute in
  (let '(l, t, s) := SystemExamples.schedule 30 1 three 0 (drams ++ [SCore 0 2]) (sys_start three 0 patient_job) in
   l ++ scheduled (SystemExamples.schedule 200 1 three t (drams ++ [SCore 0 0; SCore 0 1] ++ rest3) s)).
Definition patient_end : sys := match srun 1 three patient_run (sys_start three 0 patient_job) with Some s => s | None => sys_start three 0 patient_job end.

Lemma patient_reach : exists t, sreach three patient_job t patient_end.
Proof. apply (SystemExamples.run_end three patient_job patient_run); vm_compute; reflexivity. Qed.
Lemma patient_once i : on_node three i -> written_once (d_history (t_dram (s_tile patient_end i))).
Proof. intros N. apply nodup_once. apply node_of_three in N as [ -> | [ -> | -> ] ]; vm_compute; repeat constructor; cbn; lia. Qed.
Lemma delays_hold (c : sys_cfg) (l : list cop) : y_core c = pair_core 1 1 -> forallb (fun o => match o with CLoad _ _ _ v | CStore _ _ _ v => 0 <=? v | CSet _ _ _ | CHlt => true | _ => false end) l = true -> Forall (delays_of c) l.
Proof.
  intros E H. apply Forall_forall. intros o HO. rewrite forallb_forall in H. specialize (H o HO). unfold delays_of. rewrite E. destruct o; try discriminate H; first [cbn [k_data_lat pair_core]; lia | eexists; split; [cbn; reflexivity|lia]].
Qed.
Lemma patient_delays c : y_core c = pair_core 1 1 -> delays_ok c patient_job.
Proof.
  intros E. unfold delays_ok. rewrite E. split; [cbn; lia|]. split; [cbn; lia|]. intros i _. apply Forall_forall. intros kp HK. unfold patient_job in HK. cbn [j_cores] in HK. destruct (i =? 0); [|destruct HK]. apply delays_hold; [exact E|]. destruct HK as [<-|[<-|[<-|[]]]]; reflexivity.
Qed.
Lemma relay_delays c : y_core c = pair_core 1 1 -> delays_ok c relay_job.
Proof.
  intros E. unfold delays_ok. rewrite E. split; [cbn; lia|]. split; [cbn; lia|]. intros i _. apply Forall_forall. intros kp HK. unfold relay_job in HK. cbn [j_cores] in HK. apply delays_hold; [exact E|]. destruct (i =? 0); [|destruct (i =? 1); [|destruct HK]]; destruct HK as [<-|[]]; reflexivity.
Qed.
Lemma far_still : let s := sim_after far patient_job 900 in sim_reach far patient_job 0 s /\ only_ticks s /\ read_left s.
Proof.
  cbv zeta. split; [apply after_reach|]. split.
  - split; [vm_compute; reflexivity|]. intros x HX. assert (Q : map e_ev (w_queue (sim_after far patient_job 900)) = [VMonitor]) by (vm_compute; reflexivity).
    apply (in_map e_ev) in HX. rewrite Q in HX. destruct HX as [<-|[]]. exact I.
  - assert (exists T, the_tile (w_node (sim_after far patient_job 900)) 0 = Some T /\ c_pending (x_ctl T) = [MkReq 2 1 4 45 (RRead 1 1)] /\ znth false (y_valid (c_mem (x_ctl T))) 4 = true) as (T & H1 & H2 & H3).
    { eexists. split; [vm_compute; reflexivity|]. split; vm_compute; reflexivity. }
    exists 0, T, (MkReq 2 1 4 45 (RRead 1 1)). split; [exact H1|]. split; [rewrite H2; now left|]. split; [vm_compute; split; discriminate|]. intros a HC. unfold covers in HC. cbn in HC. unfold q_length in HC. cbn in HC. now replace a with 4 by lia.
Qed.
Theorem latency_decides : exists c c' j t A s s',
  0 <= y_size c /\ usable_latencies c /\ usable_latencies c' /\ same_shape c c' /\ all_halt c j /\ delays_ok c j /\ delays_ok c' j /\
  sreach c j t A /\ completed_run c A /\ (forall i, on_node c i -> written_once (d_history (t_dram (s_tile A i)))) /\
  sim_reach c j 0 s /\ returned c s /\ sim_reach c' j 0 s' /\ only_ticks s' /\ read_left s'.
Proof.
  destruct patient_reach as (t & R). destruct far_still as (F1 & F2 & F3). exists three, far, patient_job, t, patient_end, (sim_after three patient_job 1000), (sim_after far patient_job 900).
  split; [cbn; lia|]. split; [unfold usable_latencies; cbn; lia|]. split; [unfold usable_latencies; cbn; lia|]. split; [repeat split|].
  split; [intros i N; cbn; auto|]. split; [now apply patient_delays|]. split; [now apply patient_delays|]. split; [exact R|]. split; [apply three_completed; vm_compute; reflexivity|]. split; [exact patient_once|].
  split; [apply after_reach|]. split; [vm_compute; reflexivity|]. auto.
Qed.
