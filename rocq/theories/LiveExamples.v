(** Executions of a job whose completion depends on the timing. *)
From Verif Require Import PyBase PyLemmas MemoryModel VfuModel FloatModel MvmuModel CoreModel CoreUse DramModel DramSpec DramProofs RouterModel RouterSpec
  SystemModel SystemSpec SystemBase SystemInv SystemDet SystemDeadlock SystemClaims SystemExamples LiveSpec LiveProofs.

(** Cores 0 and 1 load what core 2 stores. *)
Definition loader : core * list cop := (core_init (pair_core 1 1), [CSet 8 4 1; CLoad 10 8 1 1; CHlt]).
Definition storer : core * list cop := (core_init (pair_core 1 1), [CSet 8 4 1; CSet 9 77 1; CStore 8 9 1 1; CHlt]).
Definition wait_job : job := MkJob (fun _ => [THalt]) (fun i => if i =? 0 then [loader; loader; storer] else []) [].
Definition wait_run (order : list sact) : list (Z * sact) := scheduled (schedule 100 1 three 0 order (sys_start three 0 wait_job)).
Definition rest3 : list sact := [STile 0; STile 1; STile 2] ++ map SNet [NPoll 0; NStopped 0; NPoll 1; NStopped 1; NPoll 2; NStopped 2].
Definition drams : list sact := map (SDram 0) [AFinish; AGrant; AHandle].
Definition loads_first : list (Z * sact) := Eval vm_compute in wait_run (drams ++ [SCore 0 0; SCore 0 1; SCore 0 2] ++ rest3).
(** Here the loads start when the store is done. *)
Definition store_first : list (Z * sact) := Eval vm_compute in
  (let '(l, t, s) := schedule 30 1 three 0 (drams ++ [SCore 0 2]) (sys_start three 0 wait_job) in
   l ++ scheduled (schedule 100 1 three t (drams ++ [SCore 0 0; SCore 0 1] ++ rest3) s)).
Definition wait_end (l : list (Z * sact)) : sys := match srun 1 three l (sys_start three 0 wait_job) with Some s => s | None => sys_start three 0 wait_job end.
Lemma wait_reach l : sascending 0 l = true -> is_some (srun 1 three l (sys_start three 0 wait_job)) = true -> exists t, sreach three wait_job t (wait_end l).
Proof. intros A I. apply (run_end three wait_job l); auto. Qed.
Definition early : sys := wait_end store_first.
Definition stuck : sys := wait_end loads_first.

(** Nothing moves in a state like the last one. *)
Lemma still c s : s_crash s = None ->
  (forall i, on_node c i -> d_queue (t_dram (s_tile s i)) = [] /\ d_bus (t_dram (s_tile s i)) = [] /\
     r_queue (n_router (s_net s) i) = [] /\ r_sender (n_router (s_net s) i) = SIdle /\ r_client (n_router (s_net s) i) = KIdle /\
     (t_prog (s_tile s i) = [] \/ t_phase (s_tile s i) = PNext /\ exists l, t_prog (s_tile s i) = THalt :: l /\ forallb halted (t_cores (s_tile s i)) = false) /\
     forall p, In p (t_cores (s_tile s i)) -> cp_phase p = PHalted \/ exists id a, cp_phase p = PLoad id a /\ result_of id (d_history (t_dram (s_tile s i))) = None) ->
  forall t, wedged c t s.
Proof.
  intros NC H t t' a s' _ E. exfalso. unfold sstep, sstep_cap in E. rewrite NC in E.
  assert (KN : forall i, known_router (y_net c) i = true -> on_node c i) by (unfold known_router, on_node; lia).
  destruct a as [i a|a|i k|i].
  - destruct (dram_own a) eqn:O; [|discriminate]. destruct (known_router (y_net c) i) eqn:KR; [|discriminate]. cbn [negb orb] in E.
    destruct (H i (KN i KR)) as (Q & B & _). unfold dstep in E. destruct (d_crash _); [discriminate|].
    destruct a; try discriminate O; unfold dc_handle, dc_grant, dc_finish in E; rewrite ?Q, ?B in E; try discriminate.
    destruct (d_running _); discriminate.
  - destruct (net_own a) eqn:O; [|discriminate]. cbn [negb] in E. unfold nstep_cap in E. destruct (n_crash _); [discriminate|].
    destruct (known_router (y_net c) (tile_of a)) eqn:KR; [|discriminate]. cbn [negb] in E.
    destruct (H _ (KN _ KR)) as (_ & _ & Q & S & K & _).
    destruct a; try discriminate O; cbn [tile_of] in Q, S, K; unfold n_added, n_take, n_travel, n_store, n_count, n_done, n_pop, n_poll, n_stopped in E;
      cbv zeta in E; rewrite ?Q, ?S, ?K in E; try discriminate; destruct (r_running _); discriminate.
  - destruct (known_router (y_net c) i) eqn:KR; [|discriminate]. destruct (k <? 0); [discriminate|]. cbn [negb orb] in E.
    destruct (nth_error _ _) as [p|] eqn:P; [|discriminate]. apply nth_error_In in P. destruct (H i (KN i KR)) as (_ & _ & _ & _ & _ & _ & HP).
    unfold core_step_sys in E. destruct (HP p P) as [PH|(id & a & PH & RS)]; rewrite PH, ?RS in E; discriminate.
  - destruct (known_router (y_net c) i) eqn:KR; [|discriminate]. cbn [negb] in E. destruct (H i (KN i KR)) as (_ & _ & _ & _ & _ & HT & _).
    unfold tile_step in E. destruct HT as [P|(PH & l & P & HC)]; rewrite P, ?PH, ?HC in E; discriminate.
Qed.

Definition waits (h : list entry) (p : cproc) : bool :=
  match cp_phase p with PHalted => true | PLoad id _ => negb (is_some (result_of id h)) | _ => false end.
Lemma waiting_cores h l : forallb (waits h) l = true ->
  forall p, In p l -> cp_phase p = PHalted \/ exists id a, cp_phase p = PLoad id a /\ result_of id h = None.
Proof.
  intros F p P. rewrite forallb_forall in F. specialize (F p P). unfold waits in F.
  destruct (cp_phase p) as [|id a|a rows|id|]; try discriminate F; [right|now left].
  exists id, a. split; [reflexivity|]. destruct (result_of id h); [discriminate F|reflexivity].
Qed.
Lemma stuck_wedged t : wedged three t stuck.
Proof.
  apply still; [vm_compute; reflexivity|]. intros i N.
  assert (C : i = 0 \/ i <> 0) by lia. destruct C as [->|C].
  - split; [vm_compute; reflexivity|]. split; [vm_compute; reflexivity|]. split; [vm_compute; reflexivity|]. split; [vm_compute; reflexivity|]. split; [vm_compute; reflexivity|]. split.
    + right. split; [vm_compute; reflexivity|]. exists []. split; vm_compute; reflexivity.
    + apply waiting_cores. vm_compute. reflexivity.
  - apply node_of_three in N as [ -> | [ -> | -> ] ]; [congruence| |];
      (split; [vm_compute; reflexivity|]; split; [vm_compute; reflexivity|]; split; [vm_compute; reflexivity|]; split; [vm_compute; reflexivity|];
       split; [vm_compute; reflexivity|]; split; [left; vm_compute; reflexivity|]; apply waiting_cores; vm_compute; reflexivity).
Qed.

Lemma early_once i : on_node three i -> written_once (d_history (t_dram (s_tile early i))).
Proof.
  intros N. apply nodup_once. apply node_of_three in N as [ -> | [ -> | -> ] ]; vm_compute; repeat constructor; cbn; lia.
Qed.
Lemma stuck_missed : missed_read three stuck.
Proof.
  exists 0. eexists. split; [unfold on_node; cbn; lia|]. split; [vm_compute; left; reflexivity|]. split; [unfold proper; cbn; lia|].
  intros a C. unfold covers in C. cbn in C. assert (a = 4) as -> by lia. vm_compute. reflexivity.
Qed.
Lemma timing_decides : exists c j t A t' B, 0 <= y_size c /\ usable_latencies c /\ all_halt c j /\
    sreach c j t A /\ completed_run c A /\ (forall i, on_node c i -> written_once (d_history (t_dram (s_tile A i)))) /\
    sreach c j t' B /\ wedged c t' B /\ ~ completed_run c B /\ missed_read c B.
Proof.
  destruct (wait_reach store_first) as (t & A); [reflexivity|reflexivity|]. destruct (wait_reach loads_first) as (t' & B); [reflexivity|reflexivity|].
  exists three, wait_job, t, early, t', stuck.
  split; [cbn; lia|]. split; [unfold usable_latencies; cbn; lia|]. split; [intros i _; now left|].
  split; [exact A|]. split; [apply three_completed; reflexivity|]. split; [exact early_once|]. split; [exact B|].
  split; [apply stuck_wedged|]. split; [|exact stuck_missed].
  intros (_ & H). assert (N : on_node three 0) by (unfold on_node; cbn; lia). specialize (H 0 N).
  assert (L : length (t_prog (s_tile stuck 0)) = 1%nat) by (vm_compute; reflexivity). rewrite H in L. discriminate.
Qed.
