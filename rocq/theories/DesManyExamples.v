(** Concrete runs of the simulation of all nodes. *)
From Verif Require Import PyBase MemoryModel CoreModel DramModel RouterModel SystemModel SystemSpec SystemDeadlock SystemExamples NodeModel NodeSpec NodeExamples DesModel DesSpec DesExamples DesManyModel DesManySpec.
From Verif Require SimExamples.

Lemma many_run_reach c js t0 fuel : forall x, many_reach c js t0 x -> many_reach c js t0 (fst (many_run (real c) c fuel x)).
Proof.
  induction fuel as [|f IH]; intros x H; cbn; [assumption|]. destruct (many_step (real c) c x) eqn:E; cbn; try assumption.
  apply IH. eapply many_reach_step; eassumption.
Qed.
Definition many_after (c : sys_cfg) (js : Z -> job) (fuel : nat) : whole := fst (many_run (real c) c fuel (many_first c 0 js)).
Lemma many_after_reach c js fuel : many_reach c js 0 (many_after c js fuel).
Proof. apply many_run_reach. constructor. Qed.
Definition parts (x : whole) := map (fun n => tiles_of (MkDes 0 [] n)) (v_nodes x).

Notation two := SimExamples.two.
Definition pair_jobs : Z -> job := SimExamples.two_jobs [5; 6; 7; 8].
Definition bad_jobs : Z -> job := SimExamples.bad_jobs.
(** Node 0: programs of tiles without a halt instruction, and a core that stores; node 1: the same with halt, or nothing at all. *)
Definition loose : job := MkJob (fun _ => []) (j_cores (pair_jobs 1)) [].
Definition loose_jobs (slow : bool) (m : Z) : job := if m =? 0 then loose else if slow then pair_jobs 1 else MkJob (fun _ => []) (fun _ => []) [].
Lemma loose_differs : exists c j js js', in_run c 0 /\ js 0 = j /\ js' 0 = j /\
  exists x x' n n', many_reach c js 0 x /\ many_returned c x /\ many_reach c js' 0 x' /\ many_returned c x' /\
    node_of x 0 = Some n /\ node_of x' 0 = Some n' /\ tiles_of (MkDes 0 [] n) <> tiles_of (MkDes 0 [] n').
Proof.
  exists two, loose, (loose_jobs true), (loose_jobs false). split; [split; [lia|reflexivity]|]. split; [reflexivity|]. split; [reflexivity|].
  set (x := many_after two (loose_jobs true) 1000). set (x' := many_after two (loose_jobs false) 1000).
  assert (A : option_map (fun n => tiles_of (MkDes 0 [] n)) (node_of x 0) = Some [([0; 0; 0; 0; 0; 0; 0; 0], 0, [], 0); ([0; 0; 0; 0; 9; 0; 0; 0], 0, [16], 4); ([0; 0; 0; 0; 0; 0; 0; 0], 0, [], 0)]) by (vm_compute; reflexivity).
  assert (B : option_map (fun n => tiles_of (MkDes 0 [] n)) (node_of x' 0) = Some [([0; 0; 0; 0; 0; 0; 0; 0], 0, [], 0); ([0; 0; 0; 0; 0; 0; 0; 0], 0, [0], 0); ([0; 0; 0; 0; 0; 0; 0; 0], 0, [], 0)]) by (vm_compute; reflexivity).
  assert (R : many_returned two x) by (vm_compute; reflexivity). assert (R' : many_returned two x') by (vm_compute; reflexivity).
  assert (H : many_reach two (loose_jobs true) 0 x) by apply many_after_reach. assert (H' : many_reach two (loose_jobs false) 0 x') by apply many_after_reach.
  clearbody x x'. destruct (node_of x 0) as [n|] eqn:E; [|discriminate A]. destruct (node_of x' 0) as [n'|] eqn:E'; [|discriminate B]. exists x, x', n, n'.
  repeat (split; [assumption|]). cbn [option_map] in A, B. intros G. rewrite G, B in A. discriminate.
Qed.
(** Node 0 as above; node 1 comes to a standstill. *)
Definition still_jobs (m : Z) : job := if m =? 0 then pair_jobs 0 else hol_job.
