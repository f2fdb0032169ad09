(** Concrete runs of the event simulation. *)
From Verif Require Import PyBase MemoryModel CoreModel DramModel RouterModel SystemModel SystemSpec SystemExamples NodeModel NodeSpec NodeExamples DesModel DesSpec.

Lemma run_reach c j t0 fuel : forall s, sim_reach c j t0 s -> sim_reach c j t0 (fst (des_run (real c) c fuel s)).
Proof.
  induction fuel as [|f IH]; intros s H; cbn; [assumption|]. destruct (des_step (real c) c s) eqn:E; cbn; try assumption.
  apply IH. eapply sim_step; eassumption.
Qed.
Definition sim_after (c : sys_cfg) (j : job) (fuel : nat) : sim := fst (des_run (real c) c fuel (des_first c 0 j)).
Lemma after_reach c j fuel : sim_reach c j 0 (sim_after c j fuel).
Proof. apply run_reach. constructor. Qed.

(** Cells, cycles of the tile and of the cores, and statistics of the memory controller. *)
Definition tiles_of (s : sim) : list (list Z * Z * list Z * Z) :=
  map (fun x => (cells (y_mem (c_mem (x_ctl x))), x_cycles x, map k_cycles (x_cores x), total_wait_time (c_stat (x_ctl x)))) (z_tiles (w_node s)).
Definition status (c : sys_cfg) (s : sim) : option (res unit) :=
  match des_step (real c) c s with NOver => Some (Ok tt) | NRaise e => Some (Raise e) | _ => None end.

(** A tile that sends to a tile that does not exist. *)
Definition lost_job : job := MkJob (fun i => if i =? 0 then [TSend 0 7 2 2; THalt] else [THalt]) (fun _ => []) [5; 6; 7; 8].
Lemma lost_delays : delays_ok three lost_job.
Proof. split; [cbn; lia|]. split; [cbn; lia|]. intros i _. constructor. Qed.
