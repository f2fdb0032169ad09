(** Properties C73, C74 and C75: simulations of several nodes. *)
From Verif Require Import PyBase MemoryModel CoreModel DramModel DramSpec RouterModel SystemModel SystemSpec NodeModel NodeSpec LoaderModel
  SimModel SimSpec SimProofs SimReset SimAct SimClaims SimExamples.

(** ** C73: the nodes of a simulation do not influence each other *)
(** What a node of a simulation does is an execution of that node alone, with the same states and cycle counts; the busy cycles of its
    network differ at most by those that the monitor would have counted after the end, of which there are none if all its tiles halt. *)
Theorem C73_projection :
  forall c js t0 t x m, sim_reach c js t0 t x ->
    exists t' n, t' <= t /\ node_from c (js m) t0 t' n /\ same_but_monitor (x m) n /\ nd_busy (x m) <= nd_busy n /\
      ((exists i, on_node c i /\ t_prog (s_tile (nd_sys (x m)) i) <> []) -> x m = n) /\
      (0 <= y_size c -> all_halt c (js m) -> nd_busy (x m) = nd_busy n).
Proof. exact sim_projection. Qed.
Print Assumptions C73_projection.
(** Whatever a node can do alone it can do in every simulation, and any combination of executions without exception happens together. *)
Theorem C73_alone :
  forall c js t0 m t n, in_sim c m -> node_from c (js m) t0 t n -> exists t' x, sim_reach c js t0 t' x /\ same_but_monitor (x m) n.
Proof. exact sim_alone. Qed.
Print Assumptions C73_alone.
Theorem C73_together :
  forall c js t0 ns, (forall m, in_sim c m -> exists t, node_from c (js m) t0 t (ns m) /\ s_crash (nd_sys (ns m)) = None) ->
    exists t x, sim_reach c js t0 t x /\ forall m, in_sim c m -> same_but_monitor (x m) (ns m) /\ (node_done c (ns m) = false -> x m = ns m).
Proof. exact together. Qed.
Print Assumptions C73_together.
(** A simulation can complete exactly if each node can. *)
Theorem C73_completes :
  forall c js t0,
    (exists t x, sim_reach c js t0 t x /\ completed_sim c x) <->
    (forall m, in_sim c m -> exists t n, node_from c (js m) t0 t n /\ completed_run c (nd_sys n)).
Proof. exact completes_together. Qed.
Print Assumptions C73_completes.
(** The condition that RAMwich.run waits for holds, without an exception, exactly when the runs of all nodes are complete. *)
Theorem C73_done : forall c x, sim_done c x = true /\ sim_raised c x = None <-> completed_sim c x.
Proof. exact sim_done_all. Qed.
Print Assumptions C73_done.
(** The one exception: an exception in one node ends the simulation of all; it is one that this node raises alone. *)
Theorem C73_raise_stops : forall c x now a, some_raised c x -> sim_step c now a x = None.
Proof. exact raise_stops. Qed.
Print Assumptions C73_raise_stops.
Theorem C73_raise_single :
  forall c js t0 t x m e, sim_reach c js t0 t x -> s_crash (nd_sys (x m)) = Some e -> exists t' n, node_from c (js m) t0 t' n /\ s_crash (nd_sys n) = Some e.
Proof. exact raise_single. Qed.
Print Assumptions C73_raise_single.
(** If one complete execution writes every cell once, then under all latencies, starting times and orders of all nodes no exception
    is raised and every complete execution ends with the same memories, registers and packets. *)
Theorem C73_timing :
  forall c c' js t0 t A t0' t' B, 0 <= y_size c -> usable_latencies c -> usable_latencies c' -> same_shape c c' ->
    (forall m, in_sim c m -> all_halt c (js m)) -> sim_reach c js t0 t A -> completed_sim c A ->
    (forall m i, in_sim c m -> on_node c i -> written_once (d_history (t_dram (s_tile (nd_sys (A m)) i)))) ->
    sim_reach c' js t0' t' B ->
    ~ some_raised c' B /\
    (completed_sim c' B -> forall m i, in_sim c m -> on_node c i ->
       cells (d_mem (t_dram (s_tile (nd_sys (B m)) i))) = cells (d_mem (t_dram (s_tile (nd_sys (A m)) i))) /\
       map cp_core (t_cores (s_tile (nd_sys (B m)) i)) = map cp_core (t_cores (s_tile (nd_sys (A m)) i)) /\
       t_log (s_tile (nd_sys (B m)) i) = t_log (s_tile (nd_sys (A m)) i)).
Proof. exact sim_timing. Qed.
Print Assumptions C73_timing.

Example C73_case_reach : exists t, sim_reach two (two_jobs [5; 6; 7; 8]) 0 t two_end. Proof. exact two_reached. Qed.
Example C73_case_completed : completed_sim two two_end. Proof. exact two_completed. Qed.
Example C73_case_other : (exists t, sim_reach two (two_jobs [5; 6; 7; 8]) 0 t two_rev_end) /\ completed_sim two two_rev_end.
Proof. exact (conj two_rev_reached two_rev_completed). Qed.
Example C73_case_memories : map (memories two_end) [0; 1] =
  [[[5; 6; 7; 8; 77; 0; 0; 0]; [0; 0; 5; 6; 7; 8; 0; 0]; [0; 0; 0; 0; 0; 0; 0; 0]];
   [[0; 0; 0; 0; 0; 0; 0; 0]; [0; 0; 0; 0; 9; 0; 0; 0]; [0; 0; 0; 0; 0; 0; 0; 0]]] /\ map (memories two_rev_end) [0; 1] = map (memories two_end) [0; 1].
Proof. split; vm_compute; reflexivity. Qed.
(** Both nodes act, interleaved. *)
Example C73_case_interleaved : existsb (fun x => fst (snd x) =? 0) two_run && existsb (fun x => fst (snd x) =? 1) two_run &&
  existsb (fun x => fst (snd x) =? 0) (skipn 40 two_run) && (40 <? zlen two_run) = true.
Proof. vm_compute. reflexivity. Qed.
(** Node 1 loads outside the memory: node 0 stops in the middle. *)
Example C73_case_raise : s_crash (nd_sys (bad_end 1)) = Some IndexError /\ s_crash (nd_sys (bad_end 0)) = None /\
  nth 1 (memories bad_end 0) [] = [0; 0; 0; 0; 0; 0; 0; 0].
Proof. repeat split; vm_compute; reflexivity. Qed.

(** ** C74: reset and repeated runs of a whole simulation *)
(** If all matrix units have RRAM crossbars, reset resets every node. *)
Theorem C74_reset_all :
  forall c js t0 t x, sim_reach c js t0 t x -> (forall m, in_sim c m -> fresh_job c (js m)) -> (forall m, in_sim c m -> units_have_rram c (js m)) ->
    exists x', sim_reset c x = (Ok tt, x') /\ forall m, in_sim c m -> node_reset c (x m) = (Ok tt, x' m).
Proof. exact sim_reset_all. Qed.
Print Assumptions C74_reset_all.
(** Otherwise it fails at the first node with a unit without, and the nodes after that one are left as they were. *)
Theorem C74_reset_raises :
  forall c js t0 t x, sim_reach c js t0 t x -> (forall m, in_sim c m -> fresh_job c (js m)) -> (exists m, in_sim c m /\ ~ units_have_rram c (js m)) ->
    exists f x', in_sim c f /\ ~ units_have_rram c (js f) /\ (forall m, 0 <= m < f -> units_have_rram c (js m)) /\
      sim_reset c x = (Raise AttributeError, x') /\ (forall m, 0 <= m < f -> node_reset c (x m) = (Ok tt, x' m)) /\ (forall m, f < m -> x' m = x m).
Proof. exact sim_reset_raises. Qed.
Print Assumptions C74_reset_raises.
(** After a complete run and a reset, the next run, with the same or another activation, does step by step what a new simulator
    with that activation does. *)
Theorem C74_second_run :
  forall c js js' t0 t x, 0 <= y_size c -> (forall m, in_sim c m -> fresh_job c (js m)) -> (forall m, in_sim c m -> units_have_rram c (js m)) ->
    (forall m, in_sim c m -> all_halt c (js m)) -> (forall m, in_sim c m -> same_programs (js m) (js' m)) -> sim_reach c js t0 t x -> completed_sim c x ->
    exists x0, sim_reset c x = (Ok tt, x0) /\
      forall now l, match sim_run c l (sim_again c now js' x0), sim_run c l (sim_first c now js') with
                    | Some a, Some b => forall m, in_sim c m -> same_node (x m) (a m) (b m)
                    | None, None => True | _, _ => False end.
Proof. exact sim_second_run. Qed.
Print Assumptions C74_second_run.
(** A simulator that is used for any number of activations one after the other ends, after each of them, like a new simulator
    that is used for this activation only, and can be reset again. *)
Theorem C74_batch :
  forall c js acts act x, 0 <= y_size c -> (forall m a a', in_sim c m -> same_programs (js a m) (js a' m)) ->
    (forall m a, in_sim c m -> fresh_job c (js a m)) -> (forall m a, in_sim c m -> units_have_rram c (js a m)) -> (forall m a, in_sim c m -> all_halt c (js a m)) ->
    batch c js (acts ++ [act]) x ->
    (exists t0 t y, sim_reach c (js act) t0 t y /\ completed_sim c y /\ forall m, in_sim c m -> like_fresh (x m) (y m)) /\
    (exists x0, sim_reset c x = (Ok tt, x0)).
Proof. exact batch_like_fresh. Qed.
Print Assumptions C74_batch.

Example C74_case_hyps : forall act m, in_sim two m -> fresh_job two (two_jobs act m) /\ units_have_rram two (two_jobs act m) /\ all_halt two (two_jobs act m).
Proof. intros act m I. exact (conj (two_fresh act m I) (conj (two_rram act m) (two_halts act m I))). Qed.
Example C74_case_batch : batch two two_jobs [[5; 6; 7; 8]; [1; 2; 3; 4]] two_again. Proof. exact two_batch. Qed.
Example C74_case_memories : map (memories two_again) [0; 1] =
  [[[1; 2; 3; 4; 77; 0; 0; 0]; [0; 0; 1; 2; 3; 4; 0; 0]; [0; 0; 0; 0; 0; 0; 0; 0]];
   [[0; 0; 0; 0; 0; 0; 0; 0]; [0; 0; 0; 0; 9; 0; 0; 0]; [0; 0; 0; 0; 0; 0; 0; 0]]] /\
  map (memories two_reset) [0; 1] = repeat (repeat (repeat 0 8) 3) 2.
Proof. split; vm_compute; reflexivity. Qed.
Example C74_case_digital : let x := digital_three_end in let r := sim_reset digital_three x in
  sim_done digital_three x = true /\ fst r = Raise AttributeError /\
  map (fun m => nth 0 (nth 0 (memories x m) []) 0) [0; 1; 2] = [1; 0; 0] /\ map (fun m => nth 4 (nth 1 (memories x m) []) 0) [0; 1; 2] = [0; 0; 9] /\
  map (fun m => nth 0 (nth 0 (memories (snd r) m) []) 0) [0; 1; 2] = [0; 0; 0] /\ map (fun m => nth 4 (nth 1 (memories (snd r) m) []) 0) [0; 1; 2] = [0; 0; 9].
Proof. repeat split; vm_compute; reflexivity. Qed.

(** ** C75: the activation of a run, and a run without one *)
(** RAMwich.run starts unless there is no node or no tile to load the activation into (IndexError), or there is no activation and
    the memory has a negative size (ValueError); nodes other than the first never get anything. *)
Theorem C75_raises :
  forall c frac a act e, sim_jobs c frac a act = Raise e <->
    act = None /\ y_size c < 0 /\ e = ValueError \/
    (match act with None => 0 <= y_size c | Some v => vlen v <= y_size c end) /\ (w_nodes (y_net c) <= 0 \/ w_tiles (y_net c) <= 0) /\ e = IndexError.
Proof. exact jobs_raise. Qed.
Print Assumptions C75_raises.
Theorem C75_first_node_only : forall c frac a act js m, sim_jobs c frac a act = Ok js -> m <> 0 -> js m = job_of a m [].
Proof. exact jobs_other. Qed.
Print Assumptions C75_first_node_only.
(** Without an activation every cell of tile 0 of node 0 is zero and valid at the start, and no read there ever waits: it does not
    matter whether what it reads has been stored. *)
Theorem C75_dummy :
  forall c frac a js, sim_jobs c frac a None = Ok js -> forall t0,
    zeroed (y_size c) (t_dram (s_tile (nd_sys (sim_first c t0 js 0)) 0)) /\
    (forall t x, sim_reach c js t0 t x -> d_pending (t_dram (s_tile (nd_sys (x 0)) 0)) = [] /\ Forall (eq true) (d_valid (t_dram (s_tile (nd_sys (x 0)) 0)))).
Proof. exact dummy_run. Qed.
Print Assumptions C75_dummy.
(** The same for every activation that fills the memory. *)
Theorem C75_never_waits :
  forall c js t0 t x, 0 <= y_size c -> zlen (j_activation (js 0)) = y_size c -> sim_reach c js t0 t x ->
    d_pending (t_dram (s_tile (nd_sys (x 0)) 0)) = [] /\ Forall (eq true) (d_valid (t_dram (s_tile (nd_sys (x 0)) 0))).
Proof. exact never_waits. Qed.
Print Assumptions C75_never_waits.
(** So the result of a run without activation can depend on timing although the program stores every cell once. *)
Theorem C75_refuted_timing :
  exists c a js t A t' B, 0 <= y_size c /\ usable_latencies c /\ sim_jobs c 0 a None = Ok js /\ (forall m, in_sim c m -> all_halt c (js m)) /\
    sim_reach c js 0 t A /\ completed_sim c A /\ sim_reach c js 0 t' B /\ completed_sim c B /\
    cells (d_mem (t_dram (s_tile (nd_sys (A 0)) 0))) <> cells (d_mem (t_dram (s_tile (nd_sys (B 0)) 0))) /\
    (exists js0 t0 Z0, sim_jobs c 0 a (Some (VInts [])) = Ok js0 /\ sim_reach c js0 0 t0 Z0 /\ completed_sim c Z0 /\
       forall i, on_node c i -> written_once (d_history (t_dram (s_tile (nd_sys (Z0 0)) i)))).
Proof. exact dummy_races. Qed.
Print Assumptions C75_refuted_timing.

Example C75_case_memories :
  map (fun l => cells (d_mem (t_dram (s_tile (nd_sys (dummy_end l None 0)) 0)))) [dummy_one; dummy_two] = [[0; 0; 0; 0; 77; 77; 0; 0]; [0; 0; 0; 0; 77; 0; 0; 0]].
Proof. vm_compute. reflexivity. Qed.
(** With an empty activation the core waits in the second schedule. *)
Example C75_case_empty :
  cells (d_mem (t_dram (s_tile (nd_sys (dummy_end empty_one (Some (VInts [])) 0)) 0))) = [0; 0; 0; 0; 77; 77; 0; 0].
Proof. vm_compute. reflexivity. Qed.
Example C75_case_raises :
  sim_jobs (MkSysCfg (MkNetCfg 1 0 3 8 2) (y_core one) 1 8 2) 0 [] (Some (VInts [1])) = Raise IndexError /\
  sim_jobs (MkSysCfg (MkNetCfg 0 1 3 8 2) (y_core one) 1 8 2) 0 [] None = Raise IndexError /\
  sim_jobs (MkSysCfg (MkNetCfg 1 1 3 8 2) (y_core one) 1 (-1) 2) 0 [] None = Raise ValueError.
Proof. repeat split; vm_compute; reflexivity. Qed.
(** Nine values for a memory of eight are not loaded. *)
Example C75_case_long : match sim_jobs one 0 dummy_arch (Some (VInts (repeat 1 9))) with Ok js => j_activation (js 0) = [] | Raise _ => False end.
Proof. vm_compute. reflexivity. Qed.
