(** Independent specification of the event simulation (DesModel): which states it reaches, and what these have in common
    with the states of a node in which the order of simultaneous events is left open (NodeModel). *)
From Verif Require Import PyBase MemoryModel MvmuModel CoreModel DramModel RouterModel SystemModel SystemSpec NodeModel NodeSpec DesModel.

Notation sim := (@des core cells_valid).
(** The states of the simulation of a job that is started at time [t0]. *)
Inductive sim_reach (c : sys_cfg) (j : job) (t0 : Z) : sim -> Prop :=
| sim_first : sim_reach c j t0 (des_first c t0 j)
| sim_step s s' : sim_reach c j t0 s -> des_step (real c) c s = NStep s' -> sim_reach c j t0 s'.

(** Environment.run has returned; it has raised an exception. *)
Definition returned (c : sys_cfg) (s : sim) : Prop := des_step (real c) c s = NOver.
Definition raised (c : sys_cfg) (s : sim) (e : exn) : Prop := des_step (real c) c s = NRaise e.
Definition crashed (N : node) : Prop := s_crash (nd_sys N) <> None.

(** What can be seen of a tile: memory, registers and units of the cores, statistics of the memory controller, packets to
    be sent and received. *)
Record same_view (i : Z) (x : dtile core cells_valid) (N : node) : Prop := {
  sv_cells : d_mem (t_dram (s_tile (nd_sys N) i)) = y_mem (c_mem (x_ctl x));
  sv_valid : d_valid (t_dram (s_tile (nd_sys N) i)) = y_valid (c_mem (x_ctl x));
  sv_pending : d_pending (t_dram (s_tile (nd_sys N) i)) = c_pending (x_ctl x);
  sv_stat : d_stat (t_dram (s_tile (nd_sys N) i)) = c_stat (x_ctl x);
  sv_cores : map cp_core (t_cores (s_tile (nd_sys N) i)) = map k_core (x_cores x);
  sv_queue : r_queue (n_router (s_net (nd_sys N)) i) = u_queue (x_rt x) }.
Record agrees (c : sys_cfg) (t0 : Z) (s : sim) (N : node) : Prop := {
  ag_start : nd_start N = t0;
  ag_crash : s_crash (nd_sys N) = None;
  ag_busy : nd_busy N = z_busy (w_node s);
  ag_tiles : forall i, on_node c i <-> exists x, the_tile (w_node s) i = Some x;
  ag_view : forall i x, the_tile (w_node s) i = Some x -> same_view i x N }.
(** When the run is over, the programs are finished, and statistics of the routers and cycle counts are the same too. *)
Record ends_alike (c : sys_cfg) (t0 : Z) (s : sim) (N : node) : Prop := {
  ea_agrees : agrees c t0 s N;
  ea_completed : completed_run c (nd_sys N);
  ea_tile : forall i x, the_tile (w_node s) i = Some x ->
    r_stat (n_router (s_net (nd_sys N)) i) = u_stat (x_rt x) /\ nd_tile_cycles N i = x_cycles x /\
    forall src, 0 <= src < w_nodes (y_net c) * w_tiles (y_net c) ->
      r_buffers (n_router (s_net (nd_sys N)) i) src = buffer_of (x_rt x) src;
  ea_core : forall i x k y, the_tile (w_node s) i = Some x -> nth_error (x_cores x) k = Some y -> core_over y = true ->
    nd_core_cycles N i (Z.of_nat k) = k_cycles y }.

(** The delays of an instruction of a core are not negative (visitor.py:214-318); a negative delay of a timeout is an
    exception of simpy itself. *)
Definition delays_of (c : sys_cfg) (o : cop) : Prop :=
  match o with
  | CLoad _ _ _ vec | CStore _ _ _ vec => 0 <= k_data_lat (y_core c) * vec
  | _ => exists t, exec_time (y_core c) o = Ok t /\ 0 <= t
  end.
Definition delays_ok (c : sys_cfg) (j : job) : Prop :=
  0 <= k_fetch_lat (y_core c) /\ 0 <= k_data_lat (y_core c) /\
  forall i, on_node c i -> Forall (fun kp => Forall (delays_of c) (snd kp)) (j_cores j i).
(** No execution of the node raises an exception. *)
Definition never_crashes (c : sys_cfg) (j : job) : Prop := forall t N, nd_reach c j t N -> s_crash (nd_sys N) = None.
(** Latencies of a core. *)
Definition core_delays (c : core_cfg) : Prop := 0 <= k_fetch_lat c /\ 0 <= k_data_lat c /\ 0 <= k_alu_lat c /\ 1 <= k_alus c /\ 0 <= c_adc_lat (k_mv c).
