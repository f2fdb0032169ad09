(** Independent specification: what a node has to show when its run is over. *)
From Verif Require Import PyBase MemoryModel CoreModel DramModel RouterModel SystemModel NodeModel DesModel DesSpec.

(** Of a tile: the memory with its access counts, valid flags, reads left waiting, statistics of the memory controller, cores with
    their registers, units and statistics, cycles of the cores, packets left to be sent, statistics of the router, packets left in
    the receive buffers, cycles of the tile. *)
Definition tile_result (c : sys_cfg) (T : dtile core cells_valid) :=
  (y_mem (c_mem (x_ctl T)), y_valid (c_mem (x_ctl T)), c_pending (x_ctl T), c_stat (x_ctl T), map k_core (x_cores T), map k_cycles (x_cores T),
   (u_queue (x_rt T), u_stat (x_rt T), map (buffer_of (x_rt T)) (zrange (w_nodes (y_net c) * w_tiles (y_net c)))), x_cycles T).
(** Of a node: that of its tiles, and the busy cycles that its monitor has counted. *)
Definition node_result (c : sys_cfg) (n : dnode core cells_valid) := (z_busy n, map (tile_result c) (z_tiles n)).
(** The simulation of a job alone ends at time [t] with the result [r]. *)
Definition ends_with (c : sys_cfg) (j : job) (t0 t : Z) r : Prop := exists s, sim_reach c j t0 s /\ returned c s /\ w_now s = t /\ node_result c (w_node s) = r.
