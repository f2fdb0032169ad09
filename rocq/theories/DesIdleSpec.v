(** Independent specification: a simulation in which nothing happens any more. *)
From Verif Require Import PyBase CoreModel DramModel RouterModel SystemModel DesModel DesSpec.

(** Only the monitor of the node (node.py:37-40, 44-54) and the polling of send queues that hold a packet
    (blocks/router.py:114-121) are left in the queue, and not all tiles have ended. *)
Definition only_ticks (s : sim) : Prop :=
  z_fin (w_node s) = FRunning /\
  forall x, In x (w_queue s) ->
    match e_ev x with
    | VMonitor => True
    | VPoll i | VPollTime i => exists T, the_tile (w_node s) i = Some T /\ u_queue (x_rt T) <> []
    | _ => False
    end.
(** The same memories, routers, cores and programs left. *)
Definition same_work (s s' : sim) : Prop :=
  Forall2 (fun T T' => x_ctl T' = x_ctl T /\ x_rt T' = x_rt T /\ x_cores T' = x_cores T /\ x_prog T' = x_prog T /\ x_cycles T' = x_cycles T /\ x_ended T' = x_ended T)
    (z_tiles (w_node s)) (z_tiles (w_node s')).
(** The simulation makes [n] steps from [s] and is then in [s']. *)
Definition goes_on (c : sys_cfg) (n : nat) (s s' : sim) : Prop := des_run (real c) c n s = (s', NStep s').
