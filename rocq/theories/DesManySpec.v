(** Independent specification of the simulation of all nodes (DesManyModel): which states it reaches, and how the part of a
    node compares with the simulation of that node alone (DesModel). *)
From Verif Require Import PyBase MemoryModel CoreModel DramModel RouterModel SystemModel NodeModel DesModel DesSpec DesManyModel.

Notation whole := (@many core cells_valid).
(** The states of the simulation of the jobs [js] of all nodes, started at time [t0]. *)
Inductive many_reach (c : sys_cfg) (js : Z -> job) (t0 : Z) : whole -> Prop :=
| many_reach_first : many_reach c js t0 (many_first c t0 js)
| many_reach_step x x' : many_reach c js t0 x -> many_step (real c) c x = YStep x' -> many_reach c js t0 x'.

(** RAMwich.run returns; it raises an exception. *)
Definition many_returned (c : sys_cfg) (x : whole) : Prop := many_step (real c) c x = YOver.
Definition many_raised (c : sys_cfg) (x : whole) (e : exn) : Prop := many_step (real c) c x = YRaise e.
Definition in_run (c : sys_cfg) (k : Z) : Prop := 0 <= k < w_nodes (y_net c).
Definition node_of (x : whole) (k : Z) : option (dnode core cells_valid) := the_node (v_nodes x) k.

(** The events of node [k], in the order of the queue. *)
Fixpoint events_of (k : Z) (q : list (entry mev)) : list (entry ev) :=
  match q with
  | [] => []
  | (t, p, MOf m e) :: r => if m =? k then (t, p, e) :: events_of k r else events_of k r
  | _ :: r => events_of k r
  end.
Definition waits_to_start (k : Z) (x : whole) : Prop := exists t p, In (t, p, MStart k) (v_queue x).
(** Node [k] is in the state, and has the events, that it has in the state [s] of its own simulation. *)
Definition part_is (x : whole) (k : Z) (s : sim) : Prop :=
  node_of x k = Some (w_node s) /\ w_now s <= v_now x /\ (waits_to_start k x \/ events_of k (v_queue x) = w_queue s).
(** Node.run has ended, and its end has been processed. *)
Definition node_over (x : whole) (k : Z) : Prop := exists n, node_of x k = Some n /\ process_over n = true.
(** The simulation of the node alone comes to its end. *)
Definition returns_alone (c : sys_cfg) (j : job) (t0 : Z) : Prop := exists s, sim_reach c j t0 s /\ returned c s.
(** A node with another count of the monitor, as the node of a simulation. *)
Definition counted (n : dnode core cells_valid) (b : Z) : sim := MkDes 0 [] (MkDNode (z_tiles n) (z_begin n) (z_next n) b (z_monitor n) (z_fin n)).
