(** Independent specification: how a simulation ends compared with an execution of the node. *)
From Verif Require Import PyBase MemoryModel CoreModel DramModel DramSpec RouterModel SystemModel SystemSpec NodeModel DesModel DesSpec DesIdleSpec.

(** A read (of a proper range of addresses) waits in a memory controller although all its data is valid. *)
Definition read_left (s : sim) : Prop :=
  exists i T r, the_tile (w_node s) i = Some T /\ In r (c_pending (x_ctl T)) /\ proper r /\
    forall a, covers r a -> znth false (y_valid (c_mem (x_ctl T))) a = true.
(** Memories and cores at the end are those of [A]. *)
Definition results_of (c : sys_cfg) (A : sys) (s : sim) : Prop :=
  forall i, on_node c i -> exists T, the_tile (w_node s) i = Some T /\
    cells (y_mem (c_mem (x_ctl T))) = cells (d_mem (t_dram (s_tile A i))) /\ y_valid (c_mem (x_ctl T)) = d_valid (t_dram (s_tile A i)) /\
    map k_core (x_cores T) = map cp_core (t_cores (s_tile A i)).
