(** The numbers that a simulation reports for the example mlp_l4_mnist. *)
From Verif Require Import PyBase DramModel RouterModel SystemModel DesModel.
Open Scope Z_scope.

(** Time, busy cycles of the network; of each tile the cycles, the statistics of the memory controller and of the router, and the
    cycles of the cores. *)
Definition numbers {K M} (s : @des K M) : Z * Z * list (Z * dstats * rstats * list Z) :=
  (w_now s, z_busy (w_node s), map (fun t => (x_cycles t, c_stat (x_ctl t), u_stat (x_rt t), map k_cycles (x_cores t))) (z_tiles (w_node s))).
(** The numbers of the shipped example. *)
Definition mlp_numbers : Z * Z * list (Z * dstats * rstats * list Z) :=
  (86797, 11020, [
    (4057, MkDStats 49 0 49 2450 400 4057 2450, MkRStats 49 0 49 49 0 0, [3; 3; 3; 3; 3; 3; 3; 3]);
    (86797, MkDStats 0 1 1 50 50 86797 50, MkRStats 0 0 0 0 1 1, [3; 3; 3; 3; 3; 3; 3; 3]);
    (57212, MkDStats 446 153 599 296680 34901 57212 29950, MkRStats 56 0 56 56 49 49, [32876; 43663; 40570; 51557; 44985; 52779; 49285; 33276]);
    (84004, MkDStats 473 264 737 506064 68053 84004 36850, MkRStats 63 0 63 63 105 105, [35174; 66857; 74151; 65257; 69930; 71868; 77180; 83357]);
    (86747, MkDStats 15 15 30 86054 79984 86747 1500, MkRStats 1 0 1 1 14 14, [86667; 3; 3; 3; 3; 3; 3; 3])]).

