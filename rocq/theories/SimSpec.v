(** Independent specification of the simulation of several nodes. *)
From Verif Require Import PyBase MemoryModel CoreModel DramModel RouterModel SystemModel SystemSpec NodeModel NodeSpec SimModel.

(** The numbers of the nodes. *)
Definition in_sim (c : sys_cfg) (m : Z) : Prop := 0 <= m < w_nodes (y_net c).

(** Everything that can happen in a simulation that starts at time [t0]. *)
Inductive sim_reach (c : sys_cfg) (js : Z -> job) (t0 : Z) : Z -> nodes -> Prop :=
| sim_start_ : sim_reach c js t0 t0 (sim_first c t0 js)
| sim_step_ t t' a x x' : sim_reach c js t0 t x -> t <= t' -> sim_step c t' a x = Some x' -> sim_reach c js t0 t' x'.
Fixpoint sim_run (c : sys_cfg) (l : list (Z * (Z * ndact))) (x : nodes) : option nodes :=
  match l with
  | [] => Some x
  | (t, a) :: l' => match sim_step c t a x with Some x' => sim_run c l' x' | None => None end
  end.
Fixpoint in_order {A} (t : Z) (l : list (Z * A)) : bool :=
  match l with [] => true | (t', _) :: l' => (t <=? t') && in_order t' l' end.

(** Executions of a single node from time [t0] on. *)
Inductive node_from (c : sys_cfg) (j : job) (t0 : Z) : Z -> node -> Prop :=
| nf_start : node_from c j t0 t0 (node_first c t0 j)
| nf_step t t' a n n' : node_from c j t0 t n -> t <= t' -> node_step c t' a n = Some n' -> node_from c j t0 t' n'.

(** Two nodes that agree in everything but what the monitor counted. *)
Definition same_but_monitor (n n' : node) : Prop :=
  nd_sys n = nd_sys n' /\ nd_start n = nd_start n' /\ nd_tile_cycles n = nd_tile_cycles n' /\ nd_core_cycles n = nd_core_cycles n'.

(** The simulation is over: no exception, and all programs completed. *)
Definition completed_sim (c : sys_cfg) (x : nodes) : Prop := forall m, in_sim c m -> completed_run c (nd_sys (x m)).
Definition some_raised (c : sys_cfg) (x : nodes) : Prop := exists m e, in_sim c m /\ s_crash (nd_sys (x m)) = Some e.

(** The cells of a memory are all valid and zero. *)
Definition zeroed (size : Z) (d : dram) : Prop :=
  zlen (cells (d_mem d)) = size /\ zlen (d_valid d) = size /\
  forall a, 0 <= a < size -> znth 0 (cells (d_mem d)) a = 0 /\ znth false (d_valid d) a = true.

(** Several runs of a simulator one after the other, with a reset before each but the first, as in
    tests/test_mlp_on_mnist_multi.py:35-42; [js act] are the jobs for an activation. *)
Inductive batch (c : sys_cfg) (js : list Z -> Z -> job) : list (list Z) -> nodes -> Prop :=
| ba_first act t0 l x :
    in_order t0 l = true -> sim_run c l (sim_first c t0 (js act)) = Some x -> completed_sim c x -> batch c js [act] x
| ba_next acts x x0 act t0 l x' :
    batch c js acts x -> sim_reset c x = (Ok tt, x0) ->
    in_order t0 l = true -> sim_run c l (sim_again c t0 (js act) x0) = Some x' -> completed_sim c x' -> batch c js (acts ++ [act]) x'.

(** Two nodes in the same state (up to the SRAM counters) with the same cycle counts of finished tiles and cores. *)
Record like_fresh (a b : node) : Prop := {
  lf_state : same_state (nd_sys a) (nd_sys b); lf_start : nd_start a = nd_start b; lf_next : nd_next a = nd_next b;
  lf_tile : forall i, t_prog (s_tile (nd_sys b) i) = [] -> nd_tile_cycles a i = nd_tile_cycles b i;
  lf_core : forall i k, 0 <= k -> core_halted (nd_sys b) i k = true -> nd_core_cycles a i k = nd_core_cycles b i k }.
