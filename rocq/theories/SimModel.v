(** ramwich.py: a simulation of all nodes of an architecture, RAMwich.run and RAMwich.reset. *)
From Verif Require Import PyBase MemoryModel CoreModel DramModel RouterModel SystemModel NodeModel LoaderModel.

(** ** What a run starts with *)
(** The activation of RAMwich.run: ramwich.py:184-190; without one, zeros for the whole memory (numpy.zeros raises a ValueError
    for a negative size). *)
Definition run_vector (size : Z) (act : option vector) : res vector :=
  match act with
  | Some v => Ok v
  | None => if size <? 0 then Raise ValueError else Ok (VInts (repeat 0 (Z.to_nat size)))
  end.
(** The jobs of the nodes after load_activation: ramwich.py:166-190.  An activation that is too long is not loaded; otherwise
    node 0 and its tile 0 are looked up (ramwich.py:176-177, 45-47, node.py:27-29), which fails if there is none.  [frac] is
    data_config.activation_frac_bits. *)
Definition sim_jobs (c : sys_cfg) (frac : Z) (a : arch) (act : option vector) : res (Z -> job) :=
  match run_vector (y_size c) act with
  | Raise e => Raise e
  | Ok v =>
      if y_size c <? vlen v then Ok (fun m => job_of a m [])
      else if (w_nodes (y_net c) <=? 0) || (w_tiles (y_net c) <=? 0) then Raise IndexError
      else Ok (fun m => job_of a m (fixed_activation frac v))
  end.

(** ** A run *)
(** All tiles of a node have completed their programs: the end of Node.run, node.py:42-43. *)
Definition node_done (c : sys_cfg) (n : node) : bool :=
  forallb (fun i => is_nil (t_prog (s_tile (nd_sys n) i))) (zrange (w_tiles (y_net c))).

(** What goes on in a node after that, while other nodes are still running: the monitor has been stopped
    (blocks/noc.py:70-77), so it neither counts nor limits the times of what remains of the other processes. *)
Definition late_step (c : sys_cfg) (now : Z) (a : ndact) (n : node) : option node :=
  match a with
  | NdMonitor => None
  | NdSys _ =>
      match node_step c now a (MkNode (nd_sys n) (nd_start n) now (nd_busy n) (nd_tile_cycles n) (nd_core_cycles n)) with
      | None => None
      | Some n' => Some (MkNode (nd_sys n') (nd_start n') (nd_next n) (nd_busy n') (nd_tile_cycles n') (nd_core_cycles n'))
      end
  end.
Definition sim_node_step (c : sys_cfg) (now : Z) (a : ndact) (n : node) : option node :=
  if node_done c n then late_step c now a n else node_step c now a n.

(** The nodes of RAMwich.nodes, by number. *)
Definition nodes := Z -> node.
Definition node_numbers (c : sys_cfg) : list Z := zrange (w_nodes (y_net c)).
(** An exception in a process of any node is raised by Environment.run and ends the simulation. *)
Definition sim_raised (c : sys_cfg) (x : nodes) : option exn :=
  fold_right (fun m r => match s_crash (nd_sys (x m)) with Some e => Some e | None => r end) None (node_numbers c).
(** One action of one node at a given time of the common clock: ramwich.py:193-199.  Simplification: the simulation ends as soon
    as all nodes have completed; here what remains of their processes may still go on. *)
Definition sim_step (c : sys_cfg) (now : Z) (a : Z * ndact) (x : nodes) : option nodes :=
  match sim_raised c x with
  | Some _ => None
  | None =>
      if (0 <=? fst a) && (fst a <? w_nodes (y_net c))
      then match sim_node_step c now (snd a) (x (fst a)) with Some n => Some (set_fun x (fst a) n) | None => None end
      else None
  end.
(** RAMwich.run returns: ramwich.py:199. *)
Definition sim_done (c : sys_cfg) (x : nodes) : bool := forallb (fun m => node_done c (x m)) (node_numbers c).

(** The first run starts: ramwich.py:193-195. *)
Definition sim_first (c : sys_cfg) (now : Z) (js : Z -> job) : nodes := fun m => node_first c now (js m).

(** ** Reset and the next run *)
(** RAMwich.reset: ramwich.py:208-212; an exception ends the loop. *)
Fixpoint reset_nodes (c : sys_cfg) (ids : list Z) (x : nodes) : res unit * nodes :=
  match ids with
  | [] => (Ok tt, x)
  | m :: rest =>
      let '(r, n) := node_reset c (x m) in
      match r with
      | Raise e => (Raise e, set_fun x m n)
      | Ok _ => reset_nodes c rest (set_fun x m n)
      end
  end.
Definition sim_reset (c : sys_cfg) (x : nodes) : res unit * nodes := reset_nodes c (node_numbers c) x.
(** The next RAMwich.run, in the new environment of RAMwich.reset. *)
Definition sim_again (c : sys_cfg) (now : Z) (js : Z -> job) (x : nodes) : nodes := fun m => node_again c now (js m) (x m).
