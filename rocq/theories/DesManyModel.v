(** The simulation of all nodes as simpy runs it: RAMwich.run, ramwich.py:181-204, and Node.run, node.py:31-45, with one
    event queue for the processes of all nodes (DesModel has those of one node, and says what simpy does). *)
From Verif Require Import PyBase CoreModel DramModel RouterModel SystemModel DesModel.

(** The start of the process of a node (ramwich.py:195); an event of a process of a node; the condition of line 199. *)
Inductive mev := MStart (k : Z) | MOf (k : Z) (e : ev) | MAll.

Section Many.
  Context {K M : Type}.
  Variable P : machine K M.
  Variable c : sys_cfg.
  Notation dtile := (dtile K M). Notation dnode := (dnode K M).

  Definition the_node (l : list dnode) (k : Z) : option dnode := if k <? 0 then None else nth_error l (Z.to_nat k).
  Definition put_node (l : list dnode) (k : Z) (n : dnode) : list dnode := upd l (Z.to_nat k) n.
  Definition tag (k : Z) (new : sched) : list (Z * prio * mev) := map (fun z => (fst (fst z), snd (fst z), MOf k (snd z))) new.

  (** Node.run up to its yield: node.py:35-42. *)
  Definition node_events (tiles : list dtile) : sched :=
    start VMonitor :: map (fun i => start (VTile (Z.of_nat i))) (seq 0 (length tiles)) ++ (match tiles with [] => [soon VAllTiles] | _ => [] end).
  Definition node_start (now : Z) (n : dnode) : dnode := MkDNode (z_tiles n) now now 0 true FRunning.
  (** The end of Node.run has been processed. *)
  Definition process_over (n : dnode) : bool := match z_fin n with FCond | FEnd => true | _ => false end.

  (** A simulation: the current time, the queue, the nodes, and whether Environment.run has returned. *)
  Record many := MkMany { v_now : Z; v_queue : list (entry mev); v_nodes : list dnode; v_over : bool }.
  Inductive mres := MGo (l : list dnode) (new : list (Z * prio * mev)) (over : bool) | MRaise (e : exn) | MStuck.
  Definition fire_many (now : Z) (e : mev) (l : list dnode) : mres :=
    match e with
    | MAll => MGo l [] true
    | MStart k =>
        match the_node l k with
        | None => MStuck
        | Some n => MGo (put_node l k (node_start now n)) (tag k (node_events (z_tiles n))) false
        end
    | MOf k VNodeEnd =>
        (* The end of the process of a node: the condition succeeds with the last one. *)
        match the_node l k with
        | None => MStuck
        | Some n =>
            match z_fin n with
            | FNode =>
                let l' := put_node l k (set_fin n FCond) in
                MGo l' (if forallb process_over l' then [(0, Normal, MAll)] else []) false
            | _ => MStuck
            end
        end
    | MOf k e =>
        match the_node l k with
        | None => MStuck
        | Some n =>
            match fire P c now e n with
            | DGo n' new => MGo (put_node l k n') (tag k new) false
            | DRaise x => MRaise x
            | DStuck => MStuck
            end
        end
    end.
  Inductive mnext := YStep (s : many) | YRaise (e : exn) | YStuck | YEmpty | YOver.
  Definition many_step (s : many) : mnext :=
    if v_over s then YOver
    else match v_queue s with
    | [] => YEmpty
    | x :: q =>
        match fire_many (e_time x) (e_ev x) (v_nodes s) with
        | MGo l new o => YStep (MkMany (e_time x) (schedule (e_time x) new q) l o)
        | MRaise e => YRaise e
        | MStuck => YStuck
        end
    end.
  Fixpoint many_run (fuel : nat) (s : many) : many * mnext :=
    match fuel with
    | O => (s, YStep s)
    | S f => match many_step s with YStep s' => many_run f s' | r => (s, r) end
    end.

  (** ramwich.py:192-201: without nodes nothing is run. *)
  Definition many_begin (now : Z) (nodes : list (list dtile)) : many :=
    MkMany now (schedule now (map (fun k => (0, Urgent, MStart (Z.of_nat k))) (seq 0 (length nodes))) [])
      (map (fun tiles => MkDNode tiles now now 0 true FRunning) nodes) (match nodes with [] => true | _ => false end).
End Many.
Arguments MkMany {K M}. Arguments v_now {K M}. Arguments v_queue {K M}. Arguments v_nodes {K M}. Arguments v_over {K M}.
Arguments YStep {K M}. Arguments YRaise {K M}. Arguments YStuck {K M}. Arguments YEmpty {K M}. Arguments YOver {K M}.
Arguments MGo {K M}. Arguments MRaise {K M}. Arguments MStuck {K M}.

(** Node.__init__, the loaders and RAMwich.load_activation, for all nodes: as in DesModel and SimModel. *)
Definition many_first (c : sys_cfg) (now : Z) (js : Z -> job) : many :=
  many_begin now (map (fun m => map (fun i => tile_new (cells_new c (j_activation (js m)) i) (j_cores (js m) i) (j_prog (js m) i)) (zrange (w_tiles (y_net c))))
                    (zrange (w_nodes (y_net c)))).
