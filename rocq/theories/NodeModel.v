(** node.py, blocks/noc.py (queue monitor) and the cycle counts of tiles and cores; reset and a
    second run of a node: ramwich.py:181-212. *)
From Verif Require Import PyBase MemoryModel VfuModel MvmuModel CoreModel DramModel RouterModel SystemModel.

(** A running node: the tiles (SystemModel), Tile.start_time (the same for all tiles, tile.py:107),
    the time of the monitor's next sample, Network.queue_busy_cycles (blocks/noc.py:39), and
    active_cycles of each tile and core (tile.py:38, core.py:48). *)
Record node := MkNode {
  nd_sys : sys; nd_start : Z; nd_next : Z; nd_busy : Z;
  nd_tile_cycles : Z -> Z; nd_core_cycles : Z -> Z -> Z }.

Inductive ndact := NdSys (a : sact) | NdMonitor.

(** blocks/noc.py:84-87: some router is running and has a packet in its send queue. *)
Definition queue_busy (c : sys_cfg) (s : sys) : bool :=
  existsb (fun i => r_running (n_router (s_net s) i) && (0 <? zlen (r_queue (n_router (s_net s) i))))
    (zrange (w_tiles (y_net c))).

Definition is_nil {A} (l : list A) : bool := match l with [] => true | _ => false end.
Definition core_halted (s : sys) (i k : Z) : bool :=
  match nth_error (t_cores (s_tile s i)) (Z.to_nat k) with Some p => halted p | None => false end.

(** One action at a given time.  The monitor samples every cycle (blocks/noc.py:79-93), so nothing
    happens later than its next sample; a tile records its cycles when its last instruction is
    completed (tile.py:115-122), a core when its pipeline is (core.py:153-155). *)
Definition node_step (c : sys_cfg) (now : Z) (a : ndact) (n : node) : option node :=
  if nd_next n <? now then None
  else match a with
  | NdMonitor =>
      if negb (now =? nd_next n) then None
      else Some (MkNode (nd_sys n) (nd_start n) (nd_next n + 1)
                   (if queue_busy c (nd_sys n) then nd_busy n + 1 else nd_busy n)
                   (nd_tile_cycles n) (nd_core_cycles n))
  | NdSys a =>
      match sstep c now a (nd_sys n) with
      | None => None
      | Some s =>
          let tc := match a with
                    | STile i => if is_nil (t_prog (s_tile s i)) && negb (is_nil (t_prog (s_tile (nd_sys n) i)))
                                 then set_fun (nd_tile_cycles n) i (now - nd_start n) else nd_tile_cycles n
                    | _ => nd_tile_cycles n
                    end in
          let cc := match a with
                    | SCore i k => if core_halted s i k && negb (core_halted (nd_sys n) i k)
                                   then set_fun (nd_core_cycles n) i (set_fun (nd_core_cycles n i) k (now - nd_start n))
                                   else nd_core_cycles n
                    | _ => nd_core_cycles n
                    end in
          Some (MkNode s (nd_start n) (nd_next n) (nd_busy n) tc cc)
      end
  end.

(** The start of Node.run (node.py:31-40) in an environment at time [now]; a tile without instructions
    is complete at once. *)
Definition node_start (now : Z) (j : job) (s : sys) (busy : Z) (tc : Z -> Z) (cc : Z -> Z -> Z) : node :=
  MkNode s now now busy (fun i => if is_nil (j_prog j i) then 0 else tc i) cc.
(** The first run after Node.__init__: node.py:16-22. *)
Definition node_first (c : sys_cfg) (now : Z) (j : job) : node :=
  node_start now j (sys_start c now j) 0 (fun _ => 0) (fun _ _ => 0).

(** ** Reset *)
(** Router.reset: blocks/router.py:209-212 and 97-104.  Interrupting the send thread is an event of
    the discarded environment and has no effect; simplification: the thread has not ended with an
    exception (otherwise interrupting it raises a RuntimeError), so the theorems are about states
    without a crash. *)
Definition router_reset (r : router) : router :=
  MkRouter false (r_queue r) (r_sender r) (r_buffers r) (r_client r) rstats0 (r_submitted r) (r_delivered r).

(** core.reset() for all cores of a tile: tile.py:132-133; an exception ends the loop. *)
Fixpoint reset_cores (c : core_cfg) (ps : list cproc) : res unit * list cproc :=
  match ps with
  | [] => (Ok tt, [])
  | p :: rest =>
      let '(r, k) := core_reset c (cp_core p) in
      let p' := MkCProc k (cp_prog p) (cp_phase p) (cp_writes p) in
      match r with
      | Raise e => (Raise e, p' :: rest)
      | Ok _ => let '(r', rest') := reset_cores c rest in (r', p' :: rest')
      end
  end.

(** Tile.reset: tile.py:126-133 (the memory is reset twice, which is the same as once). *)
Definition tile_reset (c : sys_cfg) (t : tile) : res unit * tile :=
  let '(r, ps) := reset_cores (y_core c) (t_cores t) in
  (r, MkTile (dc_reset (t_dram t)) ps (t_prog t) (t_phase t) (t_log t)).

(** Node.reset: node.py:47-50. *)
Fixpoint reset_tiles (c : sys_cfg) (ids : list Z) (s : sys) : res unit * sys :=
  match ids with
  | [] => (Ok tt, s)
  | i :: rest =>
      let '(r, t) := tile_reset c (s_tile s i) in
      let s' := MkSys (set_router (s_net s) i (router_reset (n_router (s_net s) i))) (set_fun (s_tile s) i t) (s_crash s) in
      match r with
      | Raise e => (Raise e, s')
      | Ok _ => reset_tiles c rest s'
      end
  end.
Definition sys_reset (c : sys_cfg) (s : sys) : res unit * sys := reset_tiles c (zrange (w_tiles (y_net c))) s.
Definition node_reset (c : sys_cfg) (n : node) : res unit * node :=
  let '(r, s) := sys_reset c (nd_sys n) in
  (r, MkNode s (nd_start n) (nd_next n) (nd_busy n) (nd_tile_cycles n) (nd_core_cycles n)).

(** ** The next run: RAMwich.run, ramwich.py:181-199 *)
(** Router.run: blocks/router.py:77-95. *)
Definition router_run (r : router) : router :=
  if r_running r then r else MkRouter true [] SIdle (fun _ => []) KIdle (r_stat r) [] [].
(** The activation and DRAMController.run, which does nothing if is_running is still set
    (blocks/dram_controller.py:112-113); the records of the previous run are dropped. *)
Definition dram_again (now : Z) (act : list Z) (i : Z) (d : dram) : dram :=
  let d0 := MkDram (d_mem d) (d_valid d) (d_running d) (d_queue d) (d_pending d) (d_bus d) (d_granted d) (d_stat d)
              (d_start_time d) (d_crash d) [] [] [] [] in
  dc_run now (if i =? 0 then match dc_preload act d0 with Some d' => d' | None => d0 end else d0).
(** Tile.run starts the operations of the tile and of its cores again; the processes of the previous run
    belong to the discarded environment (ramwich.py:210).  Numbers without a tile are as in [sys_start].
    Simplification: the threads of a controller that is still running also belong to the discarded environment, so
    the requests of a tile that did not halt are never handled again; here its controller goes on.  The theorems
    about second runs concern tiles that halted. *)
Definition sys_again (c : sys_cfg) (now : Z) (j : job) (s : sys) : sys :=
  MkSys (MkNet (fun i => if known_router (y_net c) i then router_run (n_router (s_net s) i) else router_init) None)
    (fun i => if known_router (y_net c) i
              then MkTile (dram_again now (j_activation j) i (t_dram (s_tile s i)))
                     (map (fun px => MkCProc (cp_core (fst px)) (snd (snd px)) PReady []) (combine (t_cores (s_tile s i)) (j_cores j i)))
                     (j_prog j i) PNext []
              else s_tile (sys_start c now j) i)
    None.
Definition node_again (c : sys_cfg) (now : Z) (j : job) (n : node) : node :=
  node_start now j (sys_again c now j (nd_sys n)) (nd_busy n) (nd_tile_cycles n) (nd_core_cycles n).
