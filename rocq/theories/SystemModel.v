(** tile.py and node.py: the tiles of one node running their programs, with their cores
    (visitor.py, core.py), memory controllers (DramModel) and routers (RouterModel).

    A transition system: an action is a step of a memory controller, of the routers, of a core or of
    the process executing a tile's program; every order of enabled actions is a schedule, so the
    theorems hold for every latency and every order of simultaneous events.  The nodes of an
    architecture share nothing but the clock (ramwich.py:49-51, 194-195, node.py:19), so one node is modelled.

    Simplifications: a core executes its instructions one after the other, at any time (PipelineModel
    shows that this is what its pipeline does, and when); the delays at a core's registers are not
    separate steps, because nothing else uses the registers of a core; the end of read_packet and the
    continuation of the tile's process are one step.  The state in which an execution starts is the one after
    Tile.run of all tiles has started the cores, the memory controllers and the routers: these steps come first,
    because simpy processes the start of a process before everything else scheduled for that time. *)
From Verif Require Import PyBase MemoryModel VfuModel FloatModel MvmuModel CoreModel DramModel RouterModel.

(** Tile instructions: ops.py:100-126. *)
Inductive top :=
| TSend (addr target width vec : Z)
| TRecv (addr source width vec : Z)
| THalt.

(** Config.num_cores_per_tile, tile_config.edram_size and edram_lat, and the parts' configurations. *)
Record sys_cfg := MkSysCfg { y_net : net_cfg; y_core : core_cfg; y_cores : Z; y_size : Z; y_lat : Z }.

(** Where the execution stage of a core is: between two instructions; visit_load waiting for the
    memory controller, with the address it asked for (visitor.py:146-183); visit_store before line
    200, with address and data; visit_store waiting for the memory controller; after hlt. *)
Inductive cphase :=
| PReady
| PLoad (id addr : Z)
| PStoring (addr : Z) (rows : list (list Z))
| PStore (id : Z)
| PHalted.

(** A core with the instructions not yet completed.  [cp_writes] records the stores submitted (not
    in the code). *)
Record cproc := MkCProc {
  cp_core : core; cp_prog : list cop; cp_phase : cphase; cp_writes : list (Z * list (list Z)) }.

(** Where the tile's program is, inside the first instruction of [t_prog]: before it; execute_send
    at line 54; in its loop with the packets not yet submitted; execute_receive with the packets
    read; at line 84; execute_halt at line 95. *)
Inductive tphase :=
| PNext
| PSendRead (id : Z)
| PSending (rows : list (list Z))
| PRecv (got : list (list Z))
| PRecvWrite (id : Z)
| PHalting.

(** What happened to the tile's instructions (not in the code): the data read by a send; the rows
    written by a receive; the packets taken by a receive that met a packet of another width. *)
Inductive tevent :=
| EvSend (addr target width vec : Z) (data : list Z)
| EvRecv (addr source width vec : Z) (rows : list (list Z))
| EvMismatch (addr source width vec : Z) (taken : list (list Z))
| EvHalt.

Record tile := MkTile {
  t_dram : dram; t_cores : list cproc; t_prog : list top; t_phase : tphase; t_log : list tevent }.

Record sys := MkSys { s_net : net; s_tile : Z -> tile; s_crash : option exn }.

Definition set_tile (s : sys) (i : Z) (t : tile) : sys := MkSys (s_net s) (set_fun (s_tile s) i t) (s_crash s).
Definition sys_crash (s : sys) (e : exn) : sys := MkSys (s_net s) (s_tile s) (Some e).

(** Result of trying a step: it waits, raises an exception, or goes on. *)
Inductive outcome (A : Type) := Blocked | Crash (e : exn) | Go (a : A).
Arguments Blocked {A}. Arguments Crash {A}. Arguments Go {A}.

(** The value of a request's done_event, if it has been triggered. *)
Fixpoint result_of (id : Z) (h : list entry) : option (list Z) :=
  match h with
  | [] => None
  | EDone r _ _ data :: rest => if q_id r =? id then Some data else result_of id rest
  | EPreload _ :: rest => result_of id rest
  end.

(** data.reshape((vec, width)): visitor.py:193, tile.py:58. *)
Definition rows_of (width vec : Z) (data : list Z) : list (list Z) :=
  map (fun i => block data (i * width) width) (zrange vec).

(** One step of a core, number [k] of its tile, with the tile's memory controller. *)
Definition core_step_sys (c : sys_cfg) (now k : Z) (d : dram) (p : cproc) : outcome (dram * cproc) :=
  match cp_phase p with
  | PReady =>
      match cp_prog p with
      | [] => Blocked
      | o :: rest =>
          match o with
          (* visitor.py:146-160 *)
          | CLoad dest read width vec =>
              match load_address (y_core c) (cp_core p) read with
              | (Raise e, _) => Crash e
              | (Ok a, k1) =>
                  match dc_submit now k a (RRead width vec) d with
                  | (Raise e, _) => Crash e
                  | (Ok r, d') => Go (d', MkCProc k1 (cp_prog p) (PLoad (q_id r) a) (cp_writes p))
                  end
              end
          (* visitor.py:187-197 *)
          | CStore dest read width vec =>
              match store_request (y_core c) (cp_core p) dest read width vec with
              | (Raise e, _) => Crash e
              | (Ok (a, v), k1) => Go (d, MkCProc k1 (cp_prog p) (PStoring a (rows_of width vec v)) (cp_writes p))
              end
          (* visitor.py:254-257 and pipeline.py:41-46 *)
          | CHlt => Go (d, MkCProc (cp_core p) (cp_prog p) PHalted (cp_writes p))
          (* visitor.py:215-252 *)
          | _ =>
              match exec_local (y_core c) (cp_core p) o with
              | (Raise e, _) => Crash e
              | (Ok _, k1) => Go (d, MkCProc k1 rest PReady (cp_writes p))
              end
          end
      end
  (* visitor.py:163-183 *)
  | PLoad id a =>
      match result_of id (d_history d), cp_prog p with
      | Some data, CLoad dest _ _ _ :: rest =>
          match load_finish (y_core c) (cp_core p) dest data with
          | (Raise e, _) => Crash e
          | (Ok _, k1) => Go (d, MkCProc k1 rest PReady (cp_writes p))
          end
      | _, _ => Blocked
      end
  (* visitor.py:199-205 *)
  | PStoring a rows =>
      match dc_submit now k a (RWrite rows) d with
      | (Raise e, _) => Crash e
      | (Ok r, d') => Go (d', MkCProc (cp_core p) (cp_prog p) (PStore (q_id r)) (cp_writes p ++ [(a, rows)]))
      end
  (* visitor.py:207-213 *)
  | PStore id =>
      match result_of id (d_history d), cp_prog p with
      | Some _, _ :: rest => Go (d, MkCProc (cp_core p) rest PReady (cp_writes p))
      | _, _ => Blocked
      end
  | PHalted => Blocked
  end.

Definition halted (p : cproc) : bool := match cp_phase p with PHalted => true | _ => false end.

(** A call of the tile on its router. *)
Definition with_net (capacity : Z) (c : sys_cfg) (now : Z) (a : nact) (n : net) (t : tile) : outcome (net * tile) :=
  match nstep_cap capacity (y_net c) now a n with
  | None => Blocked
  | Some n' => match n_crash n' with Some e => Crash e | None => Go (n', t) end
  end.

Definition set_phase (t : tile) (ph : tphase) : tile :=
  MkTile (t_dram t) (t_cores t) (t_prog t) ph (t_log t).
Definition next_op (t : tile) (log : list tevent) : tile :=
  MkTile (t_dram t) (t_cores t) (tl (t_prog t)) PNext (t_log t ++ log).

(** One step of the process executing the program of tile [i]: tile.py:47-119. *)
Definition tile_step (capacity : Z) (c : sys_cfg) (now i : Z) (n : net) (t : tile) : outcome (net * tile) :=
  match t_prog t with
  | [] => Blocked
  | op :: _ =>
      match t_phase t, op with
      (* tile.py:50-54 *)
      | PNext, TSend addr target width vec =>
          match dc_submit now (-1) addr (RRead width vec) (t_dram t) with
          | (Raise e, _) => Crash e
          | (Ok r, d) => Go (n, MkTile d (t_cores t) (t_prog t) (PSendRead (q_id r)) (t_log t))
          end
      (* tile.py:54-60 *)
      | PSendRead id, TSend addr target width vec =>
          match result_of id (d_history (t_dram t)) with
          | None => Blocked
          | Some data =>
              if (width <? 0) || (vec <? 0) then Crash ValueError
              else Go (n, MkTile (t_dram t) (t_cores t) (t_prog t) (PSending (rows_of width vec data))
                            (t_log t ++ [EvSend addr target width vec data]))
          end
      (* tile.py:60-64 *)
      | PSending rows, TSend addr target width vec =>
          match r_client (n_router n i), rows with
          | KIdle, row :: rest => with_net capacity c now (NSubmit i target row) n (set_phase t (PSending rest))
          | KIdle, [] => Go (n, next_op t [])
          | _, _ => Blocked
          end
      (* tile.py:70 *)
      | PNext, TRecv addr source width vec =>
          if (width <? 0) || (vec <? 0) then Crash ValueError else Go (n, set_phase t (PRecv []))
      (* tile.py:71-84 *)
      | PRecv got, TRecv addr source width vec =>
          match r_client (n_router n i) with
          | KIdle =>
              if zlen got <? vec then with_net capacity c now (NRead i source) n t
              else match dc_submit now (-1) addr (RWrite got) (t_dram t) with
                   | (Raise e, _) => Crash e
                   | (Ok r, d) => Go (n, MkTile d (t_cores t) (t_prog t) (PRecvWrite (q_id r))
                                          (t_log t ++ [EvRecv addr source width vec got]))
                   end
          | KGot _ data =>
              if zlen data =? width
              then with_net capacity c now (NGot i) n (set_phase t (PRecv (got ++ [data])))
              else with_net capacity c now (NGot i) n (next_op t [EvMismatch addr source width vec (got ++ [data])])
          | _ => Blocked
          end
      (* tile.py:84-86 *)
      | PRecvWrite id, TRecv _ _ _ _ =>
          match result_of id (d_history (t_dram t)) with
          | None => Blocked
          | Some _ => Go (n, next_op t [])
          end
      (* tile.py:91-95 *)
      | PNext, THalt =>
          if forallb halted (t_cores t) then with_net capacity c now (NHalt i) n (set_phase t PHalting) else Blocked
      (* tile.py:95-101; a waiting read would fail with a RuntimeError, dram_controller.py:138-143 *)
      | PHalting, THalt =>
          match r_client (n_router n i) with
          | KIdle =>
              if d_running (t_dram t) && negb (zlen (d_pending (t_dram t)) =? 0) then Crash RuntimeError
              else Go (n, MkTile (dc_stop now (t_dram t)) (t_cores t) (tl (t_prog t)) PNext (t_log t ++ [EvHalt]))
          | _ => Blocked
          end
      | _, _ => Blocked
      end
  end.

(** Steps of memory controllers and routers that are not calls from outside. *)
Definition dram_own (a : dact) : bool := match a with AHandle | AGrant | AFinish => true | _ => false end.
Definition net_own (a : nact) : bool :=
  match a with NSubmit _ _ _ | NRead _ _ | NGot _ | NHalt _ => false | _ => true end.

Inductive sact := SDram (i : Z) (a : dact) | SNet (a : nact) | SCore (i k : Z) | STile (i : Z).

(** One action at a given time; None: not enabled.  After an exception nothing is enabled. *)
Definition sstep_cap (capacity : Z) (c : sys_cfg) (now : Z) (a : sact) (s : sys) : option sys :=
  match s_crash s with
  | Some _ => None
  | None =>
      match a with
      | SDram i a =>
          if negb (dram_own a) || negb (known_router (y_net c) i) then None
          else
            let t := s_tile s i in
            match dstep (y_lat c) now a (t_dram t) with
            | None => None
            | Some d => Some (MkSys (s_net s)
                          (set_fun (s_tile s) i (MkTile d (t_cores t) (t_prog t) (t_phase t) (t_log t))) (d_crash d))
            end
      | SNet a =>
          if negb (net_own a) then None
          else match nstep_cap capacity (y_net c) now a (s_net s) with
               | None => None
               | Some n => Some (MkSys n (s_tile s) (n_crash n))
               end
      | SCore i k =>
          if negb (known_router (y_net c) i) || (k <? 0) then None
          else
            let t := s_tile s i in
            match nth_error (t_cores t) (Z.to_nat k) with
            | None => None
            | Some p =>
                match core_step_sys c now k (t_dram t) p with
                | Blocked => None
                | Crash e => Some (sys_crash s e)
                | Go (d, p') => Some (set_tile s i
                    (MkTile d (upd (t_cores t) (Z.to_nat k) p') (t_prog t) (t_phase t) (t_log t)))
                end
            end
      | STile i =>
          if negb (known_router (y_net c) i) then None
          else match tile_step capacity c now i (s_net s) (s_tile s i) with
               | Blocked => None
               | Crash e => Some (sys_crash s e)
               | Go (n, t) => Some (MkSys n (set_fun (s_tile s) i t) None)
               end
      end
  end.
(** The code: receive buffers of capacity 1. *)
Definition sstep : sys_cfg -> Z -> sact -> sys -> option sys := sstep_cap buffer_capacity.

(** What the loaders have prepared: for each tile its program and its cores (with their weights)
    and their programs, and the activation loaded into tile 0 (ramwich.py:178-179). *)
Record job := MkJob { j_prog : Z -> list top; j_cores : Z -> list (core * list cop); j_activation : list Z }.

(** Node.__init__, RAMwich.load_activation and the start of Tile.run: node.py:16-22,
    ramwich.py:166-179, tile.py:103-113. *)
Definition start_dram (c : sys_cfg) (now : Z) (act : list Z) (i : Z) : dram :=
  let d := dram_init (y_size c) in
  dc_run now (if i =? 0 then match dc_preload act d with Some d' => d' | None => d end else d).
Definition sys_start (c : sys_cfg) (now : Z) (j : job) : sys :=
  MkSys net_init
    (fun i => MkTile (start_dram c now (j_activation j) i)
                (map (fun x => MkCProc (fst x) (snd x) PReady []) (j_cores j i)) (j_prog j i) PNext [])
    None.
