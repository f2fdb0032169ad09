(** The simulation of one node as simpy runs it: the event queue, and all processes of node.py, tile.py, core.py,
    pipeline.py, visitor.py, blocks/dram_controller.py, blocks/router.py and blocks/noc.py, yield by yield.

    The other models of concurrency (SystemModel, NodeModel) allow every order of simultaneous events and every choice of
    times for the steps of a core; here both are fixed as in the code, so a run is a computation.

    simpy 4, core.py, events.py, resources/base.py, resources/store.py and resources/resource.py (the library is not part
    of /repo; this is its documented behaviour):
    - the queue is ordered by time, then priority (URGENT before NORMAL), then order of scheduling;
    - Process: its first step is an URGENT event at the current time; its end is a NORMAL event; Interruption is URGENT;
      Timeout, Event.succeed and the events of stores and resources are NORMAL;
    - yielding an event that has already been processed continues at once;
    - Store.put and Store.get try to serve the oldest waiting put, respectively get, once, and so does the processing of a
      get event (for puts) and of a put event (for gets), before the process waiting for it continues; a Resource serves
      its oldest waiting request when a request is made and when a release event is processed, and it is free from the
      release on;
    - AllOf succeeds when the last of its events is processed (at once if all were processed before).

    Simplifications: events without an effect are left out (the end of a process nobody waits for); an exception in a
    process ends the simulation at once (in the code the exception reaches Environment.run through the processes that
    wait for it, at the same time); times are integers; one node (the nodes share only the clock). *)
From Verif Require Import PyBase MemoryModel CoreModel DramModel RouterModel SystemModel.

(** ** Event queue: simpy's Environment *)
Inductive prio := Urgent | Normal.
Definition urgent (p : prio) : bool := match p with Urgent => true | Normal => false end.

Section Kernel.
  Context {E : Type}.
  (** Environment._queue, soonest first. *)
  Definition entry := (Z * prio * E)%type.
  Definition e_time (x : entry) : Z := fst (fst x).
  Definition e_prio (x : entry) : prio := snd (fst x).
  Definition e_ev (x : entry) : E := snd x.

  (** [x] comes strictly before [y], whatever the order in which they were scheduled. *)
  Definition sooner (x y : entry) : bool :=
    (e_time x <? e_time y) || ((e_time x =? e_time y) && urgent (e_prio x) && negb (urgent (e_prio y))).
  (** Environment.schedule. *)
  Fixpoint insert (x : entry) (q : list entry) : list entry :=
    match q with
    | [] => [x]
    | y :: r => if sooner x y then x :: q else y :: insert x r
    end.
  Definition schedule (now : Z) (new : list (Z * prio * E)) (q : list entry) : list entry :=
    fold_left (fun q x => insert (now + fst (fst x), snd (fst x), snd x) q) new q.
End Kernel.
Arguments entry : clear implicits.

(** ** State of a core *)
(** The stages of the pipeline, core.py:136-140: fetch, decode, execute. *)
Inductive st := SF | SD | SX.
Record tri (A : Type) := MkTri { t_f : A; t_d : A; t_x : A }.
Arguments MkTri {A}. Arguments t_f {A}. Arguments t_d {A}. Arguments t_x {A}.
Definition tget {A} (t : tri A) (s : st) : A := match s with SF => t_f t | SD => t_d t | SX => t_x t end.
Definition tset {A} (t : tri A) (s : st) (v : A) : tri A :=
  match s with
  | SF => MkTri v (t_d t) (t_x t)
  | SD => MkTri (t_f t) v (t_x t)
  | SX => MkTri (t_f t) (t_d t) v
  end.

(** Stage.run, pipeline.py:28-46: not started; at line 33, waiting in the queue of the store; the same with the
    instruction handed out; at line 35; at line 38, waiting in the queue of the store; the same when the store has taken
    the instruction; finished. *)
Inductive gstate := GNew | GWaiting | GGot (o : cop) | GWork (o : cop) | GPutting (o : cop) | GPut (o : cop) | GDead.
(** The event that the execution stage waits for at line 35: a timeout (visitor.py:215-257); visit_load waiting for the
    memory controller; complete_write_after_latency not started, at line 170, finished; visit_store:
    send_write_request_after_latency not started, at line 200, at line 209, finished. *)
Inductive xphase :=
| XNone
| XTiming
| XLoading (id : Z) | XLoadNew (data : list Z) | XLoadTiming (data : list Z) | XLoaded
| XStoreNew (addr : Z) (rows : list (list Z)) | XStoreTiming (addr : Z) (rows : list (list Z)) | XStoring (id : Z) | XStored.
(** An event that is triggered once: pending, triggered, processed. *)
Inductive once := Pending | Triggered | Processed.
(** Pipeline._monitor_for_completion, pipeline.py:92-99: not started, waiting for a stage, finished. *)
Inductive mstate := MNew | MWait (s : st) | MEnd.
(** Core.run, core.py:119-157: not started, at line 151, finished, and its event processed. *)
Inductive cstate := CNew | CRunning | CEnding | CEnded.

(** Core, Pipeline and Stages: [k_wait] are the instructions waiting to be put into first_stage_buffer, [k_buf] the
    buffers before the stages, [k_comp] the completion events. *)
Record dcore (K : Type) := MkDCore {
  k_core : K; k_proc : cstate; k_cycles : Z; k_wait : list cop; k_buf : tri (list cop);
  k_stage : tri gstate; k_xp : xphase; k_comp : tri once; k_mon : mstate }.
Arguments MkDCore {K}. Arguments k_core {K}. Arguments k_proc {K}. Arguments k_cycles {K}. Arguments k_wait {K}.
Arguments k_buf {K}. Arguments k_stage {K}. Arguments k_xp {K}. Arguments k_comp {K}. Arguments k_mon {K}.

(** ** State of a memory controller *)
(** request_handler, blocks/dram_controller.py:199-218: not started, at line 204, the same with a request handed out,
    finished (with a request for an item left in the store's queue or not). *)
Inductive hstate := HNew | HWaiting | HGot (r : req) | HDead (dangling : bool).
(** The memory bus: free; given to a thread that has not continued yet; to a thread at line 236 or 260 (since when). *)
Inductive bstate := BFree | BGranted (r : req) | BTiming (r : req) (since : Z).
(** DRAMController: [c_starting] are the threads that are created and not started, [c_waiting] those waiting for the bus,
    [c_values] the values of the done_events that were triggered, [c_next] the number of requests. *)
Record dctl (M : Type) := MkCtl {
  c_mem : M; c_running : bool; c_items : list req; c_handler : hstate; c_pending : list req;
  c_starting : list req; c_bus : bstate; c_waiting : list req; c_stat : dstats; c_start : Z; c_next : Z;
  c_values : list (Z * list Z) }.
Arguments MkCtl {M}. Arguments c_mem {M}. Arguments c_running {M}. Arguments c_items {M}. Arguments c_handler {M}.
Arguments c_pending {M}. Arguments c_starting {M}. Arguments c_bus {M}. Arguments c_waiting {M}. Arguments c_stat {M}.
Arguments c_start {M}. Arguments c_next {M}. Arguments c_values {M}.

(** ** State of a router *)
(** _send_thread, blocks/router.py:160-190: not started; at line 165, waiting; the same with a packet handed out (when);
    at line 175 (with the same time); at line 178 with receive_packet not started, waiting in the queue of the receive
    buffer, the packet taken by the buffer, receive_packet finished; finished. *)
Inductive sstate :=
| ZNew | ZWaiting | ZGot (p : packet) (since : Z) | ZTravel (p : packet) (since : Z) (inter : bool)
| ZOffering (p : packet) (inter : bool) | ZPutting (p : packet) (inter : bool) | ZPut (p : packet) (inter : bool)
| ZArrived (p : packet) (inter : bool) | ZDead (dangling : bool).
(** Router: [u_buffers] are the items of receive_buffers by source, [u_event] is sending_event, with its number. *)
Record drt := MkRt {
  u_running : bool; u_queue : list packet; u_sender : sstate; u_buffers : list (list (list Z));
  u_event : option (Z * once); u_stat : rstats }.

(** ** State of a tile *)
(** Tile.run and the process executing an instruction: not started; instruction not started; execute_send at line 54; in
    its loop: add_send_packet not started, at line 155 of router.py (since when), finished; execute_receive in its loop:
    read_packet not started, waiting for the receive buffer, the packet handed out, finished; at line 84; execute_halt
    waiting for the cores, the condition succeeded; stop_after_all_packets_sent not started, check_queue not started or
    waiting (next check not before), empty_event triggered, waiting for sending_event, finished; instruction finished
    (when); Tile.run finished. *)
Inductive dphase :=
| TNew | TOpNew
| TSendRead (id : Z)
| TAddNew (row : list Z) (rest : list (list Z)) | TAdding (rest : list (list Z)) (since : Z) | TAdded (rest : list (list Z))
| TReadNew (got : list (list Z)) | TReading (src : Z) (got : list (list Z)) | TPopped (src : Z) (got : list (list Z)) (data : list Z)
| TReadEnd (src : Z) (got : list (list Z)) (data : list Z)
| TRecvWrite (id : Z)
| THaltWait | THaltAll | TStopNew | TPolling (next : Z) | TEmptied | TSentWait (number : Z) | TStopEnd
| TOpEnd (at_ : Z) | TDone.
Record dtile (K M : Type) := MkDTile {
  x_ctl : dctl M; x_rt : drt; x_cores : list (dcore K); x_prog : list top; x_phase : dphase; x_cycles : Z; x_ended : bool }.
Arguments MkDTile {K M}. Arguments x_ctl {K M}. Arguments x_rt {K M}. Arguments x_cores {K M}. Arguments x_prog {K M}.
Arguments x_phase {K M}. Arguments x_cycles {K M}. Arguments x_ended {K M}.

(** ** State of the node *)
(** The end of Node.run and of RAMwich.run: Node.run waiting; finished; the condition of ramwich.py:199 succeeded; the
    simulation has ended. *)
Inductive fstate := FRunning | FNode | FCond | FEnd.
(** Network._monitor_queues, blocks/noc.py:79-97: running or interrupted; [z_next] is the time of its next step,
    [z_begin] the time at which the simulation started. *)
Record dnode (K M : Type) := MkDNode {
  z_tiles : list (dtile K M); z_begin : Z; z_next : Z; z_busy : Z; z_monitor : bool; z_fin : fstate }.
Arguments MkDNode {K M}. Arguments z_tiles {K M}. Arguments z_begin {K M}. Arguments z_next {K M}. Arguments z_busy {K M}.
Arguments z_monitor {K M}. Arguments z_fin {K M}.

(** ** Events, by what their processing does; [i] is a tile, [k] a core *)
Inductive ev :=
| VMonitor | VMonitorInt                         (* step and interruption of the network's monitor *)
| VTile (i : Z)                                  (* start of Tile.run *)
| VCore (i k : Z)                                (* start of Core.run *)
| VStage (i k : Z) (s : st) | VPipe (i k : Z)    (* start of a stage, of _monitor_for_completion *)
| VPut (i k : Z) (s : st) | VGot (i k : Z) (s : st)  (* put into and get from the buffer before a stage *)
| VTime (i k : Z) (s : st)                       (* timeout of a stage *)
| VLoadNew (i k : Z) | VLoadTime (i k : Z) | VLoaded (i k : Z)
| VStoreNew (i k : Z) | VStoreTime (i k : Z) | VStored (i k : Z)
| VStageDone (i k : Z) (s : st)                  (* completion_event *)
| VPipeDone (i k : Z)                            (* done_event of the pipeline *)
| VCoreEnd (i k : Z)                             (* end of Core.run *)
| VHandler (i : Z) | VReqPut (i : Z) | VReqGot (i : Z) | VHandlerInt (i : Z)
| VThread (i id : Z) | VGrant (i : Z) | VThreadTime (i : Z) | VRelease (i : Z)
| VDone (i k id : Z)                             (* done_event of a request of core [k] or of the tile (-1) *)
| VSender (i : Z) | VSendPut (i : Z) | VSendGot (i : Z) | VTravel (i : Z)
| VOffer (i : Z) | VTaken (i : Z) | VArrived (i : Z)   (* receive_packet of a packet of tile [i]: start, put, end *)
| VSent (i number : Z) | VSenderInt (i : Z)
| VOp (i : Z) | VOpEnd (i : Z) | VTileEnd (i : Z)
| VAdd (i : Z) | VAddTime (i : Z) | VAdded (i : Z)
| VRead (i : Z) | VPopped (i : Z) | VReadEnd (i : Z)
| VAllCores (i : Z) | VStop (i : Z) | VPoll (i : Z) | VPollTime (i : Z) | VEmpty (i : Z) | VStopped (i : Z)
| VAllTiles | VNodeEnd | VRunEnd.
Definition sched := list (Z * prio * ev).
Definition soon (e : ev) : Z * prio * ev := (0, Normal, e).
Definition start (e : ev) : Z * prio * ev := (0, Urgent, e).
Definition later (d : Z) (e : ev) : Z * prio * ev := (d, Normal, e).

(** Result of processing an event: the new state and the events scheduled, in order; an exception; or the event is not
    the one its process waits for (never: see the theorem about it). *)
Inductive dres (A : Type) := DGo (a : A) (new : sched) | DRaise (e : exn) | DStuck.
Arguments DGo {A}. Arguments DRaise {A}. Arguments DStuck {A}.
Definition dmap {A B} (f : A -> B) (r : dres A) : dres B :=
  match r with DGo a new => DGo (f a) new | DRaise e => DRaise e | DStuck => DStuck end.
Definition dbind {A B} (r : dres A) (f : A -> dres B) : dres B :=
  match r with
  | DGo a new => match f a with DGo b new' => DGo b (new ++ new') | DRaise e => DRaise e | DStuck => DStuck end
  | DRaise e => DRaise e
  | DStuck => DStuck
  end.
(** env.timeout(delay) of a negative delay raises a ValueError. *)
Definition timeout {A} (delay : Z) (e : ev) (a : A) : dres A :=
  if delay <? 0 then DRaise ValueError else DGo a [later delay e].

(** What the processes do with the registers and units of a core ([K]) and with the cells and validity flags of a memory
    ([M]); [real] below is the code's. *)
Record machine (K M : Type) := MkMachine {
  m_local : K -> cop -> res unit * K;
  m_load : K -> Z -> res Z * K;
  m_loaded : K -> Z -> list Z -> res unit * K;
  m_store : K -> Z -> Z -> Z -> Z -> res (Z * list Z) * K;
  m_ready : M -> req -> bool;
  m_read : M -> req -> res (list Z) * M;
  m_write : M -> req -> list (list Z) -> res unit * M }.
Arguments MkMachine {K M}. Arguments m_local {K M}. Arguments m_load {K M}. Arguments m_loaded {K M}. Arguments m_store {K M}.
Arguments m_ready {K M}. Arguments m_read {K M}. Arguments m_write {K M}.

Section Processes.
  Context {K M : Type}.
  Variable P : machine K M.
  Variable c : sys_cfg.
  Notation dcore := (dcore K). Notation dctl := (dctl M). Notation dtile := (dtile K M). Notation dnode := (dnode K M).

  (** *** The pipeline of core [k] of tile [i] *)
  Definition set_stage (x : dcore) (s : st) (g : gstate) : dcore :=
    MkDCore (k_core x) (k_proc x) (k_cycles x) (k_wait x) (k_buf x) (tset (k_stage x) s g) (k_xp x) (k_comp x) (k_mon x).
  Definition set_buf (x : dcore) (s : st) (l : list cop) : dcore :=
    MkDCore (k_core x) (k_proc x) (k_cycles x) (k_wait x) (tset (k_buf x) s l) (k_stage x) (k_xp x) (k_comp x) (k_mon x).
  Definition set_wait (x : dcore) (l : list cop) : dcore :=
    MkDCore (k_core x) (k_proc x) (k_cycles x) l (k_buf x) (k_stage x) (k_xp x) (k_comp x) (k_mon x).
  Definition set_xp (x : dcore) (p : xphase) : dcore :=
    MkDCore (k_core x) (k_proc x) (k_cycles x) (k_wait x) (k_buf x) (k_stage x) p (k_comp x) (k_mon x).
  Definition set_core (x : dcore) (k : K) : dcore :=
    MkDCore k (k_proc x) (k_cycles x) (k_wait x) (k_buf x) (k_stage x) (k_xp x) (k_comp x) (k_mon x).
  Definition set_comp (x : dcore) (s : st) (o : once) : dcore :=
    MkDCore (k_core x) (k_proc x) (k_cycles x) (k_wait x) (k_buf x) (k_stage x) (k_xp x) (tset (k_comp x) s o) (k_mon x).
  Definition set_mon (x : dcore) (m : mstate) : dcore :=
    MkDCore (k_core x) (k_proc x) (k_cycles x) (k_wait x) (k_buf x) (k_stage x) (k_xp x) (k_comp x) m.
  Definition set_proc (x : dcore) (p : cstate) (cycles : Z) : dcore :=
    MkDCore (k_core x) p cycles (k_wait x) (k_buf x) (k_stage x) (k_xp x) (k_comp x) (k_mon x).

  (** Store._trigger_get of the buffer before stage [s]. *)
  Definition buf_get (i k : Z) (s : st) (x : dcore) : dcore * sched :=
    match tget (k_stage x) s, tget (k_buf x) s with
    | GWaiting, o :: r => (set_stage (set_buf x s r) s (GGot o), [soon (VGot i k s)])
    | _, _ => (x, [])
    end.
  (** Store._trigger_put of the buffer before stage [s]: the buffers have capacity 1 (pipeline.py:64, 76); who puts into
      them is core.py:148-149 and the stage before. *)
  Definition buf_put (i k : Z) (s : st) (x : dcore) : dcore * sched :=
    match tget (k_buf x) s with
    | _ :: _ => (x, [])
    | [] =>
        match s with
        | SF => match k_wait x with
                | o :: r => (set_wait (set_buf x SF [o]) r, [soon (VPut i k SF)])
                | [] => (x, [])
                end
        | SD => match t_f (k_stage x) with
                | GPutting o => (set_stage (set_buf x SD [o]) SF (GPut o), [soon (VPut i k SD)])
                | _ => (x, [])
                end
        | SX => match t_d (k_stage x) with
                | GPutting o => (set_stage (set_buf x SX [o]) SD (GPut o), [soon (VPut i k SX)])
                | _ => (x, [])
                end
        end
    end.
  (** pipeline.py:33 *)
  Definition stage_get (i k : Z) (s : st) (x : dcore) : dcore * sched := buf_get i k s (set_stage x s GWaiting).
  (** pipeline.py:40-46 and back to line 33. *)
  Definition stage_end (i k : Z) (s : st) (o : cop) (x : dcore) : dcore * sched :=
    if is_hlt o then (set_stage (set_comp x s Triggered) s GDead, [soon (VStageDone i k s)]) else stage_get i k s x.
  (** pipeline.py:37-38, for the two first stages. *)
  Definition stage_put (i k : Z) (s : st) (o : cop) (x : dcore) : dcore * sched :=
    match s with
    | SF => buf_put i k SD (set_stage x SF (GPutting o))
    | SD => buf_put i k SX (set_stage x SD (GPutting o))
    | SX => stage_end i k SX o x
    end.
  Definition go {A} (p : A * sched) : dres A := DGo (fst p) (snd p).

  (** Core.run up to its yield: core.py:125-151; Pipeline.run, pipeline.py:82-86, starts the stages, then the instructions
      are put.  [begin] is Tile.start_time and Core.start_time (all these processes start when the simulation does). *)
  Definition core_start (begin now i k : Z) (x : dcore) : dres dcore :=
    match k_proc x with
    | CNew =>
        if negb (now =? begin) then DStuck else
        let '(x1, l) := buf_put i k SF (set_proc x CRunning (k_cycles x)) in
        DGo x1 ([start (VStage i k SF); start (VStage i k SD); start (VStage i k SX); start (VPipe i k)] ++ l)
    | _ => DStuck
    end.
  Definition stage_start (i k : Z) (s : st) (x : dcore) : dres dcore :=
    match tget (k_stage x) s with GNew => go (stage_get i k s x) | _ => DStuck end.
  (** The processing of a put event: Store._trigger_get, then the stage that put continues. *)
  Definition on_put (i k : Z) (s : st) (x : dcore) : dres dcore :=
    let '(x1, l1) := buf_get i k s x in
    match s with
    | SF => DGo x1 l1
    | SD => match t_f (k_stage x1) with
            | GPut o => let '(x2, l2) := stage_end i k SF o x1 in DGo x2 (l1 ++ l2)
            | _ => DStuck
            end
    | SX => match t_d (k_stage x1) with
            | GPut o => let '(x2, l2) := stage_end i k SD o x1 in DGo x2 (l1 ++ l2)
            | _ => DStuck
            end
    end.

  (** Pipeline._monitor_for_completion from its wait for stage [s] on: pipeline.py:94-99. *)
  Definition mon_wait (i k : Z) (x : dcore) (s : st) (next : dcore * sched) : dcore * sched :=
    match tget (k_comp x) s with Processed => next | _ => (set_mon x (MWait s), []) end.
  Definition mon_end (i k : Z) (x : dcore) : dcore * sched := (set_mon x MEnd, [soon (VPipeDone i k)]).
  Definition mon_from (i k : Z) (s : st) (x : dcore) : dcore * sched :=
    match s with
    | SF => mon_wait i k x SF (mon_wait i k x SD (mon_wait i k x SX (mon_end i k x)))
    | SD => mon_wait i k x SD (mon_wait i k x SX (mon_end i k x))
    | SX => mon_wait i k x SX (mon_end i k x)
    end.
  Definition pipe_start (i k : Z) (x : dcore) : dres dcore :=
    match k_mon x with MNew => go (mon_from i k SF x) | _ => DStuck end.
  Definition st_eqb (a b : st) : bool := match a, b with SF, SF | SD, SD | SX, SX => true | _, _ => false end.
  Definition stage_done (i k : Z) (s : st) (x : dcore) : dres dcore :=
    match tget (k_comp x) s with
    | Triggered =>
        let x1 := set_comp x s Processed in
        match k_mon x with
        | MWait s' => if st_eqb s s' then go (mon_from i k s x1) else DGo x1 []
        | _ => DGo x1 []
        end
    | _ => DStuck
    end.

  (** *** The memory controller of tile [i] *)
  Definition ctl_set_mem (d : dctl) (m : M) : dctl :=
    MkCtl m (c_running d) (c_items d) (c_handler d) (c_pending d) (c_starting d) (c_bus d) (c_waiting d) (c_stat d) (c_start d)
      (c_next d) (c_values d).
  Definition ctl_handler (d : dctl) (items : list req) (h : hstate) : dctl :=
    MkCtl (c_mem d) (c_running d) items h (c_pending d) (c_starting d) (c_bus d) (c_waiting d) (c_stat d) (c_start d)
      (c_next d) (c_values d).
  Definition ctl_pending (d : dctl) (l : list req) : dctl :=
    MkCtl (c_mem d) (c_running d) (c_items d) (c_handler d) l (c_starting d) (c_bus d) (c_waiting d) (c_stat d) (c_start d)
      (c_next d) (c_values d).
  Definition ctl_bus (d : dctl) (starting : list req) (b : bstate) (waiting : list req) : dctl :=
    MkCtl (c_mem d) (c_running d) (c_items d) (c_handler d) (c_pending d) starting b waiting (c_stat d) (c_start d)
      (c_next d) (c_values d).

  (** Store._trigger_get of requests; the request of an interrupted handler stays in the store's queue. *)
  Definition req_get (i : Z) (d : dctl) : dctl * sched :=
    match c_handler d, c_items d with
    | HWaiting, r :: rest => (ctl_handler d rest (HGot r), [soon (VReqGot i)])
    | HDead true, _ :: rest => (ctl_handler d rest (HDead false), [])
    | _, _ => (d, [])
    end.
  (** blocks/dram_controller.py:110-122 *)
  Definition ctl_run (now i : Z) (d : dctl) : dctl * sched :=
    if c_running d then (d, [])
    else (MkCtl (c_mem d) true [] HNew (c_pending d) [] BFree [] (c_stat d) now (c_next d) (c_values d), [start (VHandler i)]).
  (** submit_read_request and submit_write_request: blocks/dram_controller.py:148-197. *)
  Definition submit (now i core addr : Z) (kd : rkind) (d : dctl) : dres (req * dctl) :=
    if negb (c_running d) then DRaise RuntimeError
    else
      let r := MkReq (c_next d) core addr now kd in
      let s := c_stat d in
      let n := q_batches r in
      let s' := if is_read r
                then MkDStats (read_requests s + n) (write_requests s) (total_requests s + n)
                       (total_wait_time s) (max_wait_time s) (active_cycles s) (operating_time s)
                else MkDStats (read_requests s) (write_requests s + n) (total_requests s + n)
                       (total_wait_time s) (max_wait_time s) (active_cycles s) (operating_time s) in
      DGo (r, MkCtl (c_mem d) (c_running d) (c_items d ++ [r]) (c_handler d) (c_pending d) (c_starting d) (c_bus d) (c_waiting d)
                s' (c_start d) (c_next d + 1) (c_values d)) [soon (VReqPut i)].
  Definition handler_start (i : Z) (d : dctl) : dres dctl :=
    match c_handler d with HNew => go (req_get i (ctl_handler d (c_items d) HWaiting)) | _ => DStuck end.
  (** request_handler from line 204 to line 204: blocks/dram_controller.py:204-218. *)
  Definition on_req (i : Z) (d : dctl) : dres dctl :=
    match c_handler d with
    | HDead _ => DGo d []
    | HGot r =>
        if negb (c_running d) then DStuck else
        let wait (d : dctl) := req_get i (ctl_handler d (c_items d) HWaiting) in
        if is_read r && negb (m_ready P (c_mem d) r)
        then go (wait (ctl_pending d (c_pending d ++ [r])))
        else let '(d1, l) := wait (ctl_bus d (c_starting d ++ [r]) (c_bus d) (c_waiting d)) in
             DGo d1 (start (VThread i (q_id r)) :: l)
    | _ => DStuck
    end.
  Definition handler_int (d : dctl) : dres dctl :=
    if c_running d then DStuck else
    match c_handler d with
    | HWaiting => DGo (ctl_handler d (c_items d) (HDead true)) []
    | HGot _ => DGo (ctl_handler d (c_items d) (HDead false)) []
    | _ => DStuck
    end.
  (** Resource._trigger_put. *)
  Definition bus_give (i : Z) (d : dctl) : dctl * sched :=
    match c_bus d, c_waiting d with
    | BFree, r :: rest => (ctl_bus d (c_starting d) (BGranted r) rest, [soon (VGrant i)])
    | _, _ => (d, [])
    end.
  (** A thread starts and requests the bus: blocks/dram_controller.py:220-225 and 246-251. *)
  Definition thread_start (i id : Z) (d : dctl) : dres dctl :=
    match c_starting d with
    | r :: rest => if q_id r =? id then go (bus_give i (ctl_bus d rest (c_bus d) (c_waiting d ++ [r]))) else DStuck
    | [] => DStuck
    end.
  (** blocks/dram_controller.py:227-233 and 251-257 *)
  Definition on_grant (now i : Z) (d : dctl) : dres dctl :=
    match c_bus d with
    | BGranted r => timeout (y_lat c * q_batches r) (VThreadTime i) (ctl_bus d (c_starting d) (BTiming r now) (c_waiting d))
    | _ => DStuck
    end.
  (** DRAMController._update_ready_requests: blocks/dram_controller.py:277-286 (as in DramModel). *)
  Fixpoint release_ready (fuel : nat) (j : nat) (m : M) (pending queue : list req) : list req * list req :=
    match fuel with
    | O => (pending, queue)
    | S f => match nth_error pending j with
             | None => (pending, queue)
             | Some r => if m_ready P m r
                         then release_ready f (S j) m (remove_first (q_id r) pending) (queue ++ [r])
                         else release_ready f (S j) m pending queue
             end
    end.
  (** The rest of a thread: blocks/dram_controller.py:235-244 and 259-275; leaving the with block releases the bus. *)
  Definition thread_end (now i : Z) (d : dctl) : dres dctl :=
    match c_bus d with
    | BTiming r since =>
        if now <? since + y_lat c * q_batches r then DStuck
        else
          let finish (m : M) (items pending : list req) (data : list Z) (l : sched) :=
            DGo (MkCtl m (c_running d) items (c_handler d) pending (c_starting d) BFree (c_waiting d)
                   (finish_stats (y_lat c) now r (c_stat d)) (c_start d) (c_next d) (c_values d ++ [(q_id r, data)]))
              (l ++ [soon (VDone i (q_core r) (q_id r)); soon (VRelease i)]) in
          match q_kind r with
          | RRead _ _ => match m_read P (c_mem d) r with
                         | (Raise e, _) => DRaise e
                         | (Ok data, m) => finish m (c_items d) (c_pending d) data []
                         end
          | RWrite rows => match m_write P (c_mem d) r rows with
                           | (Raise e, _) => DRaise e
                           | (Ok _, m) =>
                               let '(pending, new) := release_ready (length (c_pending d)) 0 m (c_pending d) [] in
                               finish m (c_items d ++ new) pending [] (map (fun _ => soon (VReqPut i)) new)
                           end
          end
    | _ => DStuck
    end.
  (** stop: blocks/dram_controller.py:124-146; a done_event that fails raises in Environment.run. *)
  Definition ctl_stop (now i : Z) (d : dctl) : dres dctl :=
    if negb (c_running d) then DGo d []
    else if negb (zlen (c_pending d) =? 0) then DRaise RuntimeError
    else
      let s := c_stat d in
      DGo (MkCtl (c_mem d) false (c_items d) (c_handler d) (c_pending d) (c_starting d) (c_bus d) (c_waiting d)
             (MkDStats (read_requests s) (write_requests s) (total_requests s) (total_wait_time s)
                (max_wait_time s) (active_cycles s + (now - c_start d)) (operating_time s))
             (c_start d) (c_next d) (c_values d)) [start (VHandlerInt i)].
  Definition value_of (id : Z) (l : list (Z * list Z)) : option (list Z) :=
    match find (fun x => fst x =? id) l with Some x => Some (snd x) | None => None end.

  (** *** The execution stage *)
  (** accept of the execution stage, pipeline.py:35 and visitor.py:146-257, up to the yield. *)
  Definition execute (now i k : Z) (o : cop) (d : dctl) (x : dcore) : dres (dctl * dcore) :=
    let x0 := set_stage x SX (GWork o) in
    match o with
    | CLoad dest read width vec =>
        match m_load P (k_core x) read with
        | (Raise e, _) => DRaise e
        | (Ok a, k1) => dmap (fun rd => (snd rd, set_xp (set_core x0 k1) (XLoading (q_id (fst rd))))) (submit now i k a (RRead width vec) d)
        end
    | CStore dest read width vec =>
        match m_store P (k_core x) dest read width vec with
        | (Raise e, _) => DRaise e
        | (Ok (a, v), k1) => DGo (d, set_xp (set_core x0 k1) (XStoreNew a (rows_of width vec v))) [start (VStoreNew i k)]
        end
    | _ =>
        match m_local P (k_core x) o with
        | (Raise e, _) => DRaise e
        | (Ok _, k1) =>
            match exec_time (y_core c) o with
            | Raise e => DRaise e
            | Ok t => timeout t (VTime i k SX) (d, set_xp (set_core x0 k1) XTiming)
            end
        end
    end.
  (** The processing of a get event of the pipeline: Store._trigger_put, then accept (pipeline.py:35; visitor.py:80-81 and
      90-91 for fetch and decode). *)
  Definition on_got (now i k : Z) (s : st) (d : dctl) (x : dcore) : dres (dctl * dcore) :=
    let '(x1, l1) := buf_put i k s x in
    match tget (k_stage x1) s with
    | GGot o =>
        dbind (DGo (d, x1) l1) (fun dx =>
          match s with
          | SF => timeout (k_fetch_lat (y_core c)) (VTime i k SF) (d, set_stage x1 SF (GWork o))
          | SD => timeout (k_data_lat (y_core c)) (VTime i k SD) (d, set_stage x1 SD (GWork o))
          | SX => execute now i k o d x1
          end)
    | _ => DStuck
    end.
  (** The timeout of a stage is over. *)
  Definition on_time (i k : Z) (s : st) (x : dcore) : dres dcore :=
    match tget (k_stage x) s, s, k_xp x with
    | GWork o, SX, XTiming => go (stage_end i k SX o (set_xp x XNone))
    | GWork o, SX, _ => DStuck
    | GWork o, s, _ => go (stage_put i k s o x)
    | _, _, _ => DStuck
    end.
  (** visit_load, visitor.py:163-183: on_dram_read_complete starts a process. *)
  Definition load_done (i k id : Z) (values : list (Z * list Z)) (x : dcore) : dres dcore :=
    match k_xp x, t_x (k_stage x), value_of id values with
    | XLoading id', GWork _, Some data => if id =? id' then DGo (set_xp x (XLoadNew data)) [start (VLoadNew i k)] else DStuck
    | XStoring id', GWork _, Some _ => if id =? id' then DGo (set_xp x XStored) [soon (VStored i k)] else DStuck
    | _, _, _ => DStuck
    end.
  (** visitor.py:168-170 *)
  Definition load_new (i k : Z) (x : dcore) : dres dcore :=
    match k_xp x, t_x (k_stage x) with
    | XLoadNew data, GWork (CLoad _ _ _ vec) =>
        timeout (k_data_lat (y_core c) * vec) (VLoadTime i k) (set_xp x (XLoadTiming data))
    | _, _ => DStuck
    end.
  (** visitor.py:172-173 *)
  Definition load_time (i k : Z) (x : dcore) : dres dcore :=
    match k_xp x, t_x (k_stage x) with
    | XLoadTiming data, GWork (CLoad dest _ _ _) =>
        match m_loaded P (k_core x) dest data with
        | (Raise e, _) => DRaise e
        | (Ok _, k1) => DGo (set_xp (set_core x k1) XLoaded) [soon (VLoaded i k)]
        end
    | _, _ => DStuck
    end.
  (** visitor.py:197-200 *)
  Definition store_new (i k : Z) (x : dcore) : dres dcore :=
    match k_xp x, t_x (k_stage x) with
    | XStoreNew a rows, GWork (CStore _ _ _ vec) =>
        timeout (k_data_lat (y_core c) * vec) (VStoreTime i k) (set_xp x (XStoreTiming a rows))
    | _, _ => DStuck
    end.
  (** visitor.py:202-209 *)
  Definition store_time (now i k : Z) (d : dctl) (x : dcore) : dres (dctl * dcore) :=
    match k_xp x, t_x (k_stage x) with
    | XStoreTiming a rows, GWork _ => dmap (fun rd => (snd rd, set_xp x (XStoring (q_id (fst rd))))) (submit now i k a (RWrite rows) d)
    | _, _ => DStuck
    end.
  (** The stage continues after a load or store. *)
  Definition memory_end (i k : Z) (load : bool) (x : dcore) : dres dcore :=
    match k_xp x, t_x (k_stage x), load with
    | XLoaded, GWork o, true | XStored, GWork o, false => go (stage_end i k SX o (set_xp x XNone))
    | _, _, _ => DStuck
    end.

  (** *** The router of tile [i] *)
  Definition rt_sender (u : drt) (z : sstate) : drt :=
    MkRt (u_running u) (u_queue u) z (u_buffers u) (u_event u) (u_stat u).
  Definition rt_stat (u : drt) (x : rstats) : drt :=
    MkRt (u_running u) (u_queue u) (u_sender u) (u_buffers u) (u_event u) x.
  Definition rt_event (u : drt) (x : option (Z * once)) : drt :=
    MkRt (u_running u) (u_queue u) (u_sender u) (u_buffers u) x (u_stat u).
  Definition rt_buffer (u : drt) (src : Z) (items : list (list Z)) : drt :=
    MkRt (u_running u) (u_queue u) (u_sender u) (upd (u_buffers u) (Z.to_nat src) items) (u_event u) (u_stat u).
  Definition rt_queue (u : drt) (l : list packet) : drt :=
    MkRt (u_running u) l (u_sender u) (u_buffers u) (u_event u) (u_stat u).

  (** Store._trigger_get of send_queue. *)
  Definition send_get (now i : Z) (u : drt) : drt * sched :=
    match u_sender u, u_queue u with
    | ZWaiting, p :: rest => (rt_sender (rt_queue u rest) (ZGot p now), [soon (VSendGot i)])
    | ZDead true, _ :: rest => (rt_sender (rt_queue u rest) (ZDead false), [])
    | _, _ => (u, [])
    end.
  (** blocks/router.py:77-95 *)
  Definition rt_run (i : Z) (u : drt) : drt * sched :=
    if u_running u then (u, [])
    else (MkRt true [] ZNew (map (fun _ => []) (zrange (w_nodes (y_net c) * w_tiles (y_net c)))) None (u_stat u), [start (VSender i)]).
  Definition sender_start (now i : Z) (u : drt) : dres drt :=
    match u_sender u with ZNew => go (send_get now i (rt_sender u ZWaiting)) | _ => DStuck end.
  (** _send_thread, blocks/router.py:165-175. *)
  Definition on_send (i : Z) (u : drt) : dres drt :=
    match u_sender u with
    | ZDead _ => DGo u []
    | ZGot p since =>
        let number := match u_event u with Some (n, _) => n + 1 | None => 0 end in
        let '(lat, inter) := get_latency (y_net c) (pk_src p) (pk_dst p) in
        if negb (known_router (y_net c) (pk_dst p)) then DRaise KeyError
        else timeout lat (VTravel i) (rt_event (rt_sender u (ZTravel p since inter)) (Some (number, Pending)))
    | _ => DStuck
    end.
  (** blocks/router.py:178 *)
  Definition on_travel (now i : Z) (u : drt) : dres drt :=
    match u_sender u with
    | ZTravel p since inter =>
        if now <? since + fst (get_latency (y_net c) (pk_src p) (pk_dst p)) then DStuck
        else DGo (rt_sender u (ZOffering p inter)) [start (VOffer i)]
    | _ => DStuck
    end.
  (** blocks/router.py:180-188 and back to line 165. *)
  Definition on_arrived (now i : Z) (u : drt) : dres drt :=
    match u_sender u, u_event u with
    | ZArrived p inter, Some (n, Pending) =>
        let x := u_stat u in
        let x' := MkRStats (packets_created x)
                    (if inter then packets_sent_internode x + 1 else packets_sent_internode x)
                    (if inter then packets_sent_intranode x else packets_sent_intranode x + 1)
                    (packets_sent x + 1) (packets_received x) (packets_read x) in
        let '(u1, l) := send_get now i (rt_event (rt_sender (rt_stat u x') ZWaiting) (Some (n, Triggered))) in
        DGo u1 (soon (VSent i n) :: l)
    | _, _ => DStuck
    end.
  Definition sender_int (u : drt) : dres drt :=
    match u_running u, u_sender u with
    | false, ZWaiting => DGo (rt_sender u (ZDead true)) []
    | _, _ => DStuck
    end.

  (** *** Tile [i] *)
  Definition dt_ctl (t : dtile) (d : dctl) : dtile := MkDTile d (x_rt t) (x_cores t) (x_prog t) (x_phase t) (x_cycles t) (x_ended t).
  Definition dt_rt (t : dtile) (u : drt) : dtile := MkDTile (x_ctl t) u (x_cores t) (x_prog t) (x_phase t) (x_cycles t) (x_ended t).
  Definition dt_core (t : dtile) (k : Z) (x : dcore) : dtile :=
    MkDTile (x_ctl t) (x_rt t) (upd (x_cores t) (Z.to_nat k) x) (x_prog t) (x_phase t) (x_cycles t) (x_ended t).
  Definition dt_phase (t : dtile) (p : dphase) : dtile :=
    MkDTile (x_ctl t) (x_rt t) (x_cores t) (x_prog t) p (x_cycles t) (x_ended t).

  (** The loop of Tile.run: tile.py:115-122; the end of its process. *)
  Definition next_instr (begin now i : Z) (t : dtile) : dtile * sched :=
    match x_prog t with
    | [] => (MkDTile (x_ctl t) (x_rt t) (x_cores t) [] TDone (now - begin) (x_ended t), [soon (VTileEnd i)])
    | _ :: _ => (dt_phase t TOpNew, [start (VOp i)])
    end.
  (** Tile.run up to its first yield: tile.py:103-116. *)
  Definition tile_start (begin now i : Z) (t : dtile) : dres dtile :=
    match x_phase t with
    | TNew =>
        if negb (now =? begin) then DStuck
        else
          let cores := map (fun k => start (VCore i (Z.of_nat k))) (seq 0 (length (x_cores t))) in
          let '(d, l1) := ctl_run now i (x_ctl t) in
          let '(u, l2) := rt_run i (x_rt t) in
          let '(t1, l3) := next_instr begin now i (dt_rt (dt_ctl t d) u) in
          DGo t1 (cores ++ l1 ++ l2 ++ l3)
    | _ => DStuck
    end.
  (** The process of an instruction ends. *)
  Definition op_end (now i : Z) (t : dtile) : dtile * sched := (dt_phase t (TOpEnd now), [soon (VOpEnd i)]).
  Definition on_op_end (begin now i : Z) (t : dtile) : dres dtile :=
    match x_phase t with
    | TOpEnd at_ =>
        if negb (now =? at_) then DStuck
        else go (next_instr begin now i (MkDTile (x_ctl t) (x_rt t) (x_cores t) (tl (x_prog t)) (x_phase t) (x_cycles t) (x_ended t)))
    | _ => DStuck
    end.
  (** The loop of execute_send: tile.py:60-64. *)
  Definition send_rows (now i : Z) (rows : list (list Z)) (t : dtile) : dtile * sched :=
    match rows with
    | [] => op_end now i t
    | row :: rest => (dt_phase t (TAddNew row rest), [start (VAdd i)])
    end.
  (** The loop of execute_receive: tile.py:71-86. *)
  Definition recv_rows (now i addr vec : Z) (got : list (list Z)) (t : dtile) : dres dtile :=
    if zlen got <? vec then DGo (dt_phase t (TReadNew got)) [start (VRead i)]
    else dmap (fun rd => dt_phase (dt_ctl t (snd rd)) (TRecvWrite (q_id (fst rd)))) (submit now i (-1) addr (RWrite got) (x_ctl t)).
  (** tile.py:95 *)
  Definition begin_stop (i : Z) (t : dtile) : dtile * sched := (dt_phase t TStopNew, [start (VStop i)]).
  Definition core_over (x : dcore) : bool := match k_proc x with CEnded => true | _ => false end.
  (** The instruction's process starts: tile.py:50-54, 70, 91-95. *)
  Definition on_op (now i : Z) (t : dtile) : dres dtile :=
    match x_phase t, x_prog t with
    | TOpNew, TSend addr target width vec :: _ =>
        dmap (fun rd => dt_phase (dt_ctl t (snd rd)) (TSendRead (q_id (fst rd)))) (submit now i (-1) addr (RRead width vec) (x_ctl t))
    | TOpNew, TRecv addr source width vec :: _ =>
        if (width <? 0) || (vec <? 0) then DRaise ValueError else recv_rows now i addr vec [] t
    | TOpNew, THalt :: _ =>
        match x_cores t with
        | [] => go (begin_stop i t)
        | _ => if forallb core_over (x_cores t) then DGo (dt_phase t THaltAll) [soon (VAllCores i)] else DGo (dt_phase t THaltWait) []
        end
    | _, _ => DStuck
    end.
  (** A done_event of the tile's own request: tile.py:54-60, 84-86. *)
  Definition tile_done (now i id : Z) (t : dtile) : dres dtile :=
    match x_phase t, x_prog t, value_of id (c_values (x_ctl t)) with
    | TSendRead id', TSend addr target width vec :: _, Some data =>
        if negb (id =? id') then DStuck
        else if (width <? 0) || (vec <? 0) then DRaise ValueError
        else go (send_rows now i (rows_of width vec data) t)
    | TRecvWrite id', TRecv _ _ _ _ :: _, Some _ => if negb (id =? id') then DStuck else go (op_end now i t)
    | _, _, _ => DStuck
    end.
  (** add_send_packet: blocks/router.py:151-158. *)
  Definition on_add (now i : Z) (t : dtile) : dres dtile :=
    match x_phase t, x_prog t with
    | TAddNew row rest, TSend _ target _ _ :: _ =>
        dbind (DGo (dt_rt t (rt_queue (x_rt t) (u_queue (x_rt t) ++ [MkPacket i target row]))) [soon (VSendPut i)])
          (fun t => timeout (w_data_lat (y_net c)) (VAddTime i) (dt_phase t (TAdding rest now)))
    | _, _ => DStuck
    end.
  Definition on_add_time (now i : Z) (t : dtile) : dres dtile :=
    match x_phase t with
    | TAdding rest since =>
        if now <? since + w_data_lat (y_net c) then DStuck
        else
          let x := u_stat (x_rt t) in
          DGo (dt_phase (dt_rt t (rt_stat (x_rt t)
                 (MkRStats (packets_created x + 1) (packets_sent_internode x) (packets_sent_intranode x)
                    (packets_sent x) (packets_received x) (packets_read x)))) (TAdded rest)) [soon (VAdded i)]
    | _ => DStuck
    end.
  Definition on_added (now i : Z) (t : dtile) : dres dtile :=
    match x_phase t with TAdded rest => go (send_rows now i rest t) | _ => DStuck end.
  (** execute_receive after read_packet: tile.py:73-80. *)
  Definition on_read_end (now i : Z) (t : dtile) : dres dtile :=
    match x_phase t, x_prog t with
    | TReadEnd src got data, TRecv addr source width vec :: _ =>
        if zlen data =? width then recv_rows now i addr vec (got ++ [data]) t else go (op_end now i t)
    | _, _ => DStuck
    end.
  (** stop_after_all_packets_sent: blocks/router.py:106-127. *)
  Definition on_stop (now i : Z) (t : dtile) : dres dtile :=
    match x_phase t with
    | TStopNew => if u_running (x_rt t) then DGo (dt_phase t (TPolling now)) [start (VPoll i)]
                  else DGo (dt_phase t TStopEnd) [soon (VStopped i)]
    | _ => DStuck
    end.
  (** check_queue: blocks/router.py:114-121. *)
  Definition on_poll (now i : Z) (t : dtile) : dres dtile :=
    match x_phase t with
    | TPolling next =>
        if now <? next then DStuck
        else match u_queue (x_rt t) with
             | _ :: _ => DGo (dt_phase t (TPolling (now + 1))) [later 1 (VPollTime i)]
             | [] => DGo (dt_phase t TEmptied) [soon (VEmpty i)]
             end
    | _ => DStuck
    end.
  Definition on_poll_time (i : Z) (t : dtile) : dres dtile :=
    match x_phase t with TPolling _ => DGo t [start (VPoll i)] | _ => DStuck end.
  (** Router.stop and the end of stop_after_all_packets_sent: blocks/router.py:97-104, 134.  The send thread is waiting for a
      packet (it is interrupted in the code wherever it is). *)
  Definition router_stop (i : Z) (t : dtile) : dres dtile :=
    let u := x_rt t in
    match u_sender u with
    | ZWaiting =>
        DGo (dt_phase (dt_rt t (MkRt false (u_queue u) (u_sender u) (u_buffers u) (u_event u) (u_stat u))) TStopEnd)
          [start (VSenderInt i); soon (VStopped i)]
    | _ => DStuck
    end.
  (** blocks/router.py:127-134 *)
  Definition on_empty (i : Z) (t : dtile) : dres dtile :=
    match x_phase t with
    | TEmptied => match u_event (x_rt t) with
                  | None | Some (_, Processed) => router_stop i t
                  | Some (n, _) => DGo (dt_phase t (TSentWait n)) []
                  end
    | _ => DStuck
    end.
  (** sending_event is processed. *)
  Definition on_sent (i number : Z) (t : dtile) : dres dtile :=
    match u_event (x_rt t) with
    | Some (n, Triggered) =>
        if n =? number then
          let t1 := dt_rt t (rt_event (x_rt t) (Some (n, Processed))) in
          match x_phase t with
          | TSentWait n' => if n' =? number then router_stop i t1 else DGo t1 []
          | _ => DGo t1 []
          end
        else DGo t []
    | _ => DGo t []
    end.
  (** execute_halt after stop_after_all_packets_sent: tile.py:99-101. *)
  Definition on_stopped (now i : Z) (t : dtile) : dres dtile :=
    match x_phase t with
    | TStopEnd => dbind (ctl_stop now i (x_ctl t)) (fun d => go (op_end now i (dt_ctl t d)))
    | _ => DStuck
    end.
  Definition on_all_cores (i : Z) (t : dtile) : dres dtile :=
    match x_phase t with THaltAll => go (begin_stop i t) | _ => DStuck end.
  (** Core.run after its yield, core.py:151-157, and the end of its process. *)
  Definition pipe_done (begin now i k : Z) (x : dcore) : dres dcore :=
    match k_proc x, k_mon x with
    | CRunning, MEnd => DGo (set_proc x CEnding (now - begin)) [soon (VCoreEnd i k)]
    | _, _ => DStuck
    end.
  Definition core_end (i k : Z) (t : dtile) : dres dtile :=
    match nth_error (x_cores t) (Z.to_nat k) with
    | Some x =>
        match k_proc x with
        | CEnding =>
            let t1 := dt_core t k (set_proc x CEnded (k_cycles x)) in
            match x_phase t with
            | THaltWait => if forallb core_over (x_cores t1) then DGo (dt_phase t1 THaltAll) [soon (VAllCores i)] else DGo t1 []
            | _ => DGo t1 []
            end
        | _ => DStuck
        end
    | None => DStuck
    end.

  (** *** Receive buffers: between two tiles *)
  Definition the_tile (n : dnode) (i : Z) : option dtile := if i <? 0 then None else nth_error (z_tiles n) (Z.to_nat i).
  Definition put_tile (n : dnode) (i : Z) (t : dtile) : dnode :=
    MkDNode (upd (z_tiles n) (Z.to_nat i) t) (z_begin n) (z_next n) (z_busy n) (z_monitor n) (z_fin n).
  (** An event of tile [i] after the start of Tile.run. *)
  Definition is_new (t : dtile) : bool := match x_phase t with TNew => true | _ => false end.
  Definition on_tile (n : dnode) (i : Z) (f : dtile -> dres dtile) : dres dnode :=
    match the_tile n i with
    | Some t => if is_new t then DStuck else dmap (put_tile n i) (f t)
    | None => DStuck
    end.
  Definition start_tile (n : dnode) (i now : Z) : dres dnode :=
    match the_tile n i with
    | Some t => dmap (put_tile n i) (tile_start (z_begin n) now i t)
    | None => DStuck
    end.
  Definition buffer_of (u : drt) (src : Z) : list (list Z) := nth (Z.to_nat src) (u_buffers u) [].

  (** Store._trigger_put of receive_buffers[src] of tile [dst]: capacity 1 (blocks/router.py:88); only the router of tile
      [src] puts into it. *)
  Definition recv_put (src dst : Z) (n : dnode) : dres dnode :=
    match the_tile n src with
    | None => DGo n []
    | Some t =>
        match u_sender (x_rt t) with
        | ZPutting p inter =>
            if negb (pk_dst p =? dst) then DGo n []
            else
              let n1 := put_tile n src (dt_rt t (rt_sender (x_rt t) (ZPut p inter))) in
              match the_tile n1 dst with
              | None => DStuck
              | Some t' =>
                  match buffer_of (x_rt t') src with
                  | [] => if is_new t' then DStuck else
                      DGo (put_tile n1 dst (dt_rt t' (rt_buffer (x_rt t') src [pk_data p]))) [soon (VTaken src)]
                  | _ :: _ => DGo n []
                  end
              end
        | _ => DGo n []
        end
    end.
  (** Store._trigger_get of receive_buffers[src] of tile [dst]; only the tile gets from it. *)
  Definition recv_get (src dst : Z) (n : dnode) : dres dnode :=
    match the_tile n dst with
    | None => DGo n []
    | Some t =>
        match x_phase t with
        | TReading src' got =>
            if negb (src' =? src) then DGo n []
            else match buffer_of (x_rt t) src with
                 | d :: r => DGo (put_tile n dst (dt_phase (dt_rt t (rt_buffer (x_rt t) src r)) (TPopped src got d))) [soon (VPopped dst)]
                 | [] => DGo n []
                 end
        | _ => DGo n []
        end
    end.
  (** receive_packet up to its yield: blocks/router.py:192-195. *)
  Definition on_offer (i : Z) (n : dnode) : dres dnode :=
    match the_tile n i with
    | None => DStuck
    | Some t =>
        match u_sender (x_rt t) with
        | ZOffering p inter =>
            if negb (buffer_key (y_net c) (pk_dst p) (pk_src p)) then DRaise KeyError
            else recv_put i (pk_dst p) (put_tile n i (dt_rt t (rt_sender (x_rt t) (ZPutting p inter))))
        | _ => DStuck
        end
    end.
  (** The put event is processed: the buffer serves a get, receive_packet counts and ends: blocks/router.py:195-198. *)
  Definition on_taken (i : Z) (n : dnode) : dres dnode :=
    match the_tile n i with
    | None => DStuck
    | Some t =>
        match u_sender (x_rt t) with
        | ZPut p inter =>
            dbind (recv_get i (pk_dst p) n) (fun n1 =>
            dbind (on_tile n1 i (fun t => DGo (dt_rt t (rt_sender (x_rt t) (ZArrived p inter))) [])) (fun n2 =>
            on_tile n2 (pk_dst p) (fun t' =>
              let x := u_stat (x_rt t') in
              DGo (dt_rt t' (rt_stat (x_rt t')
                (MkRStats (packets_created x) (packets_sent_internode x) (packets_sent_intranode x)
                   (packets_sent x) (packets_received x + 1) (packets_read x)))) [soon (VArrived i)])))
        | _ => DStuck
        end
    end.
  (** read_packet up to its yield: blocks/router.py:200-202. *)
  Definition on_read (i : Z) (n : dnode) : dres dnode :=
    match the_tile n i with
    | None => DStuck
    | Some t =>
        match x_phase t, x_prog t with
        | TReadNew got, TRecv _ source _ _ :: _ =>
            if negb (buffer_key (y_net c) i source) then DRaise KeyError
            else recv_get source i (put_tile n i (dt_phase t (TReading source got)))
        | _, _ => DStuck
        end
    end.
  (** The get event is processed: the buffer serves a put, read_packet counts and ends: blocks/router.py:202-207. *)
  Definition on_popped (i : Z) (n : dnode) : dres dnode :=
    match the_tile n i with
    | None => DStuck
    | Some t =>
        match x_phase t with
        | TPopped src got data =>
            dbind (recv_put src i n) (fun n1 =>
            on_tile n1 i (fun t =>
              let x := u_stat (x_rt t) in
              DGo (dt_phase (dt_rt t (rt_stat (x_rt t)
                (MkRStats (packets_created x) (packets_sent_internode x) (packets_sent_intranode x)
                   (packets_sent x) (packets_received x) (packets_read x + 1)))) (TReadEnd src got data)) [soon (VReadEnd i)]))
        | _ => DStuck
        end
    end.

  (** *** The node *)
  (** blocks/noc.py:84-93 *)
  Definition rt_busy (u : drt) : bool := u_running u && (0 <? zlen (u_queue u)).
  Definition on_monitor (now : Z) (n : dnode) : dres dnode :=
    if negb (z_monitor n) then DGo n []
    else if negb (now =? z_next n) then DStuck
    else DGo (MkDNode (z_tiles n) (z_begin n) (now + 1)
                (if existsb (fun t => rt_busy (x_rt t)) (z_tiles n) then z_busy n + 1 else z_busy n) (z_monitor n) (z_fin n))
           [later 1 VMonitor].
  Definition set_fin (n : dnode) (f : fstate) : dnode :=
    MkDNode (z_tiles n) (z_begin n) (z_next n) (z_busy n) (z_monitor n) f.
  (** The end of Tile.run is processed: the condition of node.py:42. *)
  Definition tile_end (i : Z) (n : dnode) : dres dnode :=
    dbind (on_tile n i (fun t =>
             match x_phase t with
             | TDone => DGo (MkDTile (x_ctl t) (x_rt t) (x_cores t) (x_prog t) (x_phase t) (x_cycles t) true) []
             | _ => DStuck
             end))
      (fun n1 => DGo n1 (if forallb x_ended (z_tiles n1) then [soon VAllTiles] else [])).
  (** node.py:43: Network.stop_tracking interrupts the monitor, blocks/noc.py:70-77; Node.run ends. *)
  Definition all_tiles (n : dnode) : dres dnode :=
    match z_fin n, forallb x_ended (z_tiles n) with
    | FRunning, true => DGo (set_fin n FNode) [start VMonitorInt; soon VNodeEnd]
    | _, _ => DStuck
    end.
  Definition monitor_int (n : dnode) : dres dnode :=
    match z_fin n with
    | FRunning => DStuck
    | _ => DGo (MkDNode (z_tiles n) (z_begin n) (z_next n) (z_busy n) false (z_fin n)) []
    end.
  (** ramwich.py:199: the condition succeeds; its processing ends Environment.run. *)
  Definition node_end (n : dnode) : dres dnode :=
    match z_fin n with FNode => DGo (set_fin n FCond) [soon VRunEnd] | _ => DStuck end.
  Definition run_end (n : dnode) : dres dnode :=
    match z_fin n with FCond => DGo (set_fin n FEnd) [] | _ => DStuck end.

  (** An event of a core, with or without the memory controller of its tile. *)
  Definition on_core2 (n : dnode) (i k : Z) (f : dctl -> dcore -> dres (dctl * dcore)) : dres dnode :=
    on_tile n i (fun t =>
      if k <? 0 then DStuck
      else match nth_error (x_cores t) (Z.to_nat k) with
           | Some x => dmap (fun dx => dt_core (dt_ctl t (fst dx)) k (snd dx)) (f (x_ctl t) x)
           | None => DStuck
           end).
  Definition on_core (n : dnode) (i k : Z) (f : dcore -> dres dcore) : dres dnode :=
    on_core2 n i k (fun d x => dmap (fun x' => (d, x')) (f x)).
  Definition on_ctl (n : dnode) (i : Z) (f : dctl -> dres dctl) : dres dnode :=
    on_tile n i (fun t => dmap (dt_ctl t) (f (x_ctl t))).
  Definition on_rt (n : dnode) (i : Z) (f : drt -> dres drt) : dres dnode :=
    on_tile n i (fun t => dmap (dt_rt t) (f (x_rt t))).

  (** The processing of an event at a time. *)
  Definition fire (now : Z) (e : ev) (n : dnode) : dres dnode :=
    match e with
    | VMonitor => on_monitor now n
    | VMonitorInt => monitor_int n
    | VTile i => start_tile n i now
    | VCore i k => on_core n i k (core_start (z_begin n) now i k)
    | VStage i k s => on_core n i k (stage_start i k s)
    | VPipe i k => on_core n i k (pipe_start i k)
    | VPut i k s => on_core n i k (on_put i k s)
    | VGot i k s => on_core2 n i k (on_got now i k s)
    | VTime i k s => on_core n i k (on_time i k s)
    | VLoadNew i k => on_core n i k (load_new i k)
    | VLoadTime i k => on_core n i k (load_time i k)
    | VLoaded i k => on_core n i k (memory_end i k true)
    | VStoreNew i k => on_core n i k (store_new i k)
    | VStoreTime i k => on_core2 n i k (store_time now i k)
    | VStored i k => on_core n i k (memory_end i k false)
    | VStageDone i k s => on_core n i k (stage_done i k s)
    | VPipeDone i k => on_core n i k (pipe_done (z_begin n) now i k)
    | VCoreEnd i k => on_tile n i (if k <? 0 then fun _ => DStuck else core_end i k)
    | VHandler i => on_ctl n i (handler_start i)
    | VReqPut i => on_ctl n i (fun d => go (req_get i d))
    | VReqGot i => on_ctl n i (on_req i)
    | VHandlerInt i => on_ctl n i handler_int
    | VThread i id => on_ctl n i (thread_start i id)
    | VGrant i => on_ctl n i (on_grant now i)
    | VThreadTime i => on_ctl n i (thread_end now i)
    | VRelease i => on_ctl n i (fun d => go (bus_give i d))
    | VDone i k id =>
        if k =? -1 then on_tile n i (tile_done now i id)
        else on_core2 n i k (fun d x => dmap (fun x' => (d, x')) (load_done i k id (c_values d) x))
    | VSender i => on_rt n i (sender_start now i)
    | VSendPut i => on_rt n i (fun u => go (send_get now i u))
    | VSendGot i => on_rt n i (on_send i)
    | VTravel i => on_rt n i (on_travel now i)
    | VOffer i => on_offer i n
    | VTaken i => on_taken i n
    | VArrived i => on_rt n i (on_arrived now i)
    | VSent i number => on_tile n i (on_sent i number)
    | VSenderInt i => on_rt n i sender_int
    | VOp i => on_tile n i (on_op now i)
    | VOpEnd i => on_tile n i (on_op_end (z_begin n) now i)
    | VTileEnd i => tile_end i n
    | VAdd i => on_tile n i (on_add now i)
    | VAddTime i => on_tile n i (on_add_time now i)
    | VAdded i => on_tile n i (on_added now i)
    | VRead i => on_read i n
    | VPopped i => on_popped i n
    | VReadEnd i => on_tile n i (on_read_end now i)
    | VAllCores i => on_tile n i (on_all_cores i)
    | VStop i => on_tile n i (on_stop now i)
    | VPoll i => on_tile n i (on_poll now i)
    | VPollTime i => on_tile n i (on_poll_time i)
    | VEmpty i => on_tile n i (on_empty i)
    | VStopped i => on_tile n i (on_stopped now i)
    | VAllTiles => all_tiles n
    | VNodeEnd => node_end n
    | VRunEnd => run_end n
    end.

  (** ** Environment.step and Environment.run *)
  (** A simulation: the current time, the queue and the state. *)
  Record des := MkDes { w_now : Z; w_queue : list (entry ev); w_node : dnode }.
  Inductive next := NStep (s : des) | NRaise (e : exn) | NStuck | NEmpty | NOver.
  Definition des_step (s : des) : next :=
    match z_fin (w_node s) with
    | FEnd => NOver
    | _ =>
        match w_queue s with
        | [] => NEmpty
        | x :: q =>
            match fire (e_time x) (e_ev x) (w_node s) with
            | DGo n new => NStep (MkDes (e_time x) (schedule (e_time x) new q) n)
            | DRaise e => NRaise e
            | DStuck => NStuck
            end
        end
    end.
  Fixpoint des_run (fuel : nat) (s : des) : des * next :=
    match fuel with
    | O => (s, NStep s)
    | S f => match des_step s with NStep s' => des_run f s' | r => (s, r) end
    end.

  (** ** The start of a simulation *)
  Definition core_new (kp : K * list cop) : dcore :=
    MkDCore (fst kp) CNew 0 (snd kp) (MkTri [] [] []) (MkTri GNew GNew GNew) XNone (MkTri Pending Pending Pending) MNew.
  Definition ctl_new (m : M) : dctl := MkCtl m false [] HNew [] [] BFree [] dstats0 0 0 [].
  Definition rt_new : drt := MkRt false [] ZNew [] None rstats0.
  Definition tile_new (m : M) (cores : list (K * list cop)) (prog : list top) : dtile :=
    MkDTile (ctl_new m) rt_new (map core_new cores) prog TNew 0 false.
  (** Node.run is started and has started its processes: ramwich.py:193-195, node.py:35-42 (first the monitor, then the
      tiles); with no tiles the condition holds at once. *)
  Definition des_begin (now : Z) (tiles : list dtile) : des :=
    MkDes now
      (schedule now (start VMonitor :: map (fun i => start (VTile (Z.of_nat i))) (seq 0 (length tiles))
                     ++ (match tiles with [] => [soon VAllTiles] | _ => [] end)) [])
      (MkDNode tiles now now 0 true FRunning).
End Processes.
Arguments MkDes {K M}. Arguments w_now {K M}. Arguments w_queue {K M}. Arguments w_node {K M}.
Arguments NStep {K M}. Arguments NRaise {K M}. Arguments NStuck {K M}. Arguments NEmpty {K M}. Arguments NOver {K M}.

(** ** The code's cores and memories *)
(** The cells of a memory and their validity flags. *)
Record cells_valid := MkCells { y_mem : memory; y_valid : list bool }.
(** visitor.py (CoreModel), blocks/dram_controller.py:209, 236, 260-264 (DramModel). *)
Definition real (c : sys_cfg) : machine core cells_valid :=
  MkMachine (exec_local (y_core c)) (load_address (y_core c)) (load_finish (y_core c)) (store_request (y_core c))
    (fun m r => ready (y_valid m) r)
    (fun m r => let '(v, x) := mem_read (y_mem m) (q_start r) (q_length r) (q_batches r) in (v, MkCells x (y_valid m)))
    (fun m r rows => let '(v, x) := mem_write (y_mem m) (q_start r) (concat rows) (q_batches r) in
                     (v, MkCells x (set_valid (y_valid m) (q_start r) (q_start r + q_length r)))).
(** Node.__init__, the loaders and RAMwich.load_activation: as in SystemModel.  The activation goes to tile 0. *)
Definition cells_new (c : sys_cfg) (act : list Z) (i : Z) : cells_valid :=
  let d := dram_init (y_size c) in
  let d' := if i =? 0 then match dc_preload act d with Some x => x | None => d end else d in
  MkCells (d_mem d') (d_valid d').
Definition des_first (c : sys_cfg) (now : Z) (j : job) : des :=
  des_begin now (map (fun i => tile_new (cells_new c (j_activation j) i) (j_cores j i) (j_prog j i)) (zrange (w_tiles (y_net c)))).
