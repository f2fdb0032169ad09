(** blocks/dram_controller.py.

    The controller is a transition system: an action is one segment of code between two yields (or
    one call from outside), and every order of enabled actions is a schedule.  The real scheduler
    (simpy's event queue) produces some of these schedules.  What is used of simpy: a Store hands
    out its items first in first out, a Resource of capacity 1 is granted first in first out, and
    processes started one after the other at the same time make their first step in that order. *)
From Verif Require Import PyBase MemoryModel.

(** Request, ReadRequest, WriteRequest: blocks/dram_controller.py:14-49.  [q_id] stands for the
    identity of done_event (numbered in order of creation).  The rows of a write are data[0], data[1], ...; Simplification: times
    are integers. *)
Inductive rkind := RRead (batch_size num_batches : Z) | RWrite (data : list (list Z)).
Record req := MkReq { q_id : Z; q_core : Z; q_start : Z; q_time : Z; q_kind : rkind }.

Definition is_read (r : req) : bool := match q_kind r with RRead _ _ => true | RWrite _ => false end.
(** blocks/dram_controller.py:33-35 and 42-44 *)
Definition q_length (r : req) : Z :=
  match q_kind r with RRead b n => b * n | RWrite d => zlen (concat d) end.
(** blocks/dram_controller.py:30 and 47-49 *)
Definition q_batches (r : req) : Z :=
  match q_kind r with RRead _ n => n | RWrite d => zlen d end.

(** DRAMControllerStats: blocks/dram_controller.py:52-65. *)
Record dstats := MkDStats {
  read_requests : Z; write_requests : Z; total_requests : Z;
  total_wait_time : Z; max_wait_time : Z; active_cycles : Z; operating_time : Z }.
Definition dstats0 : dstats := MkDStats 0 0 0 0 0 0 0.

(** History of the memory, oldest first (not in the code): values preloaded from address 0, and
    the requests in the order in which they were completed, with the times at which the bus was
    granted and released and the data returned by a read. *)
Inductive entry :=
| EPreload (vals : list Z)
| EDone (r : req) (granted finished : Z) (data : list Z).

(** DRAMController: blocks/dram_controller.py:89-108 and the processes it has started.
    [d_bus] are the requests whose thread has asked for the bus, oldest first; the first one holds
    it, [d_granted] is the time since when (None: not yet granted).  [d_submitted], [d_history],
    [d_waited] and [d_failed] only record what happened (they do not occur in the code). *)
Record dram := MkDram {
  d_mem : memory;
  d_valid : list bool;
  d_running : bool;
  d_queue : list req;
  d_pending : list req;
  d_bus : list req;
  d_granted : option Z;
  d_stat : dstats;
  d_start_time : Z;
  d_crash : option exn;
  d_submitted : list req;
  d_history : list entry;
  d_waited : list Z;
  d_failed : list req }.

(** DRAMController.__init__ and run: blocks/dram_controller.py:90-122. *)
Definition dram_init (size : Z) : dram :=
  MkDram (mem_init size) (repeat false (Z.to_nat size)) false [] [] [] None dstats0 0 None [] [] [] [].

(** np.all(valid[start : start + length]) with python's slice bounds:
    blocks/dram_controller.py:209 and 284. *)
Definition ready (valid : list bool) (r : req) : bool :=
  forallb (fun b => b) (pyslice valid (q_start r) (q_start r + q_length r)).

(** valid[start : start + length] = True: blocks/dram_controller.py:264. *)
Definition set_valid (valid : list bool) (start stop : Z) : list bool :=
  let n := zlen valid in
  let s := slice_bound n start in
  let e := slice_bound n stop in
  blit valid s (repeat true (Z.to_nat (Z.max 0 (e - s)))).

(** list.remove(request): requests are equal only if their events are the same object. *)
Fixpoint remove_first (id : Z) (l : list req) : list req :=
  match l with
  | [] => []
  | r :: t => if q_id r =? id then t else r :: remove_first id t
  end.

(** DRAMController._update_ready_requests: blocks/dram_controller.py:277-286.  A python list
    iterator keeps an index into the list that the loop body shortens; [fuel] bounds the number of
    iterations (the length of the list is enough). *)
Fixpoint release_loop (fuel : nat) (i : nat) (valid : list bool) (pending queue : list req)
  : list req * list req :=
  match fuel with
  | O => (pending, queue)
  | S f => match nth_error pending i with
           | None => (pending, queue)
           | Some r => if ready valid r
                       then release_loop f (S i) valid (remove_first (q_id r) pending) (queue ++ [r])
                       else release_loop f (S i) valid pending queue
           end
  end.
Definition update_ready (valid : list bool) (pending queue : list req) : list req * list req :=
  release_loop (length pending) 0 valid pending queue.

(** Actions. *)
Inductive dact :=
| APreload (vals : list Z)                        (* RAMwich.load_activation *)
| ASubmit (core start : Z) (k : rkind)            (* submit_read_request, submit_write_request *)
| AHandle                                         (* one round of request_handler *)
| AGrant                                          (* the first thread gets the bus *)
| AFinish                                         (* ... and has waited for the latency *)
| AStop.                                          (* stop *)

Definition set_crash (d : dram) (e : exn) : dram :=
  MkDram (d_mem d) (d_valid d) (d_running d) (d_queue d) (d_pending d) (d_bus d) (d_granted d)
    (d_stat d) (d_start_time d) (Some e) (d_submitted d) (d_history d) (d_waited d) (d_failed d).

(** run: blocks/dram_controller.py:110-122. *)
Definition dc_run (now : Z) (d : dram) : dram :=
  if d_running d then d
  else MkDram (d_mem d) (d_valid d) true [] (d_pending d) [] None (d_stat d) now (d_crash d)
         (d_submitted d) (d_history d) (d_waited d) (d_failed d).

(** ramwich.py:178-179: the cells and validity flags from address 0 on, for at most size values
    (ramwich.py:167-170). *)
Definition dc_preload (vals : list Z) (d : dram) : option dram :=
  if msize (d_mem d) <? zlen vals then None
  else Some (MkDram (MkMem (msize (d_mem d)) (blit (cells (d_mem d)) 0 (map wrap32 vals)) (mstat (d_mem d)))
         (set_valid (d_valid d) 0 (zlen vals)) (d_running d) (d_queue d) (d_pending d) (d_bus d)
         (d_granted d) (d_stat d) (d_start_time d) (d_crash d) (d_submitted d)
         (d_history d ++ [EPreload vals]) (d_waited d) (d_failed d)).

(** submit_read_request and submit_write_request: blocks/dram_controller.py:148-197.  Each request
    gets a new event. *)
Definition dc_submit (now core start : Z) (k : rkind) (d : dram) : res req * dram :=
  if negb (d_running d) then (Raise RuntimeError, d)
  else
    let r := MkReq (zlen (d_submitted d)) core start now k in
    let s := d_stat d in
    let n := q_batches r in
    let s' := if is_read r
              then MkDStats (read_requests s + n) (write_requests s) (total_requests s + n)
                     (total_wait_time s) (max_wait_time s) (active_cycles s) (operating_time s)
              else MkDStats (read_requests s) (write_requests s + n) (total_requests s + n)
                     (total_wait_time s) (max_wait_time s) (active_cycles s) (operating_time s) in
    (Ok r, MkDram (d_mem d) (d_valid d) (d_running d) (d_queue d ++ [r]) (d_pending d) (d_bus d)
             (d_granted d) s' (d_start_time d) (d_crash d) (d_submitted d ++ [r])
             (d_history d) (d_waited d) (d_failed d)).

(** One round of request_handler: blocks/dram_controller.py:203-218, and the start of the thread up
    to its request for the bus (224-227, 248-251). *)
Definition dc_handle (d : dram) : option dram :=
  if negb (d_running d) then None
  else
  match d_queue d with
  | [] => None
  | r :: rest =>
      if is_read r && negb (ready (d_valid d) r)
      then Some (MkDram (d_mem d) (d_valid d) (d_running d) rest (d_pending d ++ [r]) (d_bus d)
                   (d_granted d) (d_stat d) (d_start_time d) (d_crash d) (d_submitted d)
                   (d_history d) (d_waited d ++ [q_id r]) (d_failed d))
      else Some (MkDram (d_mem d) (d_valid d) (d_running d) rest (d_pending d) (d_bus d ++ [r])
                   (d_granted d) (d_stat d) (d_start_time d) (d_crash d) (d_submitted d)
                   (d_history d) (d_waited d) (d_failed d))
  end.

(** The first thread gets the bus: blocks/dram_controller.py:227-233 and 251-257; a negative delay
    raises. *)
Definition dc_grant (lat now : Z) (d : dram) : option dram :=
  match d_bus d, d_granted d with
  | r :: _, None =>
      if lat * q_batches r <? 0 then Some (set_crash d ValueError)
      else Some (MkDram (d_mem d) (d_valid d) (d_running d) (d_queue d) (d_pending d) (d_bus d)
                   (Some now) (d_stat d) (d_start_time d) (d_crash d) (d_submitted d)
                   (d_history d) (d_waited d) (d_failed d))
  | _, _ => None
  end.

(** blocks/dram_controller.py:239-241 and 270-272. *)
Definition finish_stats (lat now : Z) (r : req) (s : dstats) : dstats :=
  MkDStats (read_requests s) (write_requests s) (total_requests s)
    (total_wait_time s + (now - q_time r)) (Z.max (max_wait_time s) (now - q_time r))
    (active_cycles s) (operating_time s + lat * q_batches r).

(** The rest of _read_thread and _write_thread: blocks/dram_controller.py:236-244 and 260-275.
    An exception stops the simulation. *)
Definition dc_finish (lat now : Z) (d : dram) : option dram :=
  match d_bus d, d_granted d with
  | r :: rest, Some g =>
      if now <? g + lat * q_batches r then None
      else match q_kind r with
      | RRead _ _ =>
          match mem_read (d_mem d) (q_start r) (q_length r) (q_batches r) with
          | (Raise e, _) => Some (set_crash d e)
          | (Ok data, m) =>
              Some (MkDram m (d_valid d) (d_running d) (d_queue d) (d_pending d) rest None
                      (finish_stats lat now r (d_stat d)) (d_start_time d) (d_crash d) (d_submitted d)
                      (d_history d ++ [EDone r g now data]) (d_waited d) (d_failed d))
          end
      | RWrite data =>
          match mem_write (d_mem d) (q_start r) (concat data) (q_batches r) with
          | (Raise e, _) => Some (set_crash d e)
          | (Ok _, m) =>
              let valid := set_valid (d_valid d) (q_start r) (q_start r + q_length r) in
              let '(pending, queue) := update_ready valid (d_pending d) (d_queue d) in
              Some (MkDram m valid (d_running d) queue pending rest None
                      (finish_stats lat now r (d_stat d)) (d_start_time d) (d_crash d) (d_submitted d)
                      (d_history d ++ [EDone r g now []]) (d_waited d) (d_failed d))
          end
      end
  | _, _ => None
  end.

(** stop: blocks/dram_controller.py:124-146.  The list of waiting reads is not emptied. *)
Definition dc_stop (now : Z) (d : dram) : dram :=
  if negb (d_running d) then d
  else
    let s := d_stat d in
    MkDram (d_mem d) (d_valid d) false (d_queue d) (d_pending d) (d_bus d) (d_granted d)
      (MkDStats (read_requests s) (write_requests s) (total_requests s) (total_wait_time s)
         (max_wait_time s) (active_cycles s + (now - d_start_time d)) (operating_time s))
      (d_start_time d) (d_crash d) (d_submitted d) (d_history d) (d_waited d) (d_failed d ++ d_pending d).

(** reset: blocks/dram_controller.py:288-292. *)
Definition dc_reset (d : dram) : dram :=
  MkDram (mem_reset (d_mem d)) (map (fun _ => false) (d_valid d)) (d_running d) (d_queue d)
    (d_pending d) (d_bus d) (d_granted d) dstats0 (d_start_time d) (d_crash d) (d_submitted d)
    (d_history d) (d_waited d) (d_failed d).

(** One action at a given time; None: not enabled.  After an exception in a thread nothing is
    enabled (env.run ends).  A rejected submission leaves the controller as it is. *)
Definition dstep (lat now : Z) (a : dact) (d : dram) : option dram :=
  match d_crash d with
  | Some _ => None
  | None =>
      match a with
      | APreload vals => dc_preload vals d
      | ASubmit core start k => Some (snd (dc_submit now core start k d))
      | AHandle => dc_handle d
      | AGrant => dc_grant lat now d
      | AFinish => dc_finish lat now d
      | AStop => Some (dc_stop now d)
      end
  end.
