(** blocks/router.py and blocks/noc.py: the routers of the tiles of one node.

    A transition system: an action is one segment of code between two yields of one process, and
    every order of enabled actions is a schedule.  A tile uses its router sequentially (tile.py:47-101);
    here it may make any calls in any order, so every tile program is covered.

    What is used of simpy: a Store hands out its items first in first out and its put waits while
    the capacity is reached; between the moment a Store hands an item to the waiting send thread and
    the moment the thread continues, nothing that was triggered later is processed.  The latter
    justifies making "the item leaves the queue" and "sending_event is renewed" (router.py:165-168)
    one action: a check_queue that finds the queue empty in between triggers empty_event
    (router.py:121) after the thread's continuation was scheduled, so stop_after_all_packets_sent
    looks at sending_event (router.py:130) after it was renewed.

    Each node has its own Network, to which only the routers of its own tiles are registered under
    the tile numbers 0, 1, ... of the node (node.py:19-20, tile.py:31), so the routers of one node
    are a closed system.  Simplification: times are integers. *)
From Verif Require Import PyBase.

(** config values used: Config.num_tiles_per_node, num_nodes, noc_config.noc_intra_lat,
    noc_inter_lat, core_config.dataMem_lat. *)
Record net_cfg := MkNetCfg { w_tiles : Z; w_nodes : Z; w_intra_lat : Z; w_inter_lat : Z; w_data_lat : Z }.

(** (source, target, data): router.py:153. *)
Record packet := MkPacket { pk_src : Z; pk_dst : Z; pk_data : list Z }.

(** The send thread, router.py:160-190: waiting at line 165; at line 175 (since when, is_inter_node);
    at line 178 with receive_packet waiting at line 195; line 195 done; receive_packet finished. *)
Inductive sender :=
| SIdle
| STravel (p : packet) (since : Z) (inter : bool)
| SOffer (p : packet) (inter : bool)
| SStored (p : packet) (inter : bool)
| SArrived (p : packet) (inter : bool).

(** What the tile is doing with its router: nothing, add_send_packet waiting at line 155 (since
    when), read_packet waiting at line 202, the same with the data handed out,
    stop_after_all_packets_sent polling the queue (next poll not before), or past line 127. *)
Inductive client :=
| KIdle
| KAdding (since : Z)
| KReading (src : Z)
| KGot (src : Z) (data : list Z)
| KPolling (next : Z)
| KDraining.

(** RouterStats: router.py:11-25. *)
Record rstats := MkRStats {
  packets_created : Z; packets_sent_internode : Z; packets_sent_intranode : Z;
  packets_sent : Z; packets_received : Z; packets_read : Z }.
Definition rstats0 : rstats := MkRStats 0 0 0 0 0 0.

(** Router: router.py:62-95.  [r_buffers src] are the items of receive_buffers[src].
    [r_submitted] and [r_delivered] record the packets given to add_send_packet and the (source,
    data) returned by read_packet (not in the code). *)
Record router := MkRouter {
  r_running : bool;
  r_queue : list packet;
  r_sender : sender;
  r_buffers : Z -> list (list Z);
  r_client : client;
  r_stat : rstats;
  r_submitted : list packet;
  r_delivered : list (Z * list Z) }.

(** The state after run of all routers, router.py:77-95. *)
Definition router_init : router := MkRouter true [] SIdle (fun _ => []) KIdle rstats0 [] [].

(** The routers of a node by tile number; the exception that ended the simulation. *)
Record net := MkNet { n_router : Z -> router; n_crash : option exn }.
Definition net_init : net := MkNet (fun _ => router_init) None.

Definition set_fun {A} (f : Z -> A) (i : Z) (v : A) : Z -> A := fun j => if j =? i then v else f j.
Definition set_router (s : net) (i : Z) (r : router) : net := MkNet (set_fun (n_router s) i r) (n_crash s).
Definition net_crash (s : net) (e : exn) : net := MkNet (n_router s) (Some e).

Definition set_sender (r : router) (x : sender) : router :=
  MkRouter (r_running r) (r_queue r) x (r_buffers r) (r_client r) (r_stat r) (r_submitted r) (r_delivered r).
Definition set_client (r : router) (x : client) : router :=
  MkRouter (r_running r) (r_queue r) (r_sender r) (r_buffers r) x (r_stat r) (r_submitted r) (r_delivered r).
Definition set_buffer (r : router) (src : Z) (items : list (list Z)) : router :=
  MkRouter (r_running r) (r_queue r) (r_sender r) (set_fun (r_buffers r) src items) (r_client r) (r_stat r)
    (r_submitted r) (r_delivered r).
Definition set_stat (r : router) (x : rstats) : router :=
  MkRouter (r_running r) (r_queue r) (r_sender r) (r_buffers r) (r_client r) x (r_submitted r) (r_delivered r).

(** Router._get_latency: router.py:136-149. *)
Definition get_latency (c : net_cfg) (source target : Z) : Z * bool :=
  if (source =? 0) || (target =? 1) || (source / w_tiles c =? target / w_tiles c)
  then (w_intra_lat c, false)
  else (w_intra_lat c + w_inter_lat c, true).

(** Capacity of a receive buffer: router.py:88. *)
Definition buffer_capacity : Z := 1.

(** Network.get_router, noc.py:55-59: the key must be registered. *)
Definition known_router (c : net_cfg) (id : Z) : bool := (0 <=? id) && (id <? w_tiles c).

(** Key of receive_buffers, router.py:85-88. *)
Definition buffer_key (c : net_cfg) (own src : Z) : bool :=
  (0 <=? src) && (src <? w_nodes c * w_tiles c) && negb (src =? own).

Inductive nact :=
| NSubmit (i target : Z) (data : list Z)   (* add_send_packet is called *)
| NAdded (i : Z)                           (* ... and returns *)
| NTake (i : Z)                            (* the send thread gets a packet *)
| NTravel (i : Z)                          (* the latency is over, receive_packet starts *)
| NStore (i : Z)                           (* the packet is stored in the receive buffer *)
| NCount (i : Z)                           (* receive_packet ends *)
| NDone (i : Z)                            (* the send thread continues *)
| NRead (i src : Z)                        (* read_packet is called *)
| NPop (i : Z)                             (* the receive buffer hands out a packet *)
| NGot (i : Z)                             (* read_packet returns *)
| NHalt (i : Z)                            (* stop_after_all_packets_sent is called *)
| NPoll (i : Z)                            (* check_queue *)
| NStopped (i : Z).                        (* stop_after_all_packets_sent returns *)

(** add_send_packet up to its yield, router.py:151-155.  Only on a running router: a tile reads its
    memory before it sends, which raises once it has halted (tile.py:50-54). *)
Definition n_submit (c : net_cfg) (now i target : Z) (data : list Z) (s : net) : option net :=
  let r := n_router s i in
  match r_client r, r_running r with
  | KIdle, true =>
      let p := MkPacket i target data in
      let r' := MkRouter true (r_queue r ++ [p]) (r_sender r) (r_buffers r) (KAdding now) (r_stat r)
                  (r_submitted r ++ [p]) (r_delivered r) in
      if w_data_lat c <? 0 then Some (net_crash (set_router s i r') ValueError)
      else Some (set_router s i r')
  | _, _ => None
  end.

(** router.py:157-158. *)
Definition n_added (c : net_cfg) (now i : Z) (s : net) : option net :=
  let r := n_router s i in
  match r_client r with
  | KAdding since =>
      if now <? since + w_data_lat c then None
      else
        let t := r_stat r in
        Some (set_router s i (set_client (set_stat r
          (MkRStats (packets_created t + 1) (packets_sent_internode t) (packets_sent_intranode t)
             (packets_sent t) (packets_received t) (packets_read t))) KIdle))
  | _ => None
  end.

(** router.py:165-175: get_router raises KeyError for an unknown target, a negative delay raises. *)
Definition n_take (c : net_cfg) (now i : Z) (s : net) : option net :=
  let r := n_router s i in
  match r_running r, r_sender r, r_queue r with
  | true, SIdle, p :: rest =>
      let '(lat, inter) := get_latency c (pk_src p) (pk_dst p) in
      let r' := MkRouter true rest (STravel p now inter) (r_buffers r) (r_client r) (r_stat r)
                  (r_submitted r) (r_delivered r) in
      if negb (known_router c (pk_dst p)) then Some (net_crash (set_router s i r') KeyError)
      else if lat <? 0 then Some (net_crash (set_router s i r') ValueError)
      else Some (set_router s i r')
  | _, _, _ => None
  end.

(** router.py:175-178 and 192-195: receive_buffers[source] raises KeyError if the receiver is the
    sender itself. *)
Definition n_travel (c : net_cfg) (now i : Z) (s : net) : option net :=
  let r := n_router s i in
  match r_sender r with
  | STravel p since inter =>
      if now <? since + fst (get_latency c (pk_src p) (pk_dst p)) then None
      else
        let s' := set_router s i (set_sender r (SOffer p inter)) in
        if buffer_key c (pk_dst p) (pk_src p) then Some s' else Some (net_crash s' KeyError)
  | _ => None
  end.

(** router.py:195: the put succeeds when the buffer has room. *)
Definition n_store (capacity i : Z) (s : net) : option net :=
  let r := n_router s i in
  match r_sender r with
  | SOffer p inter =>
      let s' := set_router s i (set_sender r (SStored p inter)) in
      let t := n_router s' (pk_dst p) in
      if zlen (r_buffers t (pk_src p)) <? capacity
      then Some (set_router s' (pk_dst p) (set_buffer t (pk_src p) (r_buffers t (pk_src p) ++ [pk_data p])))
      else None
  | _ => None
  end.

(** router.py:197-198: the counter of the receiving router. *)
Definition n_count (i : Z) (s : net) : option net :=
  let r := n_router s i in
  match r_sender r with
  | SStored p inter =>
      let s' := set_router s i (set_sender r (SArrived p inter)) in
      let t := n_router s' (pk_dst p) in
      let x := r_stat t in
      Some (set_router s' (pk_dst p) (set_stat t
        (MkRStats (packets_created x) (packets_sent_internode x) (packets_sent_intranode x)
           (packets_sent x) (packets_received x + 1) (packets_read x))))
  | _ => None
  end.

(** router.py:180-188. *)
Definition n_done (i : Z) (s : net) : option net :=
  let r := n_router s i in
  match r_sender r with
  | SArrived p inter =>
      let x := r_stat r in
      Some (set_router s i (set_sender (set_stat r
        (MkRStats (packets_created x)
           (if inter then packets_sent_internode x + 1 else packets_sent_internode x)
           (if inter then packets_sent_intranode x else packets_sent_intranode x + 1)
           (packets_sent x + 1) (packets_received x) (packets_read x))) SIdle))
  | _ => None
  end.

(** read_packet, router.py:200-202. *)
Definition n_read (c : net_cfg) (i src : Z) (s : net) : option net :=
  let r := n_router s i in
  match r_client r with
  | KIdle => let s' := set_router s i (set_client r (KReading src)) in
             if buffer_key c i src then Some s' else Some (net_crash s' KeyError)
  | _ => None
  end.

Definition n_pop (i : Z) (s : net) : option net :=
  let r := n_router s i in
  match r_client r with
  | KReading src => match r_buffers r src with
                    | d :: rest => Some (set_router s i (set_client (set_buffer r src rest) (KGot src d)))
                    | [] => None
                    end
  | _ => None
  end.

(** router.py:204-207. *)
Definition n_got (i : Z) (s : net) : option net :=
  let r := n_router s i in
  match r_client r with
  | KGot src d =>
      let x := r_stat r in
      Some (set_router s i
        (MkRouter (r_running r) (r_queue r) (r_sender r) (r_buffers r) KIdle
           (MkRStats (packets_created x) (packets_sent_internode x) (packets_sent_intranode x)
              (packets_sent x) (packets_received x) (packets_read x + 1))
           (r_submitted r) (r_delivered r ++ [(src, d)])))
  | _ => None
  end.

(** stop_after_all_packets_sent, router.py:106-127; it returns at once if the router is stopped. *)
Definition n_halt (now i : Z) (s : net) : option net :=
  let r := n_router s i in
  match r_client r with
  | KIdle => if r_running r then Some (set_router s i (set_client r (KPolling now))) else Some s
  | _ => None
  end.

(** check_queue, router.py:114-121. *)
Definition n_poll (now i : Z) (s : net) : option net :=
  let r := n_router s i in
  match r_client r with
  | KPolling next =>
      if now <? next then None
      else match r_queue r with
           | _ :: _ => Some (set_router s i (set_client r (KPolling (now + 1))))
           | [] => Some (set_router s i (set_client r KDraining))
           end
  | _ => None
  end.

(** router.py:129-134 and 97-104: waits while a packet is being sent (sending_event is renewed when
    a packet is taken and succeeds when it has arrived), then interrupts the send thread. *)
Definition n_stopped (i : Z) (s : net) : option net :=
  let r := n_router s i in
  match r_client r, r_sender r with
  | KDraining, SIdle =>
      Some (set_router s i
        (MkRouter false (r_queue r) (r_sender r) (r_buffers r) KIdle (r_stat r) (r_submitted r) (r_delivered r)))
  | _, _ => None
  end.

(** The tile an action belongs to. *)
Definition tile_of (a : nact) : Z :=
  match a with
  | NSubmit i _ _ | NAdded i | NTake i | NTravel i | NStore i | NCount i | NDone i
  | NRead i _ | NPop i | NGot i | NHalt i | NPoll i | NStopped i => i
  end.

(** One action at a given time, for receive buffers of the given capacity; None: not enabled.  After
    an exception nothing is enabled. *)
Definition nstep_cap (capacity : Z) (c : net_cfg) (now : Z) (a : nact) (s : net) : option net :=
  match n_crash s with
  | Some _ => None
  | None =>
      if negb (known_router c (tile_of a)) then None
      else match a with
      | NSubmit i target data => n_submit c now i target data s
      | NAdded i => n_added c now i s
      | NTake i => n_take c now i s
      | NTravel i => n_travel c now i s
      | NStore i => n_store capacity i s
      | NCount i => n_count i s
      | NDone i => n_done i s
      | NRead i src => n_read c i src s
      | NPop i => n_pop i s
      | NGot i => n_got i s
      | NHalt i => n_halt now i s
      | NPoll i => n_poll now i s
      | NStopped i => n_stopped i s
      end
  end.

(** The code: buffers of capacity 1. *)
Definition nstep : net_cfg -> Z -> nact -> net -> option net := nstep_cap buffer_capacity.
