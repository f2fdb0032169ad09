(** Property theorems: routers of a node. *)
From Verif Require Import PyBase RouterModel RouterSpec RouterProofs.
Open Scope Z_scope.

(** C39 (packets between two tiles arrive once and in order).  Under every schedule, what tile i
    submitted for tile j is what j has read from i, followed by what is in its hand, in its buffer,
    in flight and queued. *)
Theorem C39_stream :
  forall c t s i j, nreach c t s ->
    for_tile j (r_submitted (n_router s i)) =
    from_tile i (r_delivered (n_router s j)) ++ from_tile i (in_hand (n_router s j)) ++
    r_buffers (n_router s j) i ++ for_tile j (in_flight (n_router s i)) ++ for_tile j (r_queue (n_router s i)).
Proof. intros c t s i j R. exact (stream_reach c t s R i j). Qed.
Print Assumptions C39_stream.

(** Submissions carry their sender's number. *)
Theorem C39_packets_of_a_router_carry_its_number :
  forall c t s i, nreach c t s -> Forall (fun p => pk_src p = i) (r_submitted (n_router s i)).
Proof. intros c t s i R. exact (proj1 (own_reach c t s R i)). Qed.
Print Assumptions C39_packets_of_a_router_carry_its_number.

(** Three packets from tile 2 to tile 3, with one to tile 1 in between, and one from tile 0. *)
Example C39_case :
  nascending 0 (demo_acts ++ demo_more) = true /\
  for_tile 3 (r_submitted (n_router demo_end 2)) = [[1; 2]; [3]; [4; 5]] /\
  r_delivered (n_router demo_end 3) = [(2, [1; 2]); (2, [3])] /\ in_hand (n_router demo_end 3) = [(2, [4; 5])] /\
  r_buffers (n_router demo_end 3) 0 = [[9]] /\ r_buffers (n_router demo_end 1) 2 = [[7]].
Proof. vm_compute. repeat split. Qed.

(** C40 (router counters are exact).  Sent, created and received packets differ from the submitted
    and read ones exactly by those in progress. *)
Theorem C40_sending_counters :
  forall c t s i, nreach c t s ->
    let r := n_router s i in let x := r_stat r in
    packets_sent x = packets_sent_intranode x + packets_sent_internode x /\
    packets_sent x = zlen (r_submitted r) - zlen (r_queue r) - zlen (being_sent r) /\
    packets_created x = zlen (r_submitted r) - being_added r.
Proof.
  intros c t s i R. exact (sending_counters c t s i R).
Qed.
Print Assumptions C40_sending_counters.

Theorem C40_receiving_counters :
  forall c t s j, nreach c t s ->
    let r := n_router s j in let x := r_stat r in
    packets_read x = zlen (r_delivered r) /\
    packets_received x = packets_read x + zlen (in_hand r) + over_tiles c (fun i => zlen (r_buffers r i))
                         - over_tiles c (fun i => zlen (for_tile j (just_stored (n_router s i)))).
Proof. intros c t s j R. exact (receiving_counters c t s j R). Qed.
Print Assumptions C40_receiving_counters.

(** In [demo_end] tile 0 has not counted its packet yet. *)
Example C40_case :
  r_stat (n_router demo_end 2) = MkRStats 4 0 4 4 0 0 /\ r_stat (n_router demo_end 3) = MkRStats 0 0 0 0 3 2 /\
  over_tiles demo_cfg (fun i => zlen (r_buffers (n_router demo_end 3) i)) = 1 /\
  over_tiles demo_cfg (fun i => zlen (for_tile 3 (just_stored (n_router demo_end i)))) = 1 /\
  r_stat (n_router demo_mid 2) = MkRStats 4 0 3 3 0 0 /\ zlen (being_sent (n_router demo_mid 2)) = 1.
Proof. vm_compute. repeat split. Qed.

(** C41 (tiles of different nodes can exchange packets): false.  A packet for a tile of another
    node makes the simulation fail, for every configuration; so does a packet of a tile for itself;
    the inter-node counter is always zero and only packets for other tiles of the node arrive. *)
Theorem C41_refuted :
  exists c t s p, w_nodes c = 2 /\ nreach c t s /\ r_submitted (n_router s 2) = [p] /\
    w_tiles c <= pk_dst p < w_nodes c * w_tiles c /\ n_crash s = Some KeyError.
Proof. exact internode_fails. Qed.
Print Assumptions C41_refuted.

Theorem C41_other_node_fails :
  forall c t t' s s' i p rest, nreach c t s -> r_queue (n_router s i) = p :: rest ->
    ~ (0 <= pk_dst p < w_tiles c) -> nstep c t' (NTake i) s = Some s' -> n_crash s' = Some KeyError.
Proof. exact other_node_fails. Qed.
Print Assumptions C41_other_node_fails.

Theorem C41_self_send_fails :
  forall c t t' s s' i p since b, nreach c t s -> r_sender (n_router s i) = STravel p since b ->
    pk_dst p = i -> nstep c t' (NTravel i) s = Some s' -> n_crash s' = Some KeyError.
Proof. exact travel_self. Qed.
Print Assumptions C41_self_send_fails.

Theorem C41_internode_counter_is_zero :
  forall c t s i, nreach c t s -> packets_sent_internode (r_stat (n_router s i)) = 0.
Proof. intros c t s i R. exact (no_inter c t s R i). Qed.
Print Assumptions C41_internode_counter_is_zero.

Theorem C41_only_own_node_is_reached :
  forall c t s i p, nreach c t s -> n_crash s = None -> In p (just_stored (n_router s i)) ->
    0 <= pk_dst p < w_tiles c /\ pk_dst p <> i.
Proof. exact stored_target. Qed.
Print Assumptions C41_only_own_node_is_reached.

Example C41_case :
  get_latency demo_cfg 2 6 = (11, true) /\ get_latency demo_cfg 2 3 = (3, false) /\ get_latency demo_cfg 0 6 = (3, false) /\
  option_map n_crash (nrun demo_cfg abroad net_init) = Some (Some KeyError).
Proof. vm_compute. repeat split. Qed.

(** C42 (halting never loses a packet).  Once a router is stopped everything its tile submitted has
    been stored in the buffers of the receivers, and counted. *)
Theorem C42_stopped_router_has_delivered :
  forall c t s i j, nreach c t s -> r_running (n_router s i) = false ->
    for_tile j (r_submitted (n_router s i)) =
    from_tile i (r_delivered (n_router s j)) ++ from_tile i (in_hand (n_router s j)) ++ r_buffers (n_router s j) i.
Proof. exact stopped_delivered. Qed.
Print Assumptions C42_stopped_router_has_delivered.

Theorem C42_stopped_router_has_counted :
  forall c t s i, nreach c t s -> r_running (n_router s i) = false ->
    packets_sent (r_stat (n_router s i)) = zlen (r_submitted (n_router s i)) /\
    packets_created (r_stat (n_router s i)) = zlen (r_submitted (n_router s i)).
Proof. exact stopped_counted. Qed.
Print Assumptions C42_stopped_router_has_counted.

(** The queue is empty and the halt waits for the packet being sent; then the router stops. *)
Example C42_case :
  r_queue (n_router demo_mid 2) = [] /\ r_client (n_router demo_mid 2) = KDraining /\
  in_flight (n_router demo_mid 2) = [MkPacket 2 3 [4; 5]] /\ r_running (n_router demo_mid 2) = true /\
  nstep demo_cfg 14 (NStopped 2) demo_mid = None /\ r_running (n_router demo_end 2) = false.
Proof. vm_compute. repeat split. Qed.

(** C43 (receive buffers are bounded). *)
Theorem C43_one_packet_per_sender :
  forall c t s i j, nreach c t s -> zlen (r_buffers (n_router s j) i) <= 1.
Proof. intros c t s i j R. exact (capacity_reach c t s R i j). Qed.
Print Assumptions C43_one_packet_per_sender.

Example C43_case :
  r_buffers (n_router demo_mid 3) 2 = [[3]] /\ r_buffers (n_router demo_mid 3) 0 = [[9]] /\
  in_flight (n_router demo_mid 2) = [MkPacket 2 3 [4; 5]] /\ nstep demo_cfg 14 (NStore 2) demo_mid = None.
Proof. vm_compute. repeat split. Qed.

(** C60 (the network settles).  Without new calls of the tiles the routers make a bounded number of
    steps (polling not counted); when they can make no more, a sender that has packets left waits
    for a full buffer, and a reader for an empty one. *)
Theorem C60_bounded_work :
  forall c t s n t' s', 0 <= w_tiles c -> nreach c t s -> nwork c t s n t' s' ->
    Z.of_nat n <= 5 * over_tiles c (fun i => zlen (r_submitted (n_router s i)) - packets_sent (r_stat (n_router s i)))
                  + 2 * w_tiles c.
Proof. exact work_bound. Qed.
Print Assumptions C60_bounded_work.

Theorem C60_only_full_and_empty_buffers_block :
  forall c t s, nreach c t s -> n_crash s = None ->
    (forall a t', t <= t' -> router_work a = true -> nstep c t' a s = None) ->
    forall i, 0 <= i < w_tiles c ->
      let blocked := exists p b, r_sender (n_router s i) = SOffer p b /\ 0 <= pk_dst p < w_tiles c /\ pk_dst p <> i /\
                       zlen (r_buffers (n_router s (pk_dst p)) i) = 1 in
      (r_sender (n_router s i) = SIdle /\ r_queue (n_router s i) = [] \/ blocked) /\
      match r_client (n_router s i) with
      | KIdle => True
      | KReading src => r_buffers (n_router s i) src = []
      | KPolling _ => True
      | KDraining => blocked
      | KAdding _ | KGot _ _ => False
      end.
Proof. exact stuck_reason. Qed.
Print Assumptions C60_only_full_and_empty_buffers_block.

(** In [demo_mid] tile 2 is blocked by the full buffer of tile 3, tile 0 can still count. *)
Example C60_case :
  map (fun a => match nstep demo_cfg 99 a demo_mid with Some _ => true | None => false end)
    [NTake 2; NTravel 2; NStore 2; NCount 2; NDone 2; NStopped 2; NCount 0; NPop 3] =
    [false; false; false; false; false; false; true; false] /\
  over_tiles demo_cfg (fun i => zlen (r_submitted (n_router demo_mid i)) - packets_sent (r_stat (n_router demo_mid i))) = 2.
Proof. vm_compute. repeat split. Qed.
