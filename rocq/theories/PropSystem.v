(** Property theorems: tiles of a node running their programs. *)
From Verif Require Import PyBase MemoryModel CoreModel DramModel DramSpec RouterModel RouterSpec
  SystemModel SystemSpec SystemDet SystemDeadlock SystemClaims SystemExamples.
Open Scope Z_scope.

(** C44 (programs that complete with unbounded buffers complete): false.  The three programs
    [hol_prog] complete with every buffer capacity from 2 on, but with the code's capacity 1 no
    schedule completes them, whatever the configuration. *)
Theorem C44_refuted :
  exists c j,
    (forall capacity, 2 <= capacity -> exists l s,
       sascending 0 l = true /\ srun capacity c l (sys_start c 0 j) = Some s /\ completed_run c s) /\
    (forall t s, sreach c j t s -> ~ completed_run c s).
Proof. exact head_of_line_blocking. Qed.
Print Assumptions C44_refuted.

Theorem C44_never_completes :
  forall c t s, 0 <= y_size c -> 1 < w_tiles (y_net c) -> sreach c hol_job t s -> ~ completed_run c s.
Proof. intros c t s SZ W R. exact (hol_never_completes c SZ t s W R). Qed.
Print Assumptions C44_never_completes.

(** A greedy schedule with capacity 1 ends with tile 0 offering its second packet to the full buffer of
    tile 1, which waits for tile 2, which waits for the packet queued behind. *)
Example C44_case :
  let s := snd (schedule 200 1 three 0 acts3 (sys_start three 0 hol_job)) in
  r_sender (n_router (s_net s) 0) = SOffer (MkPacket 0 1 [6]) false /\ r_queue (n_router (s_net s) 0) = [MkPacket 0 2 [5]] /\
  r_buffers (n_router (s_net s) 1) 0 = [[5]] /\ r_client (n_router (s_net s) 1) = KReading 2 /\ r_client (n_router (s_net s) 2) = KReading 0.
Proof. vm_compute. repeat split. Qed.

(** C45 (send/receive copies memory between tiles).  Under every schedule, for a completed receive of tile k whose
    packets are those of a send of the same shape of tile i (as many packets were sent before as were taken
    before), the sender's read of the block returned its contents as of the read's completion, and the
    receiver's write stores exactly these and changes no other cell; the cells keep them until they are stored
    to again. *)
Theorem C45_copy :
  forall c j t s i k m1 a1 w v data m2 l1 a2 rows l2, 0 <= y_size c -> sreach c j t s ->
    t_log (s_tile s i) = m1 ++ EvSend a1 k w v data :: m2 -> t_log (s_tile s k) = l1 ++ EvRecv a2 i w v rows :: l2 ->
    packets_sent_to k m1 = packets_taken_from i l1 -> (l2 <> [] \/ t_phase (s_tile s k) = PNext) ->
    exists h1 r g f h2 h1' r' g' f' h2',
      d_history (t_dram (s_tile s i)) = h1 ++ EDone r g f data :: h2 /\ program_reads h1 = sent_blocks m1 /\
      q_core r = -1 /\ q_start r = a1 /\ q_kind r = RRead w v /\ zlen data = w * v /\
      (forall o, 0 <= o < w * v -> exists x, last_written (rev h1) (a1 + o) = Some x /\ znth 0 data o = wrap32 x) /\
      d_history (t_dram (s_tile s k)) = h1' ++ EDone r' g' f' [] :: h2' /\ program_writes h1' = received_blocks l1 /\
      q_core r' = -1 /\ q_start r' = a2 /\ q_kind r' = RWrite rows /\ concat rows = data /\
      (forall b, last_written (rev (h1' ++ [EDone r' g' f' []])) b =
         if (a2 <=? b) && (b <? a2 + w * v) then Some (znth 0 data (b - a2)) else last_written (rev h1') b) /\
      (forall o, 0 <= o < w * v -> (forall e, In e h2' -> ~ stores e (a2 + o)) ->
         znth 0 (cells (d_mem (t_dram (s_tile s k)))) (a2 + o) = znth 0 data o).
Proof. exact copies. Qed.
Print Assumptions C45_copy.

(** Tile 0 sends its cells 0-3 to cells 2-5 of tile 1. *)
Example C45_case :
  (exists t, sreach three copy_job t copy_end) /\
  t_log (s_tile copy_end 0) = [EvSend 0 1 2 2 [5; 6; 7; 8]; EvSend 1 1 2 1 [6; 7]; EvHalt] /\
  t_log (s_tile copy_end 1) = [EvRecv 2 0 2 2 [[5; 6]; [7; 8]]; EvMismatch 0 0 3 1 [[6; 7]]; EvHalt] /\
  cells (d_mem (t_dram (s_tile copy_end 0))) = [5; 6; 7; 8; 77; 0; 0; 0] /\
  cells (d_mem (t_dram (s_tile copy_end 1))) = [0; 0; 5; 6; 7; 8; 0; 0].
Proof. split; [exact copy_reach|]. vm_compute. repeat split. Qed.

(** C46 (a receive of the wrong width fails cleanly).  The step that meets a packet of another width is always possible,
    raises nothing, leaves memory and cores as they are, and goes on with the next instruction. *)
Theorem C46_mismatch :
  forall c j t s i addr src w v rest got from data, sreach c j t s -> on_node c i -> s_crash s = None ->
    t_prog (s_tile s i) = TRecv addr src w v :: rest -> t_phase (s_tile s i) = PRecv got ->
    r_client (n_router (s_net s) i) = KGot from data -> zlen data <> w ->
    forall now, exists s', sstep c now (STile i) s = Some s' /\ s_crash s' = None /\
      s_tile s' i = MkTile (t_dram (s_tile s i)) (t_cores (s_tile s i)) rest PNext
                      (t_log (s_tile s i) ++ [EvMismatch addr src w v (got ++ [data])]) /\
      (forall k, k <> i -> s_tile s' k = s_tile s k) /\
      r_delivered (n_router (s_net s') i) = r_delivered (n_router (s_net s) i) ++ [(from, data)].
Proof. exact mismatch_step. Qed.
Print Assumptions C46_mismatch.

(** All memory writes of the program are those of its successful receives, in order, but for the one being executed. *)
Theorem C46_only_successful_receives_write :
  forall c j t s i, 0 <= y_size c -> sreach c j t s ->
    exists rest, received_blocks (t_log (s_tile s i)) = program_writes (d_history (t_dram (s_tile s i))) ++ rest /\
      ((exists id, t_phase (s_tile s i) = PRecvWrite id) \/ rest = []).
Proof. exact received_written. Qed.
Print Assumptions C46_only_successful_receives_write.

(** The packets a failed receive took: some of the right width, fewer than wanted, and the mismatching one. *)
Theorem C46_packets_of_a_failed_receive :
  forall c j t s i addr src w v taken, 0 <= y_size c -> sreach c j t s ->
    In (EvMismatch addr src w v taken) (t_log (s_tile s i)) ->
    exists got bad, taken = got ++ [bad] /\ zlen got < v /\ Forall (fun r => zlen r = w) got /\ zlen bad <> w.
Proof. exact mismatches. Qed.
Print Assumptions C46_packets_of_a_failed_receive.

(** They are lost: every packet read from a tile belongs to exactly one receive, failed or not, in order. *)
Theorem C46_packets_lost :
  forall c j t s i k, 0 <= y_size c -> sreach c j t s ->
    exists rest, from_tile k (r_delivered (n_router (s_net s) i)) = taken_packets k (t_log (s_tile s i)) ++ rest /\
      (t_phase (s_tile s i) = PRecv rest \/ rest = []).
Proof. exact packets_taken_once. Qed.
Print Assumptions C46_packets_lost.

(** The second receive of tile 1 wants width 3 and gets a packet of width 2; the tile goes on and halts. *)
Example C46_case :
  t_log (s_tile copy_end 1) = [EvRecv 2 0 2 2 [[5; 6]; [7; 8]]; EvMismatch 0 0 3 1 [[6; 7]]; EvHalt] /\
  r_delivered (n_router (s_net copy_end) 1) = [(0, [5; 6]); (0, [7; 8]); (0, [6; 7])] /\
  program_writes (d_history (t_dram (s_tile copy_end 1))) = [(2, [[5; 6]; [7; 8]])] /\
  existsb (fun x => match x with (t, a) =>
     match srun 1 three (firstn t copy_run) (sys_start three 0 copy_job) with
     | Some s => match t_phase (s_tile s 1), r_client (n_router (s_net s) 1), t_prog (s_tile s 1) with
                 | PRecv [], KGot 0 [6; 7], TRecv 0 0 3 1 :: _ => true | _, _, _ => false end
     | None => false end end) (combine (seq 0 (length copy_run)) copy_run) = true.
Proof. vm_compute. repeat split. Qed.

(** C47 (a halted tile has quiescent cores and router). *)
Theorem C47_halted :
  forall c j t s i, 0 <= y_size c -> sreach c j t s -> In THalt (j_prog j i) -> t_prog (s_tile s i) = [] ->
    Forall (fun p => cp_phase p = PHalted) (t_cores (s_tile s i)) /\
    r_running (n_router (s_net s) i) = false /\ r_queue (n_router (s_net s) i) = [] /\ being_sent (n_router (s_net s) i) = [] /\
    (forall k, for_tile k (r_submitted (n_router (s_net s) i)) =
       from_tile i (r_delivered (n_router (s_net s) k)) ++ from_tile i (in_hand (n_router (s_net s) k)) ++ r_buffers (n_router (s_net s) k) i) /\
    d_running (t_dram (s_tile s i)) = false /\ d_queue (t_dram (s_tile s i)) = [] /\
    d_pending (t_dram (s_tile s i)) = [] /\ d_bus (t_dram (s_tile s i)) = [] /\
    (forall r, In r (d_submitted (t_dram (s_tile s i))) -> In r (completed (d_history (t_dram (s_tile s i))))).
Proof. exact halted_is_quiet. Qed.
Print Assumptions C47_halted.

(** Without a halt instruction all tiles may complete while a core has not even started. *)
Theorem C47_without_halt :
  exists c j t s i, 0 <= y_size c /\ sreach c j t s /\ completed_run c s /\ on_node c i /\
    exists p, In p (t_cores (s_tile s i)) /\ cp_phase p = PReady /\ cp_prog p <> [] /\ d_running (t_dram (s_tile s i)) = true.
Proof. exact completes_before_cores. Qed.
Print Assumptions C47_without_halt.

Example C47_case :
  (exists t, sreach three copy_job t copy_end) /\ In THalt (j_prog copy_job 0) /\ t_prog (s_tile copy_end 0) = [] /\
  map cp_phase (t_cores (s_tile copy_end 0)) = [PHalted] /\ zlen (r_submitted (n_router (s_net copy_end) 0)) = 3 /\
  zlen (d_submitted (t_dram (s_tile copy_end 0))) = 4.
Proof. split; [exact copy_reach|]. vm_compute. repeat split; auto. Qed.

(** C48 (results do not depend on timing).  If one run of halting programs completes having stored at most once to
    each cell, then no run, with whatever latencies and schedule, raises an exception, and all that complete
    end with the same memory, registers, tile events and packets. *)
Theorem C48_timing_independence :
  forall c c' j t A t' B, 0 <= y_size c -> usable_latencies c -> usable_latencies c' -> same_shape c c' -> all_halt c j ->
    sreach c j t A -> completed_run c A -> (forall i, on_node c i -> written_once (d_history (t_dram (s_tile A i)))) ->
    sreach c' j t' B ->
    s_crash B = None /\
    (completed_run c' B -> forall i, on_node c i ->
       cells (d_mem (t_dram (s_tile B i))) = cells (d_mem (t_dram (s_tile A i))) /\
       d_valid (t_dram (s_tile B i)) = d_valid (t_dram (s_tile A i)) /\
       map cp_core (t_cores (s_tile B i)) = map cp_core (t_cores (s_tile A i)) /\
       t_log (s_tile B i) = t_log (s_tile A i) /\
       r_submitted (n_router (s_net B) i) = r_submitted (n_router (s_net A) i) /\
       r_delivered (n_router (s_net B) i) = r_delivered (n_router (s_net A) i)).
Proof. exact timing_independent. Qed.
Print Assumptions C48_timing_independence.

(** Without the single-write condition this is false, even for one configuration. *)
Theorem C48_refuted_without_single_write :
  exists c j t A t' B, 0 <= y_size c /\ usable_latencies c /\ all_halt c j /\
    sreach c j t A /\ completed_run c A /\ sreach c j t' B /\ completed_run c B /\
    cells (d_mem (t_dram (s_tile A 0))) <> cells (d_mem (t_dram (s_tile B 0))).
Proof. exact races. Qed.
Print Assumptions C48_refuted_without_single_write.

(** The hypotheses hold for a program with sends, receives, a core storing and loading, and two configurations. *)
Example C48_case :
  usable_latencies three /\ usable_latencies slow /\ same_shape three slow /\ all_halt three copy_job /\
  (exists t, sreach three copy_job t copy_end) /\ completed_run three copy_end /\
  (forall i, on_node three i -> written_once (d_history (t_dram (s_tile copy_end i)))) /\
  (exists t, sreach slow copy_job t slow_end) /\ completed_run slow slow_end /\ map snd copy_run <> map snd slow_run.
Proof. exact copy_two_ways. Qed.
