(** Property theorems: memory controller. *)
From Verif Require Import PyBase MemoryModel MemorySpec DramModel DramSpec DramProofs DramProgress.
From Coq Require Import Permutation.
Open Scope Z_scope.

(** C31 (the controller never returns data that was not written).  Under every interleaving, each
    address of a completed read was stored to by a preload or by a write completed earlier; a read
    is made to wait exactly when one of its addresses has not been stored to. *)
Theorem C31_read_was_stored :
  forall lat size t d h1 r g f data h2 a, 0 <= size -> dreach lat size t d ->
    d_history d = h1 ++ EDone r g f data :: h2 -> is_read r = true -> covers r a ->
    exists e, In e h1 /\ stores e a.
Proof. intros lat size t d h1 r g f data h2 a S. exact (read_was_stored lat size S t d h1 r g f data h2 a). Qed.
Print Assumptions C31_read_was_stored.

Theorem C31_flag_means_stored :
  forall lat size t d a, 0 <= size -> dreach lat size t d -> 0 <= a < size ->
    (znth false (d_valid d) a = true <-> exists e, In e (d_history d) /\ stores e a).
Proof. intros lat size t d a S. exact (flag_iff_stored lat size S t d a). Qed.
Print Assumptions C31_flag_means_stored.

Theorem C31_read_waits_exactly_for_missing_data :
  forall lat size t t' d d' r, 0 <= size -> dreach lat size t d -> dstep lat t' AHandle d = Some d' ->
    hd_error (d_queue d) = Some r -> proper r -> is_read r = true ->
    (In r (d_pending d') <-> exists a, covers r a /\ 0 <= a < size /\ forall e, In e (d_history d) -> ~ stores e a).
Proof. exact pending_not_stored. Qed.
Print Assumptions C31_read_waits_exactly_for_missing_data.

(** C32 (linearizable).  Every completed read returns for each address the 32-bit value last
    written before it in completion order; the cells hold the values last written; a request takes
    effect between its submission and its completion, and a request submitted after the completion
    of another one comes after it. *)
Theorem C32_read_returns_last_written :
  forall lat size t d h1 r g f data h2, 0 <= size -> dreach lat size t d ->
    d_history d = h1 ++ EDone r g f data :: h2 -> is_read r = true ->
    zlen data = q_length r /\
    forall a, covers r a -> exists v, last_written (rev h1) a = Some v /\ is_int32_of (znth 0 data (a - q_start r)) v.
Proof. intros lat size t d h1 r g f data h2 S. exact (read_value lat size S t d h1 r g f data h2). Qed.
Print Assumptions C32_read_returns_last_written.

Theorem C32_cells_hold_last_written :
  forall lat size t d a, 0 <= size -> dreach lat size t d -> 0 <= a < size ->
    match last_written (rev (d_history d)) a with
    | Some v => is_int32_of (znth 0 (cells (d_mem d)) a) v
    | None => znth 0 (cells (d_mem d)) a = 0
    end.
Proof. intros lat size t d a S. exact (cell_value lat size S t d a). Qed.
Print Assumptions C32_cells_hold_last_written.

Theorem C32_effect_between_submission_and_completion :
  forall lat size t d h1 r g f data h2, 0 <= size -> dreach lat size t d ->
    d_history d = h1 ++ EDone r g f data :: h2 ->
    In r (d_submitted d) /\ q_time r <= g /\ g <= f /\ f <= t.
Proof. intros lat size t d h1 r g f data h2 S. exact (completion_times lat size S t d h1 r g f data h2). Qed.
Print Assumptions C32_effect_between_submission_and_completion.

Theorem C32_real_time_order :
  forall lat size t d h1 r1 g1 f1 x1 h2 r2 g2 f2 x2 h3, 0 <= size -> dreach lat size t d ->
    d_history d = h1 ++ EDone r1 g1 f1 x1 :: h2 ++ EDone r2 g2 f2 x2 :: h3 -> q_time r1 <= f2.
Proof. intros lat size t d h1 r1 g1 f1 x1 h2 r2 g2 f2 x2 h3 S. exact (real_time_order lat size S t d h1 r1 g1 f1 x1 h2 r2 g2 f2 x2 h3). Qed.
Print Assumptions C32_real_time_order.

(** The read waits for the write, then sees the preloaded 6 and the written values (4294967297
    stored as 1); the later write of 11 does not show in it. *)
Example C31_C32_case :
  ascending 0 demo = true /\
  d_history demo_end =
    [EPreload [5; 6];
     EDone (MkReq 1 1 2 1 (RWrite [[10; 4294967297]; [30; 40]])) 1 7 [];
     EDone (MkReq 2 1 2 3 (RWrite [[11]])) 8 11 [];
     EDone (MkReq 0 0 1 0 (RRead 2 2)) 12 20 [6; 11; 1; 30]] /\
  cells (d_mem demo_end) = [5; 6; 11; 1; 30; 40; 0; 0] /\
  d_valid demo_end = [true; true; true; true; true; true; false; false].
Proof. vm_compute. auto. Qed.

(** C33 (no request is lost or completed twice). *)
Theorem C33_each_request_in_one_place :
  forall lat size t d, 0 <= size -> dreach lat size t d ->
    Permutation (d_submitted d) (d_queue d ++ d_pending d ++ d_bus d ++ completed (d_history d)) /\
    NoDup (map q_id (d_queue d ++ d_pending d ++ d_bus d ++ completed (d_history d))).
Proof. intros lat size t d S. exact (places lat size S t d). Qed.
Print Assumptions C33_each_request_in_one_place.

Example C33_case :
  map q_id (d_submitted demo_end) = [0; 1; 2] /\ map q_id (completed (d_history demo_end)) = [1; 2; 0] /\
  d_queue demo_end = [] /\ d_pending demo_end = [] /\ d_bus demo_end = [].
Proof. vm_compute. auto. Qed.

(** C34 (exclusive and first come first served).  The bus intervals of successive completions do
    not overlap and last at least the latency; requests that never waited for data are completed,
    on the bus and queued in the order of their submission; the operating time is exact. *)
Theorem C34_bus_is_exclusive :
  forall lat size t d h1 r1 g1 f1 x1 h2 r2 g2 f2 x2 h3, 0 <= size -> dreach lat size t d ->
    d_history d = h1 ++ EDone r1 g1 f1 x1 :: h2 ++ EDone r2 g2 f2 x2 :: h3 -> f1 <= g2.
Proof. intros lat size t d h1 r1 g1 f1 x1 h2 r2 g2 f2 x2 h3 S. exact (bus_intervals lat size S t d h1 r1 g1 f1 x1 h2 r2 g2 f2 x2 h3). Qed.
Print Assumptions C34_bus_is_exclusive.

Theorem C34_latency_is_waited :
  forall lat size t d h1 r g f data h2, 0 <= size -> dreach lat size t d ->
    d_history d = h1 ++ EDone r g f data :: h2 -> g + lat * q_batches r <= f.
Proof. intros lat size t d h1 r g f data h2 S. exact (latency_kept lat size S t d h1 r g f data h2). Qed.
Print Assumptions C34_latency_is_waited.

Theorem C34_submission_order :
  forall lat size t d, 0 <= size -> dreach lat size t d ->
    filter (never_waited d) (d_submitted d) =
    filter (never_waited d) (completed (d_history d)) ++ filter (never_waited d) (d_bus d) ++ filter (never_waited d) (d_queue d).
Proof. intros lat size t d S. exact (fcfs lat size S t d). Qed.
Print Assumptions C34_submission_order.

Theorem C34_operating_time :
  forall lat size t d, 0 <= size -> dreach lat size t d ->
    operating_time (d_stat d) = lat * zsum (map q_batches (completed (d_history d))).
Proof. intros lat size t d S. exact (operating lat size S t d). Qed.
Print Assumptions C34_operating_time.

Example C34_case : operating_time (d_stat demo_end) = 15 /\ d_waited demo_end = [0].
Proof. vm_compute. auto. Qed.

(** C35 (a waiting read is released as soon as its data is valid): false.  A read inside the
    memory whose cells all are valid waits, nothing else is in progress, and it waits forever
    unless another write is submitted. *)
Theorem C35_refuted :
  exists lat size t d r,
    0 <= size /\ dreach lat size t d /\ In r (d_pending d) /\ in_range size r /\ all_valid (d_valid d) r /\
    d_queue d = [] /\ d_bus d = [] /\
    forall t' d', dcont no_write lat t d t' d' -> In r (d_pending d').
Proof. exact ready_read_waits_forever. Qed.
Print Assumptions C35_refuted.

(** C36 (waiting reads make progress).  What a completed write does to the waiting reads, and the
    number of further writes after which a ready read is no longer waiting. *)
Theorem C36_a_write_releases :
  forall lat size t t' d d' w rest, 0 <= size -> dreach lat size t d -> d_bus d = w :: rest -> is_read w = false ->
    dstep lat t' AFinish d = Some d' -> d_crash d' = None ->
    exists released,
      d_queue d' = d_queue d ++ released /\ Permutation (d_pending d) (d_pending d' ++ released) /\
      sublist (d_pending d') (d_pending d) /\ sublist released (d_pending d) /\
      Forall (fun x => proper x -> all_valid (d_valid d') x) released /\
      (forall l1 x l2, d_pending d = l1 ++ x :: l2 -> Forall (fun y => proper y /\ ~ all_valid (d_valid d') y) l1 ->
         proper x -> all_valid (d_valid d') x -> exists more, released = x :: more) /\
      (forall x, In x (d_pending d') -> proper x -> all_valid (d_valid d') x ->
         exists a y b, d_pending d = a ++ y :: x :: b /\ In y released).
Proof. exact write_releases. Qed.
Print Assumptions C36_a_write_releases.

Theorem C36_released_after_further_writes :
  forall ok lat size t d t' d' l1 r l2, 0 <= size -> dreach lat size t d ->
    d_pending d = l1 ++ r :: l2 -> proper r -> all_valid (d_valid d) r -> dcont ok lat t d t' d' ->
    writes_done (d_history d') >= writes_done (d_history d) + zlen l1 + 1 -> ~ In r (d_pending d').
Proof. exact released_within_spec. Qed.
Print Assumptions C36_released_after_further_writes.

(** Of four waiting reads of one cell a write releases the first and the third. *)
Example C36_case :
  match drun 1 ([(0, ASubmit 0 0 (RRead 1 1)); (0, ASubmit 0 0 (RRead 1 1)); (0, ASubmit 0 0 (RRead 1 1)); (0, ASubmit 0 0 (RRead 1 1));
       (0, AHandle); (0, AHandle); (0, AHandle); (0, AHandle); (0, ASubmit 0 0 (RWrite [[1]])); (0, AHandle); (0, AGrant); (1, AFinish)])
     (dc_run 0 (dram_init 4)) with
  | Some d => (map q_id (d_queue d), map q_id (d_pending d)) = ([0; 2], [1; 3])
  | None => False
  end.
Proof. vm_compute. reflexivity. Qed.

(** C37 (out-of-range requests).  Submission does not check the range (refuted); such a request
    is never completed: it fails on the bus, without changing cells or validity; a read beyond the
    memory does not wait at all, one partly beyond it waits for the part inside only. *)
Theorem C37_refuted :
  exists now core start k d, d_running d = true /\ start < 0 /\
    exists r d', dc_submit now core start k d = (Ok r, d') /\ d_queue d' = [r] /\ ~ in_range (msize (d_mem d)) r.
Proof.
  exists 0, 0, (-1), (RRead 1 1), (dc_run 0 (dram_init 4)). split; [reflexivity|]. split; [reflexivity|].
  eexists. eexists. split; [reflexivity|]. split; [reflexivity|]. intros [H _]. exact (H eq_refl).
Qed.
Print Assumptions C37_refuted.

Theorem C37_completed_requests_are_in_range :
  forall lat size t d h1 r g f data h2, 0 <= size -> dreach lat size t d ->
    d_history d = h1 ++ EDone r g f data :: h2 -> in_range size r.
Proof. intros lat size t d h1 r g f data h2 S. exact (completed_in_range lat size S t d h1 r g f data h2). Qed.
Print Assumptions C37_completed_requests_are_in_range.

Theorem C37_fails_on_the_bus :
  forall lat size t t' d r rest d', 0 <= size -> dreach lat size t d -> d_bus d = r :: rest -> ~ in_range size r ->
    dc_finish lat t' d = Some d' ->
    d_crash d' = Some IndexError /\ d_mem d' = d_mem d /\ d_valid d' = d_valid d /\ d_history d' = d_history d.
Proof. intros lat size t t' d r rest d' S. exact (out_of_range_fails lat size S t t' d r rest d'). Qed.
Print Assumptions C37_fails_on_the_bus.

Theorem C37_read_beyond_does_not_wait :
  forall lat size t t' d r rest d', 0 <= size -> dreach lat size t d -> d_queue d = r :: rest -> is_read r = true ->
    size <= q_start r -> 0 <= q_length r -> dstep lat t' AHandle d = Some d' -> d_bus d' = d_bus d ++ [r].
Proof. exact beyond_goes_to_the_bus. Qed.
Print Assumptions C37_read_beyond_does_not_wait.

Theorem C37_read_partly_beyond_waits_for_the_rest :
  forall lat size t t' d r rest d', 0 <= size -> dreach lat size t d -> d_queue d = r :: rest -> is_read r = true ->
    0 <= q_start r < size -> size < q_start r + q_length r -> dstep lat t' AHandle d = Some d' ->
    (d_bus d' = d_bus d ++ [r] <-> forall a, q_start r <= a < size -> exists e, In e (d_history d) /\ stores e a).
Proof. exact partly_beyond_waits. Qed.
Print Assumptions C37_read_partly_beyond_waits_for_the_rest.

Example C37_case :
  match drun 1 [(0, ASubmit 0 9 (RRead 2 1)); (0, AHandle); (0, AGrant); (1, AFinish)] (dc_run 0 (dram_init 4)) with
  | Some d => d_crash d = Some IndexError /\ d_history d = []
  | None => False
  end.
Proof. vm_compute. auto. Qed.

(** C38 (counters are exact). *)
Theorem C38_request_counters :
  forall lat size t d, 0 <= size -> dreach lat size t d ->
    read_requests (d_stat d) = zsum (map q_batches (filter is_read (d_submitted d))) /\
    write_requests (d_stat d) = zsum (map q_batches (filter (fun r => negb (is_read r)) (d_submitted d))) /\
    total_requests (d_stat d) = zsum (map q_batches (d_submitted d)) /\
    total_requests (d_stat d) = read_requests (d_stat d) + write_requests (d_stat d).
Proof. intros lat size t d S. exact (counters lat size S t d). Qed.
Print Assumptions C38_request_counters.

Theorem C38_waiting_times :
  forall lat size t d, 0 <= size -> dreach lat size t d ->
    total_wait_time (d_stat d) = zsum (waits (d_history d)) /\ 0 <= total_wait_time (d_stat d) /\
    (forall w, In w (waits (d_history d)) -> 0 <= w <= max_wait_time (d_stat d)) /\
    (max_wait_time (d_stat d) = 0 \/ In (max_wait_time (d_stat d)) (waits (d_history d))) /\
    total_wait_time (d_stat d) <= zlen (completed (d_history d)) * max_wait_time (d_stat d).
Proof. intros lat size t d S. exact (wait_stats lat size S t d). Qed.
Print Assumptions C38_waiting_times.

(** The controller is active from its start to the first stop. *)
Theorem C38_active_cycles :
  forall lat size t0 l d, drun lat l (dc_run t0 (dram_init size)) = Some d ->
    active_cycles (d_stat d) = match first_stop l with Some t => t - t0 | None => 0 end /\ (d_running d = true <-> first_stop l = None).
Proof. exact active_time. Qed.
Print Assumptions C38_active_cycles.

Example C38_case :
  d_stat demo_end = MkDStats 2 3 5 34 20 0 15 /\ waits (d_history demo_end) = [6; 8; 20].
Proof. vm_compute. auto. Qed.
Example C38_case_active :
  option_map (fun d => active_cycles (d_stat d)) (drun 3 [(5, APreload [1]); (9, AStop); (12, AStop)] (dc_run 4 (dram_init 8))) = Some 5.
Proof. reflexivity. Qed.

(** C59 (the controller settles).  Without new submissions it makes at most four steps per
    outstanding request (and one that fails), it can always make one while a request is queued or
    on the bus, and when it cannot every submitted request is completed or waits for data. *)
Theorem C59_bounded_number_of_steps :
  forall lat size t d n t' d', 0 <= size -> dreach lat size t d -> dinternal lat t d n t' d' ->
    Z.of_nat n <= 4 * (zlen (d_queue d) + zlen (d_pending d) + zlen (d_bus d)) + 1.
Proof. exact internal_bound. Qed.
Print Assumptions C59_bounded_number_of_steps.

Theorem C59_never_stuck :
  forall lat size t d, 0 <= size -> dreach lat size t d -> d_running d = true -> d_crash d = None ->
    d_queue d <> [] \/ d_bus d <> [] -> exists t' a d', t <= t' /\ internal a /\ dstep lat t' a d = Some d'.
Proof. exact internal_enabled. Qed.
Print Assumptions C59_never_stuck.

Theorem C59_settled :
  forall lat size t d, 0 <= size -> dreach lat size t d -> d_queue d = [] -> d_bus d = [] ->
    forall r, In r (d_submitted d) -> In r (completed (d_history d)) \/ In r (d_pending d).
Proof. exact drained_places. Qed.
Print Assumptions C59_settled.

(** A read that waits, is released and completed takes four steps. *)
Example C59_case :
  match drun 1 [(0, ASubmit 0 0 (RRead 1 1)); (0, ASubmit 0 0 (RWrite [[9]]))] (dc_run 0 (dram_init 4)) with
  | Some d => match drun 1 [(0, AHandle); (0, AHandle); (0, AGrant); (1, AFinish); (1, AHandle); (1, AGrant); (2, AFinish)] d with
              | Some d' => map q_id (completed (d_history d')) = [1; 0] /\ d_queue d' = [] /\ d_bus d' = []
              | None => False
              end
  | None => False
  end.
Proof. vm_compute. auto. Qed.
