(** C78: the latency and the rate of the network (router.py). *)
From Verif Require Import PyBase RouterModel RouterSpec RouterProofs NetTimeSpec NetTime NetTimeExamples.

(** A packet reaches a receive buffer no earlier than the latency of the network after the tile submitted it, and the call that submits it
    returns no earlier than the latency of the data memory. *)
Theorem C78_latency : forall c t0 l s i t, nascending t0 l = true -> nrun c l net_init = Some s ->
  until (arrival_of i) t l <= until (call_of i) (t - w_intra_lat c) l /\ until (return_of i) t l <= until (call_of i) (t - w_data_lat c) l.
Proof. exact latency. Qed.
Print Assumptions C78_latency.
Example C78_latency_case : nrun steady_cfg steady net_init <> None /\
  map (fun t => (until (call_of 2) t steady, until (arrival_of 2) t steady)) [0; 2; 3; 4; 6; 9] = [(1, 0); (2, 0); (2, 1); (3, 1); (3, 2); (3, 3)].
Proof. exact steady_counts. Qed.

(** A router delivers at most one packet per latency: the last of [m + 1] packets was submitted [m + 1] latencies ago. *)
Theorem C78_rate : forall c t0 l s i t m, nascending t0 l = true -> nrun c l net_init = Some s -> 0 <= m -> 0 <= w_intra_lat c ->
  until (arrival_of i) t l - m <= until (call_of i) (t - (m + 1) * w_intra_lat c) l.
Proof. exact rate. Qed.
Print Assumptions C78_rate.
Example C78_rate_case : until (arrival_of 2) 9 steady - 2 = 1 /\ until (call_of 2) (9 - 3 * 3) steady = 1 /\ until (arrival_of 2) 8 steady - 2 = 0.
Proof. exact steady_rate. Qed.

(** The calls of a tile come at most once per latency of the data memory. *)
Theorem C78_calls : forall c t0 l s i t, nascending t0 l = true -> nrun c l net_init = Some s -> 0 <= w_data_lat c ->
  until (call_of i) t l <= until (call_of i) (t - w_data_lat c) l + 1.
Proof. exact calls_rate. Qed.
Print Assumptions C78_calls.
Example C78_calls_case : until (call_of 2) 2 steady = 2 /\ until (call_of 2) 0 steady = 1 /\ until (call_of 2) 1 steady = 1.
Proof. exact steady_calls. Qed.

(** When no event is left for later, the journey of a packet takes exactly the latency of the network, and the call that submits one exactly
    the latency of the data memory. *)
Theorem C78_exact : forall c i, 0 <= w_intra_lat c -> 0 <= w_data_lat c -> forall t0 l s t,
  nascending t0 l = true -> urgent c t0 l net_init -> nrun c l net_init = Some s -> t < end_of t0 l ->
  until (travel_of i) t l = until (take_of i) (t - w_intra_lat c) l /\ until (return_of i) t l = until (call_of i) (t - w_data_lat c) l.
Proof. exact exact_times. Qed.
Print Assumptions C78_exact.
Example C78_exact_case : urgent steady_cfg 0 steady net_init /\ end_of 0 steady = 9 /\
  map (fun t => (until (take_of 2) t steady, until (travel_of 2) (t + 3) steady)) [0; 1; 3; 4; 5] = [(1, 1); (1, 1); (2, 2); (2, 2); (2, 2)].
Proof. exact steady_urgent. Qed.
