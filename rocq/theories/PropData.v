(** Property C98: the timing of a simulation does not depend on the data. *)
From Verif Require Import PyBase ConfigModel MemoryModel FloatModel MvmuModel CoreModel CoreSpec DramModel RouterModel SystemModel SystemSpec SystemExamples LoaderModel LoaderSpec
  MlpProgram MlpSpec MlpRun CoreUse DesModel DesSpec DesIdleSpec DesExamples DesDataSpec DesDataRun DesDataBuilt DesDataExamples DesManyModel DesManySpec DesManyExamples
  DesDataManySpec DesDataMany DesDataManyExamples.
Open Scope Z_scope.

(** ** C98: timing and activity do not depend on the data *)
(** Two jobs with the same programs, with loads and stores at fixed addresses: to every state of one there is a state of the other at the
    same time, with the same events to come, the same statistics, the same cells written and the same counters in all units, and both have returned, or come to a standstill, or none; unless the
    other one divides by zero. *)
Theorem C98_timing : forall cfg ww c j j' t0, core_ok cfg ww (y_core c) -> 0 <= y_size c -> same_code c j j' -> programs_fixed c j ->
  forall s, sim_reach c j t0 s ->
  (exists s', sim_reach c j' t0 s' /\ same_timing s s' /\ ends_together c s s') \/
  (divides c j /\ exists s', sim_reach c j' t0 s' /\ raised c s' ZeroDivisionError).
Proof. exact timing_of_data. Qed.
Print Assumptions C98_timing.
Example C98_case : same_code three (ratio_job [6; 3]) (ratio_job [8; -2]) /\ programs_fixed three (ratio_job [6; 3]) /\
  map (fun a => let s := sim_after three (ratio_job a) 900 in (status three s, w_now s, hd ([], 0, [], 0) (tiles_of s))) [[6; 3]; [8; -2]] =
  [(Some (Ok tt), 19, ([512; 3; 0; 0; 0; 0; 0; 0], 19, [19], 6)); (Some (Ok tt), 19, ([-1024; -2; 0; 0; 0; 0; 0; 0], 19, [19], 6))].
Proof. split; [now apply ratio_code|]. split; [apply ratio_fixed|]. vm_compute. reflexivity. Qed.
(** Without divisions one run raises an exception if and only if the other one does, at the same event. *)
Theorem C98_errors : forall cfg ww c j j' t0, core_ok cfg ww (y_core c) -> 0 <= y_size c -> same_code c j j' -> programs_fixed c j -> ~ divides c j ->
  forall s, sim_reach c j t0 s ->
  exists s', sim_reach c j' t0 s' /\ same_timing s s' /\ ends_together c s s' /\ ((exists e, raised c s e) <-> exists e, raised c s' e).
Proof. exact errors_of_data. Qed.
Print Assumptions C98_errors.
Example C98_errors_case : let lost a := MkJob (j_prog lost_job) (j_cores lost_job) a in same_code three (lost [5; 6; 7; 8]) (lost [1; 0; 0; 9]) /\
  map (fun a => let s := sim_after three (lost a) 900 in (status three s, w_now s)) [[5; 6; 7; 8]; [1; 0; 0; 9]] = [(Some (Raise KeyError), 4); (Some (Raise KeyError), 4)].
Proof. cbv zeta. split; [apply one_code; [reflexivity|reflexivity|constructor|reflexivity]|]. vm_compute. reflexivity. Qed.
(** The simulation of all nodes with one event queue. *)
Theorem C98_nodes : forall cfg ww c js js' t0, core_ok cfg ww (y_core c) -> 0 <= y_size c -> same_codes c js js' -> all_fixed c js ->
  forall x, many_reach c js t0 x ->
  (exists x', many_reach c js' t0 x' /\ same_whole x x' /\ (many_returned c x <-> many_returned c x')) \/
  (some_divides c js /\ exists x', many_reach c js' t0 x' /\ many_raised c x' ZeroDivisionError).
Proof. exact timing_of_all. Qed.
Print Assumptions C98_nodes.
Theorem C98_nodes_errors : forall cfg ww c js js' t0, core_ok cfg ww (y_core c) -> 0 <= y_size c -> same_codes c js js' -> all_fixed c js -> ~ some_divides c js ->
  forall x, many_reach c js t0 x ->
  exists x', many_reach c js' t0 x' /\ same_whole x x' /\ (many_returned c x <-> many_returned c x') /\ ((exists e, many_raised c x e) <-> exists e, many_raised c x' e).
Proof. exact errors_of_all. Qed.
Print Assumptions C98_nodes_errors.
Example C98_nodes_case : let js := SimExamples.two_jobs in
  same_codes two (js [5; 6; 7; 8]) (js [1; 0; 0; 9]) /\ all_fixed two (js [5; 6; 7; 8]) /\ ~ some_divides two (js [5; 6; 7; 8]) /\
  map (fun a => let x := many_after two (js a) 1000 in (v_now x, v_over x, map (map (fun y => snd (fst y))) (parts x))) [[5; 6; 7; 8]; [1; 0; 0; 9]] =
  [(17, true, [[[17]; []; [11]]; [[]; [16]; []]]); (17, true, [[[17]; []; [11]]; [[]; [16]; []]])].
Proof. cbv zeta. split; [now apply two_codes|]. split; [apply two_fixed|]. split; [apply two_plain|]. vm_compute. reflexivity. Qed.
(** Simulators built from the same operations with different weights and activations. *)
Theorem C98_built : forall x c cfg ww ops ws ws' a a' n act act',
  LoaderSpec.sized c -> core_ok cfg ww (y_core c) -> 0 <= y_size c -> 0 <= n < w_nodes (y_net c) ->
  construct x c ops ws = Ok a -> construct x c ops ws' = Ok a' -> zlen act = zlen act' ->
  programs_fixed c (job_of a n act) -> ~ divides c (job_of a n act) ->
  forall t0 s, sim_reach c (job_of a n act) t0 s -> exists s', sim_reach c (job_of a' n act') t0 s' /\ same_timing s s' /\ ends_together c s s' /\
    ((exists e, raised c s e) <-> exists e, raised c s' e).
Proof. exact timing_of_weights. Qed.
Print Assumptions C98_built.
(** The example mlp_l4_mnist, with any latencies, weights and activations. *)
Theorem C98_example : forall x c, reasonable x -> mlp_shape c -> forall cfg ww file file' a a' act act', core_ok cfg ww (y_core c) ->
  construct x c mlp_ops file = Ok a -> construct x c mlp_ops file' = Ok a' -> zlen act = zlen act' ->
  forall t0 s, sim_reach c (job_of a 0 act) t0 s -> exists s', sim_reach c (job_of a' 0 act') t0 s' /\ same_timing s s' /\ ends_together c s s' /\
    ((exists e, raised c s e) <-> exists e, raised c s' e).
Proof. exact timing_of_mlp. Qed.
Print Assumptions C98_example.
Example C98_example_case : let p := of_core 2 0 mlp_list in
  (List.length p, List.length (filter (fun o => match o with CLoad _ _ _ _ | CStore _ _ _ _ => true | _ => false end) p), existsb is_div p) = (37, 7, false)%nat.
Proof. vm_compute. reflexivity. Qed.
(** A load through an address from the activation takes as long as the cell there is not written. *)
Theorem C98_pointer_refuted : exists c cfg ww j j', core_ok cfg ww (y_core c) /\ 0 <= y_size c /\ same_code c j j' /\ ~ divides c j /\
  exists s s', sim_reach c j 0 s /\ returned c s /\ sim_reach c j' 0 s' /\ returned c s' /\ w_now s <> w_now s'.
Proof. exact pointer_refuted. Qed.
Print Assumptions C98_pointer_refuted.
(** With a division, the data decide whether the run completes. *)
Theorem C98_division_refuted : exists c cfg ww j j', core_ok cfg ww (y_core c) /\ 0 <= y_size c /\ same_code c j j' /\ programs_fixed c j /\
  exists s s', sim_reach c j 0 s /\ returned c s /\ sim_reach c j' 0 s' /\ raised c s' ZeroDivisionError.
Proof. exact ratio_refuted. Qed.
Print Assumptions C98_division_refuted.
