(** Properties C85 to C88: the simulation with the event queue of simpy. *)
From Verif Require Import PyBase ConfigModel MemoryModel FloatModel MvmuModel CoreModel DramModel RouterModel SystemModel SystemSpec SystemExamples LoaderModel LoaderSpec
  SetupModel SetupSpec SetupProofs SetupValues SetupParams SetupBuild SetupExamples MlpProgram MlpSpec MlpExamples NodeModel NodeSpec NodeExamples DesModel DesSpec DesClaims DesMlp DesShipped DesExamples.
From Verif Require LoaderExamples.

(** ** C85: the simulation is one of the executions of the node *)
(** Every state the event queue leads to shows memory, registers, statistics and packets as some execution of the node does,
    unless an execution raises an exception. *)
Theorem C85_refinement : forall c j t0 s, sim_reach c j t0 s ->
  exists t N, t <= w_now s /\ nd_reach c j t N /\ (agrees c t0 s N \/ crashed N).
Proof. exact sim_refines. Qed.
Print Assumptions C85_refinement.
Theorem C85_time : forall c j t0 s s', sim_reach c j t0 s -> des_step (real c) c s = NStep s' -> t0 <= w_now s <= w_now s'.
Proof. exact sim_time. Qed.
Print Assumptions C85_time.
(** In the middle of a run: a store and a receive are completed, no tile and no core is. *)
Example C85_case : let s := sim_after three copy_job 160 in
  sim_reach three copy_job 0 s /\ w_now s = 14 /\ status three s = None /\
  tiles_of s = [([5; 6; 7; 8; 77; 0; 0; 0], 0, [0], 11); ([0; 0; 5; 6; 7; 8; 0; 0], 0, [], 4); ([0; 0; 0; 0; 0; 0; 0; 0], 0, [], 0)].
Proof. split; [apply after_reach|]. vm_compute. repeat split. Qed.

(** ** C86: a run that returns has completed all programs *)
Theorem C86_completion : forall c j t0 s, sim_reach c j t0 s -> returned c s ->
  exists t N, t <= w_now s /\ nd_reach c j t N /\ (ends_alike c t0 s N \/ crashed N).
Proof. exact sim_ends. Qed.
Print Assumptions C86_completion.
(** Nothing about exceptions is left open if no execution raises one. *)
Theorem C86_safe : forall c j t0 s, never_crashes c j -> sim_reach c j t0 s -> returned c s ->
  exists t N, t <= w_now s /\ nd_reach c j t N /\ ends_alike c t0 s N.
Proof. exact sim_safe_ends. Qed.
Print Assumptions C86_safe.
(** Two cores storing to the same address: the order is fixed by the event queue. *)
Example C86_case : let s := sim_after three race_job 1000 in
  sim_reach three race_job 0 s /\ returned three s /\ w_now s = 20 /\
  tiles_of s = [([0; 0; 0; 0; 2; 0; 0; 0], 20, [18; 20], 14); ([0; 0; 0; 0; 0; 0; 0; 0], 0, [], 0); ([0; 0; 0; 0; 0; 0; 0; 0], 0, [], 0)].
Proof. split; [apply after_reach|]. vm_compute. repeat split. Qed.

(** ** C87: the simulation raises an exception only if an execution of the node does *)
Theorem C87_exceptions : forall c j t0 s e, delays_ok c j -> sim_reach c j t0 s -> raised c s e -> exists t N, nd_reach c j t N /\ crashed N.
Proof. exact sim_raises. Qed.
Print Assumptions C87_exceptions.
Theorem C87_safe : forall c j t0 s, never_crashes c j -> sim_reach c j t0 s ->
  (exists t N, t <= w_now s /\ nd_reach c j t N /\ agrees c t0 s N) /\ (delays_ok c j -> forall e, ~ raised c s e).
Proof. exact sim_safe. Qed.
Print Assumptions C87_safe.
Example C87_case : let s := sim_after three lost_job 1000 in
  delays_ok three lost_job /\ sim_reach three lost_job 0 s /\ raised three s KeyError /\ w_now s = 4.
Proof. split; [exact lost_delays|]. split; [apply after_reach|]. vm_compute. repeat split. Qed.

(** ** C88: the example mlp_l4_mnist with the event queue *)
Theorem C88_result : forall x c cfg ww file w a, mlp_setup x c cfg ww file w a -> forall frac v, vlen v = 784 ->
  forall t0 s, sim_reach c (job_of a 0 (fixed_activation frac v)) t0 s ->
  (core_delays (y_core c) -> forall e, ~ raised c s e) /\
  (returned c s -> exists T, the_tile (w_node s) 1 = Some T /\ firstn 10 (cells (y_mem (c_mem (x_ctl T)))) = mlp (y_core c) cfg w (fixed_activation frac v)).
Proof. exact mlp_simulated. Qed.
Print Assumptions C88_result.
Example C88_case : exists cf y a, load_config std (JObj (shipped (dec 5 3) f0)) = Ok cf /\ sys_cfg_of dot_lr no_activation cf = Some y /\
  mlp_setup LoaderExamples.strict y (cf_bits cf) 8 (mlp_file halving) halving a /\ core_delays (y_core y) /\
  exists s, sim_reach y (job_of a 0 (fixed_activation 8 (VInts (zrange 784)))) 0 s /\ w_now s = 0.
Proof.
  destruct (halving_runs std LoaderExamples.strict (dec 5 3) f0 std_plain default_rate LoaderExamples.strict_reasonable) as (cf & y & a & H & Y & S & _). exists cf, y, a.
  repeat (split; [assumption|]). split; [exact (times_delays _ (shipped_has_times _ _ _ _ _ _ _ std_plain default_rate H Y))|].
  eexists. split; [constructor|]. reflexivity.
Qed.
