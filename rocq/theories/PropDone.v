(** Property C89: the example mlp_l4_mnist completes in the simulation with the event queue of simpy. *)
From Verif Require Import PyBase ConfigModel MemoryModel FloatModel FloatSpec MvmuModel CoreModel DramModel RouterModel SystemModel LoaderModel LoaderSpec
  SetupModel SetupSpec SetupProofs SetupValues SetupParams SetupBuild SetupExamples MlpProgram MlpSpec MlpExamples DesModel DesSpec DesShipped DesDoneSpec DesDone.
From Verif Require LoaderExamples.
From Coq Require Import Reals.
Open Scope Z_scope.

(** ** C89: the example completes with the shipped latencies *)
(** From every state the run returns, with the outputs of the network at address 0 of tile 1, at the same time and with the
    same statistics for all weights and activations. *)
Theorem C89_completes : forall x c cfg ww file w a, mlp_setup x c cfg ww file w a -> shipped_times c -> forall frac v, vlen v = 784 ->
  exists e, sim_reach c (job_of a 0 (fixed_activation frac v)) 0 e /\ returned c e /\ numbers e = mlp_numbers /\
    (exists T, the_tile (w_node e) 1 = Some T /\ firstn 10 (cells (y_mem (c_mem (x_ctl T)))) = mlp (y_core c) cfg w (fixed_activation frac v)) /\
    forall s, sim_reach c (job_of a 0 (fixed_activation frac v)) 0 s -> exists n, des_run (real c) c n s = (e, NOver).
Proof. exact mlp_done. Qed.
Print Assumptions C89_completes.
Theorem C89_returned : forall x c cfg ww file w a, mlp_setup x c cfg ww file w a -> shipped_times c -> forall frac v s, vlen v = 784 ->
  sim_reach c (job_of a 0 (fixed_activation frac v)) 0 s -> returned c s ->
  numbers s = mlp_numbers /\ exists T, the_tile (w_node s) 1 = Some T /\ firstn 10 (cells (y_mem (c_mem (x_ctl T)))) = mlp (y_core c) cfg w (fixed_activation frac v).
Proof. exact mlp_ends. Qed.
Print Assumptions C89_returned.
(** The shipped configuration has these latencies. *)
Theorem C89_latencies : forall x rate sigma dot act cf y, plain x -> nearest (5 / 1000) rate ->
  load_config x (JObj (shipped rate sigma)) = Ok cf -> sys_cfg_of dot act cf = Some y -> shipped_times y.
Proof. exact shipped_has_times. Qed.
Print Assumptions C89_latencies.
(** Weights that halve the first entries of every layer. *)
Example C89_case : exists cf y a e, load_config std (JObj (shipped (dec 5 3) f0)) = Ok cf /\ sys_cfg_of dot_lr no_activation cf = Some y /\
  sim_reach y (job_of a 0 (fixed_activation 8 (VInts (map (fun i => i mod 10) (zrange 784))))) 0 e /\ returned y e /\ w_now e = 86797.
Proof.
  destruct (halving_runs std LoaderExamples.strict (dec 5 3) f0 std_plain default_rate LoaderExamples.strict_reasonable) as (cf & y & a & H & Y & S & _).
  destruct (mlp_done _ _ _ _ _ _ _ S (shipped_has_times _ _ _ _ _ _ _ std_plain default_rate H Y) 8 (VInts (map (fun i => i mod 10) (zrange 784)))) as (e & R & O & N & _); [vm_compute; reflexivity|].
  exists cf, y, a, e. repeat (split; [assumption|]). exact (f_equal (fun p => fst (fst p)) N).
Qed.
