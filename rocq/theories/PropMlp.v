(** Properties C81 to C84: the example examples/mlp_l4_mnist. *)
From Verif Require Import PyBase ConfigModel MemoryModel VfuModel FloatModel FloatSpec MvmuModel MvmuSpec MvmuExamples CoreModel CoreSpec DramModel RouterModel SystemModel
  SystemSpec LoaderModel LoaderSpec SetupModel SetupSpec SetupProofs SetupValues SetupParams SetupBuild SetupExamples LiveSpec MvmuAccept MlpProgram MlpSpec MlpClaims MlpExact MlpExamples.
From Verif Require LoaderExamples.
From Flocq Require Import IEEE754.BinarySingleNaN Core.
From Coq Require Import ZifyBool Ascii String Reals.
Open Scope Z_scope.

(** ** C81: the example computes the network it describes *)
(** No instruction is skipped, and the simulator is made. *)
Theorem C81_loads : forall x c file, reasonable x -> mlp_shape c -> zlen (valid_ops x mlp_ops) = zlen mlp_ops /\ exists a, construct x c mlp_ops file = Ok a.
Proof. exact mlp_loads. Qed.
Print Assumptions C81_loads.
(** Whatever the latencies and the order: no exception, and a run that completes leaves the outputs of the network at address 0 of tile 1. *)
Theorem C81_result : forall x c cfg ww file w a frac v t s, mlp_setup x c cfg ww file w a -> vlen v = 784 ->
  sreach c (job_of a 0 (fixed_activation frac v)) t s ->
  s_crash s = None /\ (completed_run c s -> firstn 10 (cells (d_mem (t_dram (s_tile s 1)))) = mlp (y_core c) cfg w (fixed_activation frac v)).
Proof. exact mlp_result. Qed.
Print Assumptions C81_result.
Theorem C81_completes : forall x c cfg ww file w a frac v, mlp_setup x c cfg ww file w a -> vlen v = 784 ->
  exists t s, sreach c (job_of a 0 (fixed_activation frac v)) t s /\ completed_run c s.
Proof. exact mlp_completes. Qed.
Print Assumptions C81_completes.
(** The configuration of the example is one of those meant here. *)
Theorem C81_configuration : forall x rate sigma dot act, plain x -> nearest (5 / 1000) rate ->
  (forall a b, List.length a = List.length b -> sumprod (combine a b) (dot a b)) ->
  exists cf y, load_config x (JObj (shipped rate sigma)) = Ok cf /\ sys_cfg_of dot act cf = Some y /\ cf_bits cf = [MLC; MLC; MLC; MLC] /\
    mlp_shape y /\ mvmu_ok (cf_bits cf) 8 (k_mv (y_core y)) /\ ideal (cf_bits cf) (k_mv (y_core y)) /\ usable_latencies y /\
    v_width (k_vfu (y_core y)) = 16 /\ c_act_width (k_mv (y_core y)) = 16 /\ c_weight_frac (k_mv (y_core y)) = 8 /\ c_dac_res (k_mv (y_core y)) = 1 /\ c_adc_res (k_mv (y_core y)) = 8.
Proof. exact shipped_fits. Qed.
Print Assumptions C81_configuration.
Example C81_case : exists cf y a, load_config std (JObj (shipped (dec 5 3) f0)) = Ok cf /\ sys_cfg_of dot_lr no_activation cf = Some y /\
  mlp_setup LoaderExamples.strict y (cf_bits cf) 8 (mlp_file halving) halving a.
Proof.
  destruct (halving_runs std LoaderExamples.strict (dec 5 3) f0 std_plain default_rate LoaderExamples.strict_reasonable) as (cf & y & a & H & Y & S & _). exists cf, y, a. auto.
Qed.

(** ** C82: whether the example completes does not depend on timing *)
Theorem C82_refuted : forall x c cfg ww file w a frac v, mlp_setup x c cfg ww file w a -> vlen v = 784 ->
  exists t s, sreach c (job_of a 0 (fixed_activation frac v)) t s /\ wedged c t s /\ missed_read c s /\ ~ completed_run c s.
Proof. exact mlp_wedges. Qed.
Print Assumptions C82_refuted.
(** A missed read is the only reason. *)
Theorem C82_continues : forall x c cfg ww file w a frac v t s, mlp_setup x c cfg ww file w a -> vlen v = 784 ->
  sreach c (job_of a 0 (fixed_activation frac v)) t s ->
  exists n t' s', sworks c t s n t' s' /\ (completed_run c s' \/ missed_read c s').
Proof. exact mlp_continues. Qed.
Print Assumptions C82_continues.
Example C82_case : exists y a t s, sreach y (job_of a 0 (fixed_activation 8 (VInts (zrange 784)))) t s /\ wedged y t s /\ missed_read y s.
Proof.
  destruct (halving_runs std LoaderExamples.strict (dec 5 3) f0 std_plain default_rate LoaderExamples.strict_reasonable) as (cf & y & a & _ & _ & S & _).
  destruct (mlp_wedges _ _ _ _ _ _ _ 8 (VInts (zrange 784)) S eq_refl) as (t & s & R & W & M & _). exists y, a, t, s. auto.
Qed.

(** ** C83: the example computes the network exactly if nothing is too large *)
Theorem C83_exact : forall c cfg ww w, mvmu_ok cfg ww (k_mv c) -> c_dac_res (k_mv c) = 1 -> 0 <= v_width (k_vfu c) <= 31 ->
  forall x, mlp_fits c cfg ww w x -> mlp c cfg w x = exact_mlp (c_weight_frac (k_mv c)) w x.
Proof. exact mlp_exact. Qed.
Print Assumptions C83_exact.
(** What rounding down costs: less than one unit for each array. *)
Theorem C83_rounding : forall frac w first parts x e m, 0 <= frac -> 0 <= m ->
  let total := zsum (map (exact_product_of frac w first parts x e) (zrange m)) in
  exact_sum frac w first parts x e m * 2 ^ frac <= total <= exact_sum frac w first parts x e m * 2 ^ frac + m * (2 ^ frac - 1).
Proof. exact exact_sum_near. Qed.
Print Assumptions C83_rounding.
(** With the configuration of the example and weights that halve the first entries of every layer: any image with non-negative pixels below 256. *)
Theorem C83_halving : forall x lx rate sigma, plain x -> nearest (5 / 1000) rate -> reasonable lx ->
  exists cf y a, load_config x (JObj (shipped rate sigma)) = Ok cf /\ sys_cfg_of dot_lr no_activation cf = Some y /\
    mlp_setup lx y (cf_bits cf) 8 (mlp_file halving) halving a /\
    forall v, vlen v = 784 -> Forall (fun z => 0 <= z < 2 ^ 16) (fixed_activation 8 v) ->
      (forall t s, sreach y (job_of a 0 (fixed_activation 8 v)) t s -> completed_run y s ->
         firstn 10 (cells (d_mem (t_dram (s_tile s 1)))) = map (fun e => znth 0 (fixed_activation 8 v) e / 16) (zrange 10)) /\
      exists t s, sreach y (job_of a 0 (fixed_activation 8 v)) t s /\ completed_run y s.
Proof. exact halving_runs. Qed.
Print Assumptions C83_halving.
Example C83_case : exists cf y a, load_config std (JObj (shipped (dec 5 3) f0)) = Ok cf /\ sys_cfg_of dot_lr no_activation cf = Some y /\
  exists t s, sreach y (job_of a 0 (fixed_activation 8 (VInts (map (fun i => i mod 10) (zrange 784))))) t s /\ completed_run y s /\
    firstn 10 (cells (d_mem (t_dram (s_tile s 1)))) = [0; 16; 32; 48; 64; 80; 96; 112; 128; 144].
Proof.
  destruct (halving_runs std LoaderExamples.strict (dec 5 3) f0 std_plain default_rate LoaderExamples.strict_reasonable) as (cf & y & a & H & Y & _ & R). exists cf, y, a. split; [exact H|]. split; [exact Y|].
  destruct (R (VInts (map (fun i => i mod 10) (zrange 784)))) as (E & t & s & S & C).
  - vm_compute. reflexivity.
  - apply Forall_forall. intros z I.
    assert (B : forallb (fun z => (0 <=? z) && (z <? 65536)) (fixed_activation 8 (VInts (map (fun i => i mod 10) (zrange 784)))) = true) by (vm_compute; reflexivity).
    rewrite forallb_forall in B. specialize (B z I). change (2 ^ 16) with 65536. lia.
  - exists t, s. split; [exact S|]. split; [exact C|]. rewrite (E t s S C). vm_compute. reflexivity.
Qed.

(** ** C84: which weight arrays are accepted *)
Theorem C84_accepted : forall cfg ww c u W, mvmu_ok cfg ww c -> (fst (load_weights c u W) = Ok tt <-> loadable (c_size c) (c_weight_frac c) W).
Proof. exact load_accepts. Qed.
Print Assumptions C84_accepted.
Theorem C84_refused : forall c u W, fst (load_weights c u W) <> Ok tt -> snd (load_weights c u W) = u.
Proof. exact refused_unchanged. Qed.
Print Assumptions C84_refused.
Example C84_case : let c := unit_cfg [MLC; MLC; MLC; MLC] 128 16 1 8 16 8 f0 f1 in
  (forall u, fst (load_weights c u (halving 0)) = Ok tt) /\ (forall u, fst (load_weights c u (row B754_nan 0 :: tl (halving 0))) <> Ok tt) /\
  (forall u, fst (load_weights c u (tl (halving 0))) <> Ok tt).
Proof.
  intros c. assert (OK : mvmu_ok [MLC; MLC; MLC; MLC] 8 c) by (apply (unit_ok [MLC; MLC; MLC; MLC]); try discriminate; lia). split; [|split]; intros u.
  - apply (load_accepts _ _ _ _ _ OK). apply halving_loadable.
  - intros E. apply (load_accepts _ _ _ _ _ OK) in E. destruct E as (_ & F). inversion F as [|r l (_ & H) _]; subst. unfold row, zrange in H. cbn [seq map Z.to_nat Pos.to_nat Pos.iter_op Nat.add] in H.
    inversion H as [|w l' (N & _) _]. discriminate N.
  - intros E. apply (load_accepts _ _ _ _ _ OK) in E. destruct E as (L & _). vm_compute in L. discriminate L.
Qed.
