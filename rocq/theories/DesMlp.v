(** The example mlp_l4_mnist in the event simulation. *)
From Verif Require Import PyBase PyLemmas ConfigModel MemoryModel VfuModel FloatModel MvmuModel MvmuSpec CoreModel CoreSpec
  DramModel RouterModel SystemModel SystemSpec LoaderModel LoaderSpec LoaderClaims MlpProgram MlpRun MlpSpec MlpLoad MlpProofs MlpClaims
  NodeModel NodeSpec NodeClaims DesModel DesSpec DesClaims.
From Coq Require Import ZifyBool ZifyNat.
Open Scope Z_scope.

Definition positive_ops (l : list cop) : bool :=
  forallb (fun o => match o with CLoad _ _ _ v | CStore _ _ _ v | CVfu _ _ _ _ v => 0 <=? v | _ => true end) l.
Lemma mlp_positive : forallb (fun t => forallb (fun k => positive_ops (of_core t k mlp_list)) (zrange 8)) (zrange 5) = true.
Proof. vm_compute. reflexivity. Qed.

Lemma positive_delays c cfg ww l : mvmu_ok cfg ww (k_mv (y_core c)) -> core_delays (y_core c) -> positive_ops l = true -> Forall (delays_of c) l.
Proof.
  intros OK (D1 & D2 & D3 & D4 & D5) P. apply Forall_forall. intros o I. unfold positive_ops in P. rewrite forallb_forall in P. specialize (P o I).
  destruct o; cbn [delays_of exec_time]; try (eexists; split; [reflexivity|]); try lia; try (apply Z.leb_le in P; nia); try (apply Z.leb_le in P; apply Z.div_pos; nia).
  pose proof (ok_dac _ _ _ OK). pose proof (ok_act _ _ _ OK). apply Z.mul_nonneg_nonneg; [assumption|].
    assert (0 <= (c_act_width (k_mv (y_core c)) + c_dac_res (k_mv (y_core c)) - 1) / c_dac_res (k_mv (y_core c))) by (apply Z.div_pos; lia). lia.
Qed.

Section Example.
Context (x : lax) (c : sys_cfg) (cfg : list bitcfg) (ww : Z) (file : list (String.string * list (list f64))) (w : Z -> list (list f64)) (a : arch).
Context (SU : mlp_setup x c cfg ww file w a).
Context (frac : Z) (v : vector) (LV : vlen v = 784).
Notation j := (job_of a 0 (fixed_activation frac v)).

Lemma mlp_never_crashes : never_crashes c j.
Proof. intros t N R. apply nd_reach_sys in R as (t1 & _ & R). exact (proj1 (mlp_result _ _ _ _ _ _ _ _ _ _ _ SU LV R)). Qed.
Lemma mlp_delays : core_delays (y_core c) -> delays_ok c j.
Proof.
  intros D. split; [apply D|]. split; [apply D|]. intros i Hi. apply Forall_forall. intros [K p] I. apply In_nth_error in I as (k & E). cbn [snd].
  cbn [j_cores job_of] in E. fold (tile_at a 0 i) in E.
  assert (E' : nth_error (at_cores (tile_at a 0 i)) (Z.to_nat (Z.of_nat k)) = Some (K, p)) by now rewrite Nat2Z.id.
  destruct (start_core _ _ _ _ _ _ _ SU (fixed_activation frac v) i (Z.of_nat k) K p Hi ltac:(lia) E') as [_ ->].
  apply (positive_delays c cfg ww); [apply SU|exact D|].
  pose proof mlp_positive as M. rewrite forallb_forall in M. unfold on_node in Hi. pose proof (su_shape _ _ _ _ _ _ _ SU) as SH. rewrite (ms_tiles _ SH) in Hi.
  specialize (M i ltac:(now apply in_zrange)). rewrite forallb_forall in M.
  destruct (Z.lt_ge_cases (Z.of_nat k) 8) as [L|L]; [apply M; apply in_zrange; lia|].
  exfalso. destruct (construct_ok _ _ _ _ _ (shape_sized c SH) (su_made _ _ _ _ _ _ _ SU)) as ((_ & _ & LC & _) & _).
  assert (TT : is_tile c 0 i) by (split; [pose proof (ms_nodes _ SH); lia|unfold on_tile; rewrite (ms_tiles _ SH); exact Hi]).
  specialize (LC 0 i TT). rewrite (ms_cores _ SH) in LC. assert (k < length (at_cores (tile_at a 0 i)))%nat by (apply nth_error_Some; congruence). unfold zlen in LC. lia.
Qed.

Theorem mlp_simulated t0 s : sim_reach c j t0 s ->
  (core_delays (y_core c) -> forall e, ~ raised c s e) /\
  (returned c s -> exists T, the_tile (w_node s) 1 = Some T /\ firstn 10 (cells (y_mem (c_mem (x_ctl T)))) = mlp (y_core c) cfg w (fixed_activation frac v)).
Proof.
  intros H. split.
  - intros D e. exact (proj2 (sim_safe c j t0 s mlp_never_crashes H) (mlp_delays D) e).
  - intros E. destruct (sim_safe_ends c j t0 s mlp_never_crashes H E) as (t & N & _ & R & [A C _ _]).
    pose proof (su_shape _ _ _ _ _ _ _ SU) as SH.
    destruct (proj1 (ag_tiles _ _ _ _ A 1)) as [T HT]; [unfold on_node; rewrite (ms_tiles _ SH); lia|].
    exists T. split; [assumption|]. rewrite <- (sv_cells _ _ _ (ag_view _ _ _ _ A 1 T HT)).
    apply nd_reach_sys in R as (t1 & _ & R). exact (proj2 (mlp_result _ _ _ _ _ _ _ _ _ _ _ SU LV R) C).
Qed.
End Example.
