(** Noise: concrete units. *)
From Verif Require Import PyBase PyLemmas FloatModel MemoryModel ConfigModel ConfigSpec MvmuModel MvmuSpec MvmuProofs MvmuExamples MvmuTop
  FloatSpec NoiseModel NoiseSpec NoiseProofs.
From Flocq Require Import IEEE754.BinarySingleNaN Core.
From Coq Require Import Reals Lra Psatz.
Open Scope Z_scope.

(** One 4-bit RRAM crossbar of 2 rows; a conductance step is 64. *)
Definition nz : mvmu_cfg := unit_cfg [QLC] 2 2 1 5 3 1 f0 (f_of_Z 960).
Definition nz_w : list (list f64) := mixed_w.
Definition nz_used : mvmu := nv_run nz (nv_run nz (mvmu_init nz) ([] ++ [NLoad nz_w])) [NWrite 0 [5; 3]].
(** Every positive cell z too high, every negative cell z too low. *)
Definition push (z : Z) : Z -> noise := fun _ => MkNoise (fun _ _ _ => f_of_Z z) (fun _ _ _ => f_of_Z (- z)).

Lemma nz_ok : mvmu_ok [QLC] 4 nz. Proof. apply unit_ok; (discriminate || reflexivity || lia). Qed.
Lemma nz_ideal : ideal [QLC] nz. Proof. intros _. apply unit_analog; lia. Qed.
Lemma nz_size : noise_size nz. Proof. reflexivity. Qed.
Lemma nz_loaded : nloaded nz nz_w nz_used.
Proof. exists [], [NWrite 0 [5; 3]]. split; [vm_compute; reflexivity|]. split; [repeat constructor|reflexivity]. Qed.
Lemma nz_gmax : B2R (c_gmax nz) = 960%R.
Proof. destruct (B2R_small 960 ltac:(lia)) as [_ E]. exact E. Qed.

Lemma nz_draws z : 0 <= z <= 960 -> draws_ok nz (push z).
Proof.
  intros Hz i _. split; intros q r j; cbn [push n_pos n_neg]; rewrite nz_gmax.
  - destruct (B2R_small z ltac:(lia)) as [F E]. split; [exact F|]. rewrite E, <- abs_IZR. apply IZR_le. lia.
  - destruct (B2R_small (- z) ltac:(lia)) as [F E]. split; [exact F|]. rewrite E, <- abs_IZR. apply IZR_le. lia.
Qed.

Lemma nz_inputs : inputs nz_used = [5; 3]. Proof. vm_compute. reflexivity. Qed.
Lemma nz_slices : slices nz = 3. Proof. reflexivity. Qed.

(** Both inputs are 1 in slice 0: the noise of two cells adds up. *)
Lemma nz_load z k r : 0 <= z <= 960 -> k = 0%nat ->
  pos_noise nz [QLC] (push z) [5; 3] k r 0 = (IZR z / 32)%R /\ neg_noise nz [QLC] (push z) [5; 3] k r 0 = (IZR z / 32)%R.
Proof.
  intros Hz ->. unfold pos_noise, neg_noise, plane_noise, row_noise. rewrite nz_gmax. cbn [nth cell_bits push n_pos n_neg].
  change (map (in_slice (c_dac_res nz) 0) [5; 3]) with [1; 1]. cbn [length rsum_below nth]. change (2 ^ 4 - 1) with 15.
  destruct (B2R_small z ltac:(lia)) as [_ ->]. destruct (B2R_small (- z) ltac:(lia)) as [_ ->].
  rewrite <- !abs_IZR, Z.abs_opp, Z.abs_eq by lia. split; field.
Qed.

(** An eighth of a step on every cell: tolerated. *)
Lemma nz_uniform : uniform nz [QLC] (push 8) 8.
Proof.
  split.
  - intros i q r j _. cbn [push n_pos n_neg]. destruct (B2R_small 8 ltac:(lia)) as [F1 E1]. destruct (B2R_small (-8) ltac:(lia)) as [F2 E2].
    change (- (8)) with (-8). rewrite E1, E2. repeat split; try assumption; rewrite <- abs_IZR; apply IZR_le; lia.
  - intros b [<-|[]] _. rewrite nz_gmax. change (2 ^ cell_bits QLC - 1) with 15. change (c_size nz * (2 ^ c_dac_res nz - 1)) with 2. lra.
Qed.

Lemma nz_quiet : quiet nz [QLC] (push 8) (inputs nz_used).
Proof.
  apply (uniform_quiet [QLC] 4 nz nz_ok (push 8) nz_used 8 nz_ideal); [|exact nz_uniform].
  eapply (nloaded_holds [QLC] 4 nz nz_ok nz_w); [exact nz_ideal|exact nz_loaded].
Qed.

(** Little more than a quarter of a step on every cell: the results are wrong. *)
Lemma nz_outputs : outputs (execute_mvm nz nz_used) = [-12; 5] /\ outputs (execute_mvm_noisy nz (push 8) nz_used) = [-12; 5] /\
  outputs (execute_mvm_noisy nz (push 17) nz_used) = [-10; 7].
Proof. repeat split; vm_compute; reflexivity. Qed.

Lemma noise_refutes :
  exists cfg ww c W u draw,
    mvmu_ok cfg ww c /\ ideal cfg c /\ noise_size c /\ nloaded c W u /\ draws_ok c draw /\
    Forall (fun row => no_saturation c cfg row (inputs u)) W /\
    (forall i q r j b, In b cfg ->
       (Rabs (B2R (n_pos (draw i) q r j)) < 3 / 10 * (B2R (c_gmax c) / IZR (2 ^ cell_bits b - 1)) /\
        Rabs (B2R (n_neg (draw i) q r j)) < 3 / 10 * (B2R (c_gmax c) / IZR (2 ^ cell_bits b - 1)))%R) /\
    outputs (execute_mvm_noisy c draw u) <> outputs (execute_mvm c u).
Proof.
  exists [QLC], 4, nz, nz_w, nz_used, (push 17).
  split; [exact nz_ok|]. split; [exact nz_ideal|]. split; [exact nz_size|]. split; [exact nz_loaded|]. split; [apply nz_draws; lia|].
  split; [|split].
  - rewrite nz_inputs. unfold nz_w, mixed_w. repeat constructor; apply (wide_no_sat' [QLC] 4 nz _ _ nz_ok); intros k Hk _; cbn in Hk; (destruct k; [|lia]); cbn; lia.
  - intros i q r j b [<-|[]]. cbn [push n_pos n_neg]. rewrite nz_gmax. change (2 ^ cell_bits QLC - 1) with 15.
    destruct (B2R_small 17 ltac:(lia)) as [_ E1]. destruct (B2R_small (-17) ltac:(lia)) as [_ E2]. change (- (17)) with (-17). rewrite E1, E2.
    rewrite <- !abs_IZR. change (Z.abs 17) with 17. change (Z.abs (-17)) with 17. lra.
  - destruct nz_outputs as (-> & _ & ->). discriminate.
Qed.

Lemma nz_error_case :
  mvmu_ok [QLC] 4 nz /\ ideal [QLC] nz /\ noise_size nz /\ nloaded nz nz_w nz_used /\ draws_ok nz (push 17) /\
  pos_noise nz [QLC] (push 17) (inputs nz_used) 0 1 0 = (17 / 32)%R /\
  nth 1 (outputs (execute_mvm_noisy nz (push 17) nz_used)) 0 = 7 /\ nth 1 (outputs (execute_mvm nz nz_used)) 0 = 5.
Proof.
  split; [exact nz_ok|]. split; [exact nz_ideal|]. split; [exact nz_size|]. split; [exact nz_loaded|]. split; [apply nz_draws; lia|].
  split; [rewrite nz_inputs; apply (nz_load 17); [lia|reflexivity]|]. destruct nz_outputs as (-> & _ & ->). split; reflexivity.
Qed.

Lemma nz_quiet_case :
  mvmu_ok [QLC] 4 nz /\ ideal [QLC] nz /\ noise_size nz /\ nloaded nz nz_w nz_used /\ draws_ok nz (push 8) /\
  quiet nz [QLC] (push 8) (inputs nz_used) /\ uniform nz [QLC] (push 8) 8 /\
  pos_noise nz [QLC] (push 8) (inputs nz_used) 0 1 0 = (1 / 4)%R /\
  outputs (execute_mvm_noisy nz (push 8) nz_used) = [6 * 5 + -14 * 3; -2 * 5 + 5 * 3].
Proof.
  split; [exact nz_ok|]. split; [exact nz_ideal|]. split; [exact nz_size|]. split; [exact nz_loaded|]. split; [apply nz_draws; lia|].
  split; [exact nz_quiet|]. split; [exact nz_uniform|]. split; [|destruct nz_outputs as (_ & -> & _); reflexivity].
  rewrite nz_inputs. destruct (nz_load 8 0 1 ltac:(lia) eq_refl) as (-> & _). lra.
Qed.

Lemma nz_activity_case :
  mvmu_ok [QLC] 4 nz /\ nreached nz nz_used /\
  outputs (execute_mvm_noisy nz (push 960) nz_used) = [187; 205] /\
  adc_overflow_times (mv_stat (execute_mvm_noisy nz (push 960) nz_used)) = 4 /\ adc_overflow_times (mv_stat (execute_mvm nz nz_used)) = 0 /\
  adc_conversions (mv_stat (execute_mvm_noisy nz (push 960) nz_used)) = 6.
Proof.
  split; [exact nz_ok|]. split.
  - exists [NLoad nz_w; NWrite 0 [5; 3]]. reflexivity.
  - repeat split; vm_compute; reflexivity.
Qed.
