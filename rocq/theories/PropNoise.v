(** C79, C80: crossbars with noise. *)
From Verif Require Import PyBase ConfigModel ConfigSpec MemoryModel FloatModel FloatSpec MvmuModel MvmuSpec
  NoiseModel NoiseSpec NoiseProofs NoiseExamples.
From Flocq Require Import IEEE754.BinarySingleNaN Core.
From Coq Require Import Reals.
Open Scope Z_scope.

(** C79 (every conversion of a noisy multiply is off by at most the noise of its row, in steps). *)
Theorem C79_error :
  forall cfg ww c W u draw r,
    mvmu_ok cfg ww c -> ideal cfg c -> noise_size c -> nloaded c W u -> draws_ok c draw -> (r < length W)%nat ->
    exists e : nat -> nat -> Z,
      nth r (outputs (execute_mvm_noisy c draw u)) 0 = wrap32 (mvm_value_off c cfg (nth r W []) (inputs u) e) /\
      forall i k, (i < Z.to_nat (slices c))%nat -> (k < length cfg)%nat ->
        let p := pos_noise c cfg draw (inputs u) k r (Z.of_nat i) in
        let m := neg_noise c cfg draw (inputs u) k r (Z.of_nat i) in
        (is_sram (nth k cfg SLC) = true -> e i k = 0) /\
        (is_sram (nth k cfg SLC) = false ->
           (Rabs (IZR (e i k)) <= p + m + 1 + / 512)%R /\ ((p < 511 / 1024)%R -> (m < 511 / 1024)%R -> e i k = 0)).
Proof. intros cfg ww c W u draw r OK. exact (noise_error cfg ww c OK W u draw r). Qed.
Print Assumptions C79_error.

Example C79_error_case :
  mvmu_ok [QLC] 4 nz /\ ideal [QLC] nz /\ noise_size nz /\ nloaded nz nz_w nz_used /\ draws_ok nz (push 17) /\
  pos_noise nz [QLC] (push 17) (inputs nz_used) 0 1 0 = (17 / 32)%R /\
  nth 1 (outputs (execute_mvm_noisy nz (push 17) nz_used)) 0 = 7 /\ nth 1 (outputs (execute_mvm nz nz_used)) 0 = 5.
Proof. exact nz_error_case. Qed.

(** C79 (so an output is off by at most the weighted sum of these errors). *)
Theorem C79_deviation :
  forall cfg ww c W u draw r,
    mvmu_ok cfg ww c -> ideal cfg c -> noise_size c -> nloaded c W u -> draws_ok c draw -> (r < length W)%nat ->
    exists e,
      nth r (outputs (execute_mvm_noisy c draw u)) 0 = wrap32 (mvm_value c cfg (nth r W []) (inputs u) + e) /\
      (Rabs (IZR e) <= noise_bound c cfg draw (inputs u) r)%R.
Proof. intros cfg ww c W u draw r OK. exact (noise_deviation cfg ww c OK W u draw r). Qed.
Print Assumptions C79_deviation.

(** C79 (noise below 511/1024 of a step in every row changes nothing at all). *)
Theorem C79_quiet :
  forall cfg ww c W u draw,
    mvmu_ok cfg ww c -> ideal cfg c -> noise_size c -> nloaded c W u -> draws_ok c draw ->
    quiet c cfg draw (inputs u) ->
    execute_mvm_noisy c draw u = execute_mvm c u.
Proof. intros cfg ww c W u draw OK. exact (noise_quiet cfg ww c OK W u draw). Qed.
Print Assumptions C79_quiet.

(** C79 (a bound on every single cell that guarantees it). *)
Theorem C79_uniform :
  forall cfg ww c W u draw eps,
    mvmu_ok cfg ww c -> ideal cfg c -> noise_size c -> nloaded c W u -> uniform c cfg draw eps ->
    outputs (execute_mvm_noisy c draw u) = map (fun row => wrap32 (mvm_value c cfg row (inputs u))) W.
Proof. intros cfg ww c W u draw eps OK. exact (noise_uniform cfg ww c OK W u draw eps). Qed.
Print Assumptions C79_uniform.

Example C79_quiet_case :
  mvmu_ok [QLC] 4 nz /\ ideal [QLC] nz /\ noise_size nz /\ nloaded nz nz_w nz_used /\ draws_ok nz (push 8) /\
  quiet nz [QLC] (push 8) (inputs nz_used) /\ uniform nz [QLC] (push 8) 8 /\
  pos_noise nz [QLC] (push 8) (inputs nz_used) 0 1 0 = (1 / 4)%R /\
  outputs (execute_mvm_noisy nz (push 8) nz_used) = [6 * 5 + -14 * 3; -2 * 5 + 5 * 3].
Proof. exact nz_quiet_case. Qed.

(** C79 (noise below half a step in every single cell is not enough: it adds up along a row). *)
Theorem C79_cell_refuted :
  exists cfg ww c W u draw,
    mvmu_ok cfg ww c /\ ideal cfg c /\ noise_size c /\ nloaded c W u /\ draws_ok c draw /\
    Forall (fun row => no_saturation c cfg row (inputs u)) W /\
    (forall i q r j b, In b cfg ->
       (Rabs (B2R (n_pos (draw i) q r j)) < 3 / 10 * (B2R (c_gmax c) / IZR (2 ^ cell_bits b - 1)) /\
        Rabs (B2R (n_neg (draw i) q r j)) < 3 / 10 * (B2R (c_gmax c) / IZR (2 ^ cell_bits b - 1)))%R) /\
    outputs (execute_mvm_noisy c draw u) <> outputs (execute_mvm c u).
Proof. exact noise_refutes. Qed.
Print Assumptions C79_cell_refuted.

(** C80 (whatever is drawn, a noisy multiply consumes the same input, keeps the stored weights and
    counts the same activity; only the outputs and the number of clamped values depend on it). *)
Theorem C80_activity :
  forall cfg ww c u draw,
    mvmu_ok cfg ww c -> nreached c u ->
    let u' := execute_mvm_noisy c draw u in let v := execute_mvm c u in
    mv_in u' = mv_in v /\ same_cells u' u /\
    out_size (mv_out u') = out_size (mv_out v) /\ length (outputs u') = length (outputs v) /\
    out_stat (mv_out u') = out_stat (mv_out v) /\
    (exists t, mv_stat u' = MkMvStats (dac_conversions (mv_stat v)) (dac_active_cycles (mv_stat v)) (rram_mvm_operations (mv_stat v))
       (snh_pos_samples (mv_stat v)) (snh_neg_samples (mv_stat v)) (mux_pos_selections (mv_stat v)) (mux_neg_selections (mv_stat v))
       (adc_conversions (mv_stat v)) (adc_overflow_times (mv_stat u) + t) (adc_active_cycles (mv_stat v))
       (sram_mac_operations (mv_stat v)) (mux_sram_selections (mv_stat v)) (sna_operations (mv_stat v)) /\
     0 <= t <= slices c * c_size c * rrams cfg).
Proof. intros cfg ww c u draw OK. exact (noise_activity cfg ww c OK u draw). Qed.
Print Assumptions C80_activity.

Example C80_case :
  mvmu_ok [QLC] 4 nz /\ nreached nz nz_used /\
  outputs (execute_mvm_noisy nz (push 960) nz_used) = [187; 205] /\
  adc_overflow_times (mv_stat (execute_mvm_noisy nz (push 960) nz_used)) = 4 /\ adc_overflow_times (mv_stat (execute_mvm nz nz_used)) = 0 /\
  adc_conversions (mv_stat (execute_mvm_noisy nz (push 960) nz_used)) = 6.
Proof. exact nz_activity_case. Qed.
