(** C04, C16 - C26: the matrix-vector unit. *)
From Verif Require Import PyBase ConfigModel ConfigSpec MemoryModel FloatModel FloatSpec MvmuModel MvmuSpec
  MvmuUse MvmuCount MvmuExamples MvmuTop.
From Flocq Require Import IEEE754.BinarySingleNaN Core.
From Coq Require Import Reals.
Open Scope Z_scope.

(** C04 (a loaded weight is represented to within half a unit in the last place). *)
Theorem C04_loaded_weight :
  forall cfg ww c W u r j,
    mvmu_ok cfg ww c -> ideal cfg c -> loaded c W u ->
    (r < Z.to_nat (c_size c))%nat -> (j < Z.to_nat (c_size c))%nat ->
    weight_mag (c_weight_frac c) (nth j (nth r W []) f0) < 2 ^ ww ->
    (Rabs (IZR (measured_weight c cfg u r j) * bpow radix2 (- c_weight_frac c) - B2R (nth j (nth r W []) f0))
     <= / 2 * bpow radix2 (- c_weight_frac c))%R.
Proof. exact measured_near'. Qed.
Print Assumptions C04_loaded_weight.

(** Without the range condition: the stored integer is the magnitude modulo 2^ww with the sign. *)
Theorem C04_stored_value :
  forall cfg ww c W u r j,
    mvmu_ok cfg ww c -> ideal cfg c -> loaded c W u ->
    (r < Z.to_nat (c_size c))%nat -> (j < Z.to_nat (c_size c))%nat ->
    measured_weight c cfg u r j = stored_weight ww (c_weight_frac c) (nth j (nth r W []) f0).
Proof. exact measured_stored. Qed.
Print Assumptions C04_stored_value.

(** 1.0 in Q0.8 is stored as 0. *)
Theorem C04_loaded_weight_refuted :
  exists cfg ww c W u,
    mvmu_ok cfg ww c /\ ideal cfg c /\ loaded c W u /\
    ~ (Rabs (IZR (measured_weight c cfg u 0 0) * bpow radix2 (- c_weight_frac c) - B2R (nth 0 (nth 0 W []) f0))
       <= / 2 * bpow radix2 (- c_weight_frac c))%R.
Proof. exact q0_8_refutes. Qed.
Print Assumptions C04_loaded_weight_refuted.

Example C04_case :
  mvmu_ok mixed_cfg 4 mixed /\ ideal mixed_cfg mixed /\ loaded mixed mixed_w (used mixed mixed_w [5; 3]) /\
  measured_weight mixed mixed_cfg (used mixed mixed_w [5; 3]) 0 1 = -14 /\
  measured_weight mixed mixed_cfg (used mixed mixed_w [5; 3]) 1 1 = 5.
Proof. exact mixed_measured. Qed.

(** C16 (digital matrix-vector product is exact). *)
Theorem C16_digital_exact :
  forall cfg ww c W u,
    mvmu_ok cfg ww c -> Forall (fun b => is_sram b = true) cfg -> c_dac_res c = 1 -> loaded c W u ->
    Forall (fun x => 0 <= x < 2 ^ c_act_width c) (inputs u) ->
    Forall (Forall (fun w => weight_mag (c_weight_frac c) w < 2 ^ ww)) W ->
    outputs (execute_mvm c u) =
    map (fun row => wrap32 (dot (map (fixed_weight (c_weight_frac c)) row) (inputs u))) W.
Proof. exact digital_exact'. Qed.
Print Assumptions C16_digital_exact.

Corollary C16_digital_exact_32bit :
  forall cfg ww c W u,
    mvmu_ok cfg ww c -> Forall (fun b => is_sram b = true) cfg -> c_dac_res c = 1 -> loaded c W u ->
    Forall (fun x => 0 <= x < 2 ^ c_act_width c) (inputs u) ->
    Forall (Forall (fun w => weight_mag (c_weight_frac c) w < 2 ^ ww)) W ->
    Forall (fun row => int32 (dot (map (fixed_weight (c_weight_frac c)) row) (inputs u))) W ->
    outputs (execute_mvm c u) =
    map (fun row => dot (map (fixed_weight (c_weight_frac c)) row) (inputs u)) W.
Proof. exact digital_exact_32. Qed.
Print Assumptions C16_digital_exact_32bit.

Example C16_case :
  mvmu_ok [SRAMb; SRAMb; SRAMb; SRAMb] 4 sram3 /\ loaded sram3 mixed_w (used sram3 mixed_w [5; 3]) /\
  inputs (used sram3 mixed_w [5; 3]) = [5; 3] /\
  outputs (execute_mvm sram3 (used sram3 mixed_w [5; 3])) = [6 * 5 + -14 * 3; -2 * 5 + 5 * 3].
Proof. exact sram3_case. Qed.

(** C17 (analog matrix-vector product is exact in the ideal case). *)
Theorem C17_analog_exact :
  forall cfg ww c W u,
    mvmu_ok cfg ww c -> analog_ok c -> c_dac_res c = 1 -> loaded c W u ->
    Forall (fun row => no_saturation c cfg row (inputs u)) W ->
    Forall (fun x => 0 <= x < 2 ^ c_act_width c) (inputs u) ->
    Forall (Forall (fun w => weight_mag (c_weight_frac c) w < 2 ^ ww)) W ->
    outputs (execute_mvm c u) =
    map (fun row => wrap32 (dot (map (fixed_weight (c_weight_frac c)) row) (inputs u))) W.
Proof. exact analog_exact'. Qed.
Print Assumptions C17_analog_exact.

(** A converter of resolution r never saturates when size * (2^bits - 1) * (2^dac - 1) <= 2^r - 1. *)
Theorem C17_wide_converter :
  forall cfg ww c row x,
    mvmu_ok cfg ww c ->
    (forall k, (k < length cfg)%nat -> is_sram (nth k cfg SLC) = false ->
       zlen row * ((2 ^ cell_bits (nth k cfg SLC) - 1) * (2 ^ c_dac_res c - 1)) <= 2 ^ c_adc_res c - 1) ->
    no_saturation c cfg row x.
Proof. exact wide_no_sat'. Qed.
Print Assumptions C17_wide_converter.

(** Every order of evaluation includes the one from left to right. *)
Theorem C17_left_to_right_is_an_order :
  forall a b, sumprod (combine a b) (dot_lr a b).
Proof. exact dot_lr_sumprod. Qed.
Print Assumptions C17_left_to_right_is_an_order.

Example C17_case :
  mvmu_ok [QLC] 4 analog4 /\ analog_ok analog4 /\ loaded analog4 mixed_w (used analog4 mixed_w [5; 3]) /\
  Forall (fun row => no_saturation analog4 [QLC] row (inputs (used analog4 mixed_w [5; 3]))) mixed_w /\
  outputs (execute_mvm analog4 (used analog4 mixed_w [5; 3])) = [6 * 5 + -14 * 3; -2 * 5 + 5 * 3].
Proof. exact analog4_case. Qed.

(** C18 (mixed RRAM/SRAM storage computes the same product). *)
Theorem C18_mixed_exact :
  forall cfg ww c W u,
    mvmu_ok cfg ww c -> ideal cfg c -> c_dac_res c = 1 -> loaded c W u ->
    Forall (fun row => no_saturation c cfg row (inputs u)) W ->
    Forall (fun x => 0 <= x < 2 ^ c_act_width c) (inputs u) ->
    Forall (Forall (fun w => weight_mag (c_weight_frac c) w < 2 ^ ww)) W ->
    outputs (execute_mvm c u) =
    map (fun row => wrap32 (dot (map (fixed_weight (c_weight_frac c)) row) (inputs u))) W.
Proof. exact mixed_exact'. Qed.
Print Assumptions C18_mixed_exact.

(** The distribution of the bits over crossbars does not matter, also for weights and inputs that
    do not fit their formats. *)
Theorem C18_layout_independent :
  forall cfg1 cfg2 ww c1 c2 W u1 u2,
    mvmu_ok cfg1 ww c1 -> mvmu_ok cfg2 ww c2 -> ideal cfg1 c1 -> ideal cfg2 c2 ->
    c_dac_res c1 = c_dac_res c2 -> c_act_width c1 = c_act_width c2 -> c_weight_frac c1 = c_weight_frac c2 ->
    loaded c1 W u1 -> loaded c2 W u2 -> inputs u1 = inputs u2 ->
    Forall (fun row => no_saturation c1 cfg1 row (inputs u1)) W ->
    Forall (fun row => no_saturation c2 cfg2 row (inputs u2)) W ->
    outputs (execute_mvm c1 u1) = outputs (execute_mvm c2 u2).
Proof. exact layout_independent. Qed.
Print Assumptions C18_layout_independent.

Example C18_case :
  mvmu_ok mixed_cfg 4 mixed /\ ideal mixed_cfg mixed /\ loaded mixed mixed_w (used mixed mixed_w [5; 3]) /\
  Forall (fun row => no_saturation mixed mixed_cfg row (inputs (used mixed mixed_w [5; 3]))) mixed_w /\
  outputs (execute_mvm mixed (used mixed mixed_w [5; 3])) = [6 * 5 + -14 * 3; -2 * 5 + 5 * 3].
Proof. exact mixed_case. Qed.

(** C19 (the product does not depend on the DAC resolution).  Refuted; what is computed instead:
    slice i counts 2^i. *)
Theorem C19_any_resolution_refuted :
  exists cfg ww c W u,
    mvmu_ok cfg ww c /\ Forall (fun b => is_sram b = true) cfg /\ loaded c W u /\
    Forall (fun x => 0 <= x < 2 ^ c_act_width c) (inputs u) /\
    Forall (Forall (fun w => weight_mag (c_weight_frac c) w < 2 ^ ww)) W /\
    outputs (execute_mvm c u) <>
    map (fun row => wrap32 (dot (map (fixed_weight (c_weight_frac c)) row) (inputs u))) W.
Proof. exact dac2_refutes. Qed.
Print Assumptions C19_any_resolution_refuted.

Theorem C19_value_computed :
  forall cfg ww c W u,
    mvmu_ok cfg ww c -> ideal cfg c -> loaded c W u ->
    Forall (fun row => no_saturation c cfg row (inputs u)) W ->
    outputs (execute_mvm c u) =
    map (fun row => wrap32 (product ww (c_weight_frac c) row (map (input_value c) (inputs u)))) W.
Proof. exact mvm_product'. Qed.
Print Assumptions C19_value_computed.

(** The same with saturating converters. *)
Theorem C19_value_computed_saturating :
  forall cfg ww c W u,
    mvmu_ok cfg ww c -> ideal cfg c -> loaded c W u ->
    outputs (execute_mvm c u) = map (fun row => wrap32 (mvm_value c cfg row (inputs u))) W.
Proof. exact loaded_mvm'. Qed.
Print Assumptions C19_value_computed_saturating.

(** With one slice every resolution is right. *)
Theorem C19_one_slice :
  forall cfg ww c x,
    mvmu_ok cfg ww c -> c_act_width c <= c_dac_res c -> 0 <= x < 2 ^ c_act_width c -> input_value c x = x.
Proof. exact one_slice. Qed.
Print Assumptions C19_one_slice.

Example C19_case : input_value dac2 4 = 2 /\ input_value dac2 7 = 5 /\ input_value dac2 3 = 3.
Proof. vm_compute. auto. Qed.

(** C20 (signed inputs are multiplied as signed numbers).  Refuted; an input is taken modulo
    2^activation_width. *)
Theorem C20_signed_inputs_refuted :
  exists cfg ww c W u,
    mvmu_ok cfg ww c /\ Forall (fun b => is_sram b = true) cfg /\ c_dac_res c = 1 /\ loaded c W u /\
    Forall (fun x => - 2 ^ (c_act_width c - 1) <= x < 2 ^ (c_act_width c - 1)) (inputs u) /\
    Forall (Forall (fun w => weight_mag (c_weight_frac c) w < 2 ^ ww)) W /\
    outputs (execute_mvm c u) <>
    map (fun row => wrap32 (dot (map (fixed_weight (c_weight_frac c)) row) (inputs u))) W.
Proof. exact signed4_refutes. Qed.
Print Assumptions C20_signed_inputs_refuted.

Theorem C20_value_computed :
  forall cfg ww c W u,
    mvmu_ok cfg ww c -> ideal cfg c -> c_dac_res c = 1 -> loaded c W u ->
    Forall (fun row => no_saturation c cfg row (inputs u)) W ->
    outputs (execute_mvm c u) =
    map (fun row => wrap32 (product ww (c_weight_frac c) row
                              (map (fun x => x mod 2 ^ c_act_width c) (inputs u)))) W.
Proof. exact mvm_product_1'. Qed.
Print Assumptions C20_value_computed.

(** C21 (a matrix-vector multiply consumes its input). *)
Theorem C21_input_shifted :
  forall cfg ww c u,
    mvmu_ok cfg ww c -> reached c u ->
    inputs (execute_mvm c u) = map (fun x => x / 2 ^ (c_dac_res c * slices c)) (inputs u) /\
    c_act_width c <= c_dac_res c * slices c < c_act_width c + c_dac_res c.
Proof. exact input_shifted. Qed.
Print Assumptions C21_input_shifted.

Theorem C21_input_consumed :
  forall cfg ww c u,
    mvmu_ok cfg ww c -> reached c u ->
    Forall (fun x => 0 <= x < 2 ^ c_act_width c) (inputs u) ->
    inputs (execute_mvm c u) = map (fun _ => 0) (inputs u).
Proof. exact input_consumed'. Qed.
Print Assumptions C21_input_consumed.

Theorem C21_second_multiply :
  forall cfg ww c W u,
    mvmu_ok cfg ww c -> ideal cfg c -> loaded c W u ->
    Forall (fun x => 0 <= x < 2 ^ c_act_width c) (inputs u) ->
    outputs (execute_mvm c (execute_mvm c u)) = map (fun _ => 0) W.
Proof. exact second_multiply'. Qed.
Print Assumptions C21_second_multiply.

Example C21_case :
  inputs (execute_mvm mixed (used mixed mixed_w [5; -3])) = [0; -1] /\
  outputs (execute_mvm mixed (execute_mvm mixed (used mixed mixed_w [5; 3]))) = [0; 0].
Proof. vm_compute. auto. Qed.

(** C22 (a multiply does not depend on earlier outputs). *)
Theorem C22_function_of_cells_and_inputs :
  forall cfg ww c u1 u2,
    mvmu_ok cfg ww c -> reached c u1 -> reached c u2 -> same_cells u1 u2 -> inputs u1 = inputs u2 ->
    outputs (execute_mvm c u1) = outputs (execute_mvm c u2).
Proof. exact mvm_independent'. Qed.
Print Assumptions C22_function_of_cells_and_inputs.

Theorem C22_function_of_weights_and_inputs :
  forall cfg ww c W u1 u2,
    mvmu_ok cfg ww c -> ideal cfg c -> loaded c W u1 -> loaded c W u2 -> inputs u1 = inputs u2 ->
    outputs (execute_mvm c u1) = outputs (execute_mvm c u2).
Proof. exact loaded_independent. Qed.
Print Assumptions C22_function_of_weights_and_inputs.

Theorem C22_cells_unchanged :
  forall cfg ww c u, mvmu_ok cfg ww c -> reached c u -> same_cells (execute_mvm c u) u.
Proof. exact mvm_cells. Qed.
Print Assumptions C22_cells_unchanged.

Example C22_case :
  let u := used mixed mixed_w [5; 3] in
  let v := mv_run mixed u [OMvm; OWrite 0 [1; 1]; OMvm; OWrite 0 [5; 3]] in
  outputs v = [-8; 3] /\ outputs u = [0; 0] /\ outputs (execute_mvm mixed u) = [-12; 5] /\
  outputs (execute_mvm mixed v) = [-12; 5].
Proof. vm_compute. auto. Qed.

(** C23 (reading outputs discards the weight fraction bits by flooring). *)
Theorem C23_read_floors :
  forall cfg ww c u s l,
    mvmu_ok cfg ww c -> reached c u -> 0 <= s -> 0 <= l -> s + l <= c_size c ->
    fst (read_from_outreg c u s l) =
      Ok (map (fun k => nth (Z.to_nat (s + k)) (outputs u) 0 / 2 ^ c_weight_frac c) (zrange l)) /\
    outputs (snd (read_from_outreg c u s l)) = outputs u.
Proof. exact read_floor'. Qed.
Print Assumptions C23_read_floors.

Theorem C23_read_out_of_range :
  forall cfg ww c u s l,
    mvmu_ok cfg ww c -> reached c u -> 0 < l -> s < 0 \/ c_size c < s + l ->
    fst (read_from_outreg c u s l) = Raise ValueError /\ outputs (snd (read_from_outreg c u s l)) = outputs u.
Proof. exact read_rejected'. Qed.
Print Assumptions C23_read_out_of_range.

Example C23_case :
  fst (read_from_outreg mixed (execute_mvm mixed (used mixed mixed_w [1; 1])) 0 2) = Ok [-4; 1] /\
  outputs (execute_mvm mixed (used mixed mixed_w [1; 1])) = [-8; 3].
Proof. vm_compute. auto. Qed.

(** C24 (the ADC saturates symmetrically and counts every saturation). *)
Theorem C24_adc_saturates :
  forall c steps pos neg st out st',
    0 <= c_adc_res c -> length pos = length steps -> length neg = length steps ->
    adc_convert c steps pos neg st = (out, st') ->
    let M := 2 ^ c_adc_res c - 1 in
    Forall (Forall (fun o => - M <= o <= M)) out /\
    exists ints,
      length ints = length steps /\
      (forall q m, (q < length steps)%nat -> (m < length (nth q pos []))%nat -> (m < length (nth q neg []))%nat ->
         exists a b,
           nearest_even (B2R (Bdiv mode_NE (nth m (nth q pos []) f0) (nth q steps f0))) a /\
           nearest_even (B2R (Bdiv mode_NE (nth m (nth q neg []) f0) (nth q steps f0))) b /\
           nth m (nth q ints []) 0 = a - b) /\
      (forall q, (q < length steps)%nat ->
         length (nth q ints []) = Nat.min (length (nth q pos [])) (length (nth q neg []))) /\
      Forall2 (Forall2 (fun v o => (Z.abs v <= M -> o = v) /\ (M < v -> o = M) /\ (v < - M -> o = - M))) ints out /\
      adc_overflow_times st' =
        adc_overflow_times st + zsum (map (fun row => zlen (filter (fun v => M <? Z.abs v) row)) ints) /\
      adc_conversions st' =
        adc_conversions st + num_rram (c_storage c) * c_num_adc c * (if c_adc_differential c then 1 else 2) /\
      adc_active_cycles st' = adc_active_cycles st + c_adc_lat c.
Proof. exact adc_array'. Qed.
Print Assumptions C24_adc_saturates.

(** At the level of a multiply: the counter grows by the number of saturated row sums. *)
Theorem C24_saturations_counted :
  forall cfg ww c W u,
    mvmu_ok cfg ww c -> ideal cfg c -> loaded c W u ->
    adc_overflow_times (mv_stat (execute_mvm c u)) =
    adc_overflow_times (mv_stat u) + saturations c cfg W (inputs u).
Proof. exact mvm_saturations'. Qed.
Print Assumptions C24_saturations_counted.

Example C24_case :
  loaded narrow mixed_w (used narrow mixed_w [7; 7]) /\
  outputs (execute_mvm narrow (used narrow mixed_w [7; 7])) = [-21; 21] /\
  adc_overflow_times (mv_stat (execute_mvm narrow (used narrow mixed_w [7; 7]))) = 3.
Proof. exact narrow_case. Qed.

(** C25 (a non-zero minimum conductance does not change the product).  Refuted. *)
Theorem C25_minimum_conductance_refuted :
  exists cfg ww c W u,
    mvmu_ok cfg ww c /\ moderate_pos (c_gmin c) /\ moderate_pos (c_gmax c) /\ moderate_pos (c_vdd c) /\
    (B2R (c_gmin c) < B2R (c_gmax c))%R /\ c_dac_res c = 1 /\ loaded c W u /\
    Forall (fun row => no_saturation c cfg row (inputs u)) W /\
    Forall (fun x => 0 <= x < 2 ^ c_act_width c) (inputs u) /\
    Forall (Forall (fun w => weight_mag (c_weight_frac c) w < 2 ^ ww)) W /\
    outputs (execute_mvm c u) <>
    map (fun row => wrap32 (dot (map (fixed_weight (c_weight_frac c)) row) (inputs u))) W.
Proof. exact gmin1_refutes. Qed.
Print Assumptions C25_minimum_conductance_refuted.

(** C26 (activity counters of a multiply depend only on the configuration). *)
Theorem C26_counters :
  forall cfg ww c u,
    mvmu_ok cfg ww c -> reached c u ->
    let u' := execute_mvm c u in
    let T := slices c in let n := c_size c in let C := c_cols c in
    let R := rrams cfg in let S := srams cfg in
    let s := mv_stat u in let s' := mv_stat u' in
    dac_conversions s' = dac_conversions s + T * when R n /\
    dac_active_cycles s' = dac_active_cycles s + T * when R (c_dac_lat c) /\
    rram_mvm_operations s' = rram_mvm_operations s + T * (R * 2) /\
    snh_pos_samples s' = snh_pos_samples s + T * (R * n) /\
    snh_neg_samples s' = snh_neg_samples s + T * (R * n) /\
    mux_pos_selections s' = mux_pos_selections s + T * (R * n) /\
    mux_neg_selections s' = mux_neg_selections s + T * (R * n) /\
    adc_conversions s' = adc_conversions s + T * (R * n * (if c_adc_differential c then 1 else 2)) /\
    adc_active_cycles s' = adc_active_cycles s + T * (C * when R (c_adc_lat c)) /\
    sram_mac_operations s' = sram_mac_operations s + T * (S * 2 * n) /\
    mux_sram_selections s' = mux_sram_selections s + T * (S * n) /\
    sna_operations s' = sna_operations s + T * ((R + S) * n + n) /\
    (let i := in_stat (mv_in u) in let i' := in_stat (mv_in u') in
     read_operations i' = read_operations i + T /\ read_cells i' = read_cells i + T * n /\
     write_operations i' = write_operations i /\ write_cells i' = write_cells i /\
     total_operations i' = total_operations i + T /\ total_operated_cells i' = total_operated_cells i + T * n) /\
    (let o := out_stat (mv_out u) in let o' := out_stat (mv_out u') in
     read_operations o' = read_operations o + T * C /\ read_cells o' = read_cells o + T * n /\
     write_operations o' = write_operations o + (1 + T * C) /\ write_cells o' = write_cells o + (n + T * n) /\
     total_operations o' = total_operations o + (1 + 2 * (T * C)) /\
     total_operated_cells o' = total_operated_cells o + (n + 2 * (T * n))).
Proof. exact mvm_counters. Qed.
Print Assumptions C26_counters.

Example C26_case :
  mv_stat (execute_mvm mixed (used mixed mixed_w [5; 3])) = MkMvStats 6 3 12 12 12 12 12 12 0 6 12 6 24.
Proof. vm_compute. reflexivity. Qed.
