(** The statements of PropMvmu. *)
From Verif Require Import PyBase PyLemmas FloatModel AnalogProofs DataConvert ConfigModel ConfigSpec ConfigProofs
  MemoryModel MvmuModel FloatSpec FloatProofs AnalogChain MvmuSpec MvmuLists MvmuLoad MvmuRun MvmuProofs MvmuUse
  MvmuCount MvmuExamples.
From Flocq Require Import IEEE754.BinarySingleNaN Core.
From Coq Require Import Reals Lra Psatz ZifyNat ZifyBool.
Open Scope Z_scope.

Lemma measured_near' cfg ww c W u r j :
  mvmu_ok cfg ww c -> ideal cfg c -> loaded c W u ->
  (r < Z.to_nat (c_size c))%nat -> (j < Z.to_nat (c_size c))%nat ->
  weight_mag (c_weight_frac c) (nth j (nth r W []) f0) < 2 ^ ww ->
  (Rabs (IZR (measured_weight c cfg u r j) * bpow radix2 (- c_weight_frac c) - B2R (nth j (nth r W []) f0))
   <= / 2 * bpow radix2 (- c_weight_frac c))%R.
Proof. intros OK. exact (measured_near cfg ww c OK W u r j). Qed.

Lemma measured_stored cfg ww c W u r j :
  mvmu_ok cfg ww c -> ideal cfg c -> loaded c W u ->
  (r < Z.to_nat (c_size c))%nat -> (j < Z.to_nat (c_size c))%nat ->
  measured_weight c cfg u r j = stored_weight ww (c_weight_frac c) (nth j (nth r W []) f0).
Proof.
  intros OK ID L Hr Hj. destruct (loaded_holds _ _ _ OK W u ID L) as [H _]. now apply (measured_weight_exact _ _ _ OK W).
Qed.

Lemma q0_8_refutes :
  exists cfg ww c W u,
    mvmu_ok cfg ww c /\ ideal cfg c /\ loaded c W u /\
    ~ (Rabs (IZR (measured_weight c cfg u 0 0) * bpow radix2 (- c_weight_frac c) - B2R (nth 0 (nth 0 W []) f0))
       <= / 2 * bpow radix2 (- c_weight_frac c))%R.
Proof.
  exists [QLC; QLC], 8, q0_8, one_w, (used q0_8 one_w [1]). destruct q0_8_wrong as (L & AN & H).
  split; [exact q0_8_ok|]. split; [intros _; exact AN|]. split; [exact L|exact H].
Qed.

Lemma mixed_loaded : loaded mixed mixed_w (used mixed mixed_w [5; 3]).
Proof. apply used_loaded, mixed_load. Qed.
Lemma mixed_ideal : ideal mixed_cfg mixed. Proof. intros _. exact mixed_analog. Qed.

Lemma half5 : B2R (fdiv (f_of_Z 5) (f_of_Z 2)) = (5 / 2)%R.
Proof.
  unfold fdiv. destruct (B2R_small 5 ltac:(lia)) as [F5 E5]. destruct (B2R_small 2 ltac:(lia)) as [F2 E2].
  pose proof (Bdiv_correct prec64 emax64 _ _ mode_NE (f_of_Z 5) (f_of_Z 2)) as H. rewrite E2, E5 in H.
  specialize (H ltac:(lra)). cbn [round_mode] in H.
  assert (G : round radix2 (SpecFloat.fexp prec64 emax64) ZnearestE (5 / 2) = (5 / 2)%R).
  { apply round_generic; [apply valid_rnd_N|].
    replace (5 / 2)%R with (F2R (Float radix2 5 (-1))) by (unfold F2R; cbn; lra).
    apply generic_format_F2R. intros _. unfold cexp, SpecFloat.fexp.
    rewrite (mag_unique radix2 _ 2).
    - cbn. lia.
    - unfold F2R; cbn. rewrite Rabs_pos_eq by lra. lra. }
  rewrite G in H. rewrite Rlt_bool_true in H; [apply H|].
  rewrite Rabs_pos_eq by lra. apply Rlt_le_trans with (bpow radix2 3); [cbn; lra|apply bpow_le; cbv; congruence].
Qed.

Lemma mixed_measured :
  mvmu_ok mixed_cfg 4 mixed /\ ideal mixed_cfg mixed /\ loaded mixed mixed_w (used mixed mixed_w [5; 3]) /\
  measured_weight mixed mixed_cfg (used mixed mixed_w [5; 3]) 0 1 = -14 /\
  measured_weight mixed mixed_cfg (used mixed mixed_w [5; 3]) 1 1 = 5.
Proof.
  split; [exact mixed_ok|]. split; [exact mixed_ideal|]. split; [exact mixed_loaded|].
  rewrite !(measured_stored _ 4 _ mixed_w _ _ _ mixed_ok mixed_ideal mixed_loaded) by (cbn; lia).
  cbn [mixed_w nth]. change (c_weight_frac mixed) with 1. unfold stored_weight. split.
  - destruct (weight_int 1 (-7) ltac:(lia) ltac:(lia)) as [-> ->]. reflexivity.
  - unfold weight_sgn, weight_mag. rewrite half5. rewrite Rlt_bool_false by lra. rewrite Rlt_bool_true by lra.
    rewrite Rabs_pos_eq by lra. rewrite (Znearest_imp _ _ 5); [reflexivity|].
    change (bpow radix2 1) with 2%R. replace (5 / 2 * 2 - 5)%R with 0%R by lra. rewrite Rabs_R0. lra.
Qed.

Lemma digital_exact' cfg ww c W u :
  mvmu_ok cfg ww c -> Forall (fun b => is_sram b = true) cfg -> c_dac_res c = 1 -> loaded c W u ->
  Forall (fun x => 0 <= x < 2 ^ c_act_width c) (inputs u) ->
  Forall (Forall (fun w => weight_mag (c_weight_frac c) w < 2 ^ ww)) W ->
  outputs (execute_mvm c u) = map (fun row => wrap32 (dot (map (fixed_weight (c_weight_frac c)) row) (inputs u))) W.
Proof. intros OK. exact (digital_exact cfg ww c OK W u). Qed.

Lemma digital_exact_32 cfg ww c W u :
  mvmu_ok cfg ww c -> Forall (fun b => is_sram b = true) cfg -> c_dac_res c = 1 -> loaded c W u ->
  Forall (fun x => 0 <= x < 2 ^ c_act_width c) (inputs u) ->
  Forall (Forall (fun w => weight_mag (c_weight_frac c) w < 2 ^ ww)) W ->
  Forall (fun row => int32 (dot (map (fixed_weight (c_weight_frac c)) row) (inputs u))) W ->
  outputs (execute_mvm c u) = map (fun row => dot (map (fixed_weight (c_weight_frac c)) row) (inputs u)) W.
Proof.
  intros OK H1 H2 H3 H4 H5 H6. rewrite (digital_exact' cfg ww c W u) by assumption. apply map_ext_in. intros row Hrow.
  rewrite Forall_forall in H6. apply wrap32_id. now apply H6.
Qed.

Lemma sram3_case :
  mvmu_ok [SRAMb; SRAMb; SRAMb; SRAMb] 4 sram3 /\ loaded sram3 mixed_w (used sram3 mixed_w [5; 3]) /\
  inputs (used sram3 mixed_w [5; 3]) = [5; 3] /\
  outputs (execute_mvm sram3 (used sram3 mixed_w [5; 3])) = [6 * 5 + -14 * 3; -2 * 5 + 5 * 3].
Proof.
  split; [exact sram3_ok|]. split; [apply used_loaded, sram3_load|]. split; vm_compute; reflexivity.
Qed.

Lemma mixed_exact' cfg ww c W u :
  mvmu_ok cfg ww c -> ideal cfg c -> c_dac_res c = 1 -> loaded c W u ->
  Forall (fun row => no_saturation c cfg row (inputs u)) W ->
  Forall (fun x => 0 <= x < 2 ^ c_act_width c) (inputs u) ->
  Forall (Forall (fun w => weight_mag (c_weight_frac c) w < 2 ^ ww)) W ->
  outputs (execute_mvm c u) = map (fun row => wrap32 (dot (map (fixed_weight (c_weight_frac c)) row) (inputs u))) W.
Proof. intros OK ID R1. exact (mvm_exact_inputs cfg ww c OK W u R1 ID). Qed.

Lemma analog_exact' cfg ww c W u :
  mvmu_ok cfg ww c -> analog_ok c -> c_dac_res c = 1 -> loaded c W u ->
  Forall (fun row => no_saturation c cfg row (inputs u)) W ->
  Forall (fun x => 0 <= x < 2 ^ c_act_width c) (inputs u) ->
  Forall (Forall (fun w => weight_mag (c_weight_frac c) w < 2 ^ ww)) W ->
  outputs (execute_mvm c u) = map (fun row => wrap32 (dot (map (fixed_weight (c_weight_frac c)) row) (inputs u))) W.
Proof. intros OK AN. apply (mixed_exact' cfg ww); [exact OK|]. intros _. exact AN. Qed.

Lemma wide_no_sat' cfg ww c row x : mvmu_ok cfg ww c ->
  (forall k, (k < length cfg)%nat -> is_sram (nth k cfg SLC) = false ->
     zlen row * ((2 ^ cell_bits (nth k cfg SLC) - 1) * (2 ^ c_dac_res c - 1)) <= 2 ^ c_adc_res c - 1) ->
  no_saturation c cfg row x.
Proof. intros OK. exact (wide_no_sat cfg ww c OK row x). Qed.

(** 4-bit cells, an ADC that cannot saturate. *)
Definition analog4 : mvmu_cfg := unit_cfg [QLC] 2 2 1 5 3 1 f0 (f_of_Z 3).
Lemma analog4_ok : mvmu_ok [QLC] 4 analog4. Proof. apply unit_ok; (discriminate || reflexivity || lia). Qed.
Lemma analog4_analog : analog_ok analog4. Proof. apply unit_analog; lia. Qed.

Lemma analog4_case :
  mvmu_ok [QLC] 4 analog4 /\ analog_ok analog4 /\ loaded analog4 mixed_w (used analog4 mixed_w [5; 3]) /\
  Forall (fun row => no_saturation analog4 [QLC] row (inputs (used analog4 mixed_w [5; 3]))) mixed_w /\
  outputs (execute_mvm analog4 (used analog4 mixed_w [5; 3])) = [6 * 5 + -14 * 3; -2 * 5 + 5 * 3].
Proof.
  split; [exact analog4_ok|]. split; [exact analog4_analog|].
  split; [apply used_loaded; vm_compute; reflexivity|]. split; [|vm_compute; reflexivity].
  repeat constructor; apply (wide_no_sat' [QLC] 4 analog4 _ _ analog4_ok); intros k Hk _; cbn in Hk;
    (destruct k; [|lia]); cbn; lia.
Qed.

Lemma mvm_product' cfg ww c W u :
  mvmu_ok cfg ww c -> ideal cfg c -> loaded c W u -> Forall (fun row => no_saturation c cfg row (inputs u)) W ->
  outputs (execute_mvm c u) = map (fun row => wrap32 (product ww (c_weight_frac c) row (map (input_value c) (inputs u)))) W.
Proof. intros OK. exact (mvm_product cfg ww c OK W u). Qed.

Lemma layout_independent cfg1 cfg2 ww c1 c2 W u1 u2 :
  mvmu_ok cfg1 ww c1 -> mvmu_ok cfg2 ww c2 -> ideal cfg1 c1 -> ideal cfg2 c2 ->
  c_dac_res c1 = c_dac_res c2 -> c_act_width c1 = c_act_width c2 -> c_weight_frac c1 = c_weight_frac c2 ->
  loaded c1 W u1 -> loaded c2 W u2 -> inputs u1 = inputs u2 ->
  Forall (fun row => no_saturation c1 cfg1 row (inputs u1)) W ->
  Forall (fun row => no_saturation c2 cfg2 row (inputs u2)) W ->
  outputs (execute_mvm c1 u1) = outputs (execute_mvm c2 u2).
Proof.
  intros OK1 OK2 ID1 ID2 E1 E2 E3 L1 L2 EI N1 N2.
  rewrite (mvm_product' cfg1 ww c1 W u1), (mvm_product' cfg2 ww c2 W u2) by assumption.
  rewrite EI, E3. apply map_ext. intros row. do 2 f_equal. apply map_ext. intros x.
  unfold input_value, slices. now rewrite E1, E2.
Qed.

Lemma mixed_case :
  mvmu_ok mixed_cfg 4 mixed /\ ideal mixed_cfg mixed /\ loaded mixed mixed_w (used mixed mixed_w [5; 3]) /\
  Forall (fun row => no_saturation mixed mixed_cfg row (inputs (used mixed mixed_w [5; 3]))) mixed_w /\
  outputs (execute_mvm mixed (used mixed mixed_w [5; 3])) = [6 * 5 + -14 * 3; -2 * 5 + 5 * 3].
Proof.
  split; [exact mixed_ok|]. split; [exact mixed_ideal|]. split; [exact mixed_loaded|]. split; [|vm_compute; reflexivity].
  repeat constructor; apply (wide_no_sat' mixed_cfg 4 mixed _ _ mixed_ok); intros k Hk _; cbn in Hk;
    (destruct k as [|[|[|k]]]; [..|lia]); cbn; lia.
Qed.

Lemma dac2_refutes :
  exists cfg ww c W u,
    mvmu_ok cfg ww c /\ Forall (fun b => is_sram b = true) cfg /\ loaded c W u /\
    Forall (fun x => 0 <= x < 2 ^ c_act_width c) (inputs u) /\
    Forall (Forall (fun w => weight_mag (c_weight_frac c) w < 2 ^ ww)) W /\
    outputs (execute_mvm c u) <>
    map (fun row => wrap32 (dot (map (fixed_weight (c_weight_frac c)) row) (inputs u))) W.
Proof.
  exists [SRAMb], 1, dac2, one_w, (used dac2 one_w [4]). destruct dac2_wrong as (L & E & HW & H).
  split; [exact dac2_ok|]. split; [repeat constructor|]. split; [exact L|].
  split; [rewrite E; repeat constructor; cbn; lia|]. split; [exact HW|exact H].
Qed.

Lemma signed4_refutes :
  exists cfg ww c W u,
    mvmu_ok cfg ww c /\ Forall (fun b => is_sram b = true) cfg /\ c_dac_res c = 1 /\ loaded c W u /\
    Forall (fun x => - 2 ^ (c_act_width c - 1) <= x < 2 ^ (c_act_width c - 1)) (inputs u) /\
    Forall (Forall (fun w => weight_mag (c_weight_frac c) w < 2 ^ ww)) W /\
    outputs (execute_mvm c u) <>
    map (fun row => wrap32 (dot (map (fixed_weight (c_weight_frac c)) row) (inputs u))) W.
Proof.
  exists [SRAMb], 1, signed4, one_w, (used signed4 one_w [-1]). destruct signed4_wrong as (L & E & HW & H).
  split; [exact signed4_ok|]. split; [repeat constructor|]. split; [reflexivity|]. split; [exact L|].
  split; [rewrite E; repeat constructor; cbn; lia|]. split; [exact HW|exact H].
Qed.

Lemma gmin1_refutes :
  exists cfg ww c W u,
    mvmu_ok cfg ww c /\ moderate_pos (c_gmin c) /\ moderate_pos (c_gmax c) /\ moderate_pos (c_vdd c) /\
    (B2R (c_gmin c) < B2R (c_gmax c))%R /\ c_dac_res c = 1 /\ loaded c W u /\
    Forall (fun row => no_saturation c cfg row (inputs u)) W /\
    Forall (fun x => 0 <= x < 2 ^ c_act_width c) (inputs u) /\
    Forall (Forall (fun w => weight_mag (c_weight_frac c) w < 2 ^ ww)) W /\
    outputs (execute_mvm c u) <>
    map (fun row => wrap32 (dot (map (fixed_weight (c_weight_frac c)) row) (inputs u))) W.
Proof.
  exists [SLC], 1, gmin1, one_w, (used gmin1 one_w [1]). destruct gmin1_wrong as (L & E & HW & NS & H).
  split; [exact gmin1_ok|]. split; [apply (moderate_Z 1); lia|]. split; [apply (moderate_Z 2); lia|].
  split; [apply (moderate_Z 1); lia|]. split.
  { destruct (B2R_small 1 ltac:(lia)) as [_ E1]. destruct (B2R_small 2 ltac:(lia)) as [_ E2].
    change (c_gmin gmin1) with (f_of_Z 1). change (c_gmax gmin1) with (f_of_Z 2). rewrite E1, E2. lra. }
  split; [reflexivity|]. split; [exact L|]. split; [exact NS|].
  split; [rewrite E; repeat constructor; cbn; lia|]. split; [exact HW|exact H].
Qed.

Lemma loaded_mvm' cfg ww c W u : mvmu_ok cfg ww c -> ideal cfg c -> loaded c W u ->
  outputs (execute_mvm c u) = map (fun row => wrap32 (mvm_value c cfg row (inputs u))) W.
Proof. intros OK. exact (loaded_mvm cfg ww c OK W u). Qed.

Lemma one_slice cfg ww c x :
  mvmu_ok cfg ww c -> c_act_width c <= c_dac_res c -> 0 <= x < 2 ^ c_act_width c -> input_value c x = x.
Proof.
  intros OK H Hx. pose proof (ok_dac _ _ _ OK). pose proof (ok_act _ _ _ OK).
  assert (E : slices c = 1).
  { unfold slices. symmetry. apply Z.div_unique with (r := c_act_width c - 1); [left|]; lia. }
  unfold input_value. rewrite E. change (Z.to_nat 1) with 1%nat. unfold sum_below. cbn [seq map zsum fold_right].
  unfold in_slice. rewrite Z.mul_0_r, !Z.pow_0_r, Z.div_1_r, Z.mod_small; [lia|].
  assert (2 ^ c_act_width c <= 2 ^ c_dac_res c) by (apply Z.pow_le_mono_r; lia). lia.
Qed.

Lemma mvm_product_1' cfg ww c W u :
  mvmu_ok cfg ww c -> ideal cfg c -> c_dac_res c = 1 -> loaded c W u ->
  Forall (fun row => no_saturation c cfg row (inputs u)) W ->
  outputs (execute_mvm c u) =
  map (fun row => wrap32 (product ww (c_weight_frac c) row (map (fun x => x mod 2 ^ c_act_width c) (inputs u)))) W.
Proof. intros OK ID R1. exact (mvm_product_1 cfg ww c OK W u R1 ID). Qed.

Lemma input_shifted cfg ww c u : mvmu_ok cfg ww c -> reached c u ->
  inputs (execute_mvm c u) = map (fun x => x / 2 ^ (c_dac_res c * slices c)) (inputs u) /\
  c_act_width c <= c_dac_res c * slices c < c_act_width c + c_dac_res c.
Proof.
  intros OK R. pose proof (reached_shaped _ _ _ _ OK R) as S. split; [exact (inputs_after _ _ _ OK u S)|].
  split; [exact (slices_cover _ _ _ OK)|]. pose proof (ok_dac _ _ _ OK). unfold slices.
  pose proof (Z.div_mod (c_act_width c + c_dac_res c - 1) (c_dac_res c) ltac:(lia)).
  pose proof (Z.mod_pos_bound (c_act_width c + c_dac_res c - 1) (c_dac_res c) ltac:(lia)). lia.
Qed.

Lemma input_consumed' cfg ww c u : mvmu_ok cfg ww c -> reached c u ->
  Forall (fun x => 0 <= x < 2 ^ c_act_width c) (inputs u) ->
  inputs (execute_mvm c u) = map (fun _ => 0) (inputs u).
Proof. intros OK R. apply (inputs_consumed _ _ _ OK). exact (reached_shaped _ _ _ _ OK R). Qed.

Lemma second_multiply' cfg ww c W u : mvmu_ok cfg ww c -> ideal cfg c -> loaded c W u ->
  Forall (fun x => 0 <= x < 2 ^ c_act_width c) (inputs u) ->
  outputs (execute_mvm c (execute_mvm c u)) = map (fun _ => 0) W.
Proof. intros OK. exact (second_multiply _ _ _ OK W u). Qed.

Lemma mvm_independent' cfg ww c u1 u2 :
  mvmu_ok cfg ww c -> reached c u1 -> reached c u2 -> same_cells u1 u2 -> inputs u1 = inputs u2 ->
  outputs (execute_mvm c u1) = outputs (execute_mvm c u2).
Proof.
  intros OK R1 R2 (E1 & E2 & E3 & E4). apply (mvm_independent _ _ _ OK); try assumption;
    eapply reached_shaped; eassumption.
Qed.

Lemma loaded_independent cfg ww c W u1 u2 :
  mvmu_ok cfg ww c -> ideal cfg c -> loaded c W u1 -> loaded c W u2 -> inputs u1 = inputs u2 ->
  outputs (execute_mvm c u1) = outputs (execute_mvm c u2).
Proof.
  intros OK ID L1 L2 E. rewrite (loaded_mvm' cfg ww c W u1), (loaded_mvm' cfg ww c W u2) by assumption. now rewrite E.
Qed.

Lemma mvm_cells cfg ww c u : mvmu_ok cfg ww c -> reached c u -> same_cells (execute_mvm c u) u.
Proof.
  intros OK R. destruct (mvm_frame _ _ _ OK u (reached_shaped _ _ _ _ OK R)) as (_ & _ & E1 & E2 & E3 & E4 & _).
  repeat split; assumption.
Qed.

Lemma read_floor' cfg ww c u s l :
  mvmu_ok cfg ww c -> reached c u -> 0 <= s -> 0 <= l -> s + l <= c_size c ->
  fst (read_from_outreg c u s l) =
    Ok (map (fun k => nth (Z.to_nat (s + k)) (outputs u) 0 / 2 ^ c_weight_frac c) (zrange l)) /\
  outputs (snd (read_from_outreg c u s l)) = outputs u.
Proof. intros OK R. apply (read_floor _ _ _ OK). exact (reached_shaped _ _ _ _ OK R). Qed.

Lemma read_rejected' cfg ww c u s l :
  mvmu_ok cfg ww c -> reached c u -> 0 < l -> s < 0 \/ c_size c < s + l ->
  fst (read_from_outreg c u s l) = Raise ValueError /\ outputs (snd (read_from_outreg c u s l)) = outputs u.
Proof. intros OK R. apply (read_rejected cfg). exact (reached_shaped _ _ _ _ OK R). Qed.

Lemma adc_array' c steps pos neg st out st' :
  0 <= c_adc_res c -> length pos = length steps -> length neg = length steps ->
  adc_convert c steps pos neg st = (out, st') ->
  let M := 2 ^ c_adc_res c - 1 in
  Forall (Forall (fun o => - M <= o <= M)) out /\
  exists ints,
    length ints = length steps /\
    (forall q m, (q < length steps)%nat -> (m < length (nth q pos []))%nat -> (m < length (nth q neg []))%nat ->
       exists a b,
         nearest_even (B2R (Bdiv mode_NE (nth m (nth q pos []) f0) (nth q steps f0))) a /\
         nearest_even (B2R (Bdiv mode_NE (nth m (nth q neg []) f0) (nth q steps f0))) b /\
         nth m (nth q ints []) 0 = a - b) /\
    (forall q, (q < length steps)%nat ->
       length (nth q ints []) = Nat.min (length (nth q pos [])) (length (nth q neg []))) /\
    Forall2 (Forall2 (fun v o => (Z.abs v <= M -> o = v) /\ (M < v -> o = M) /\ (v < - M -> o = - M))) ints out /\
    adc_overflow_times st' =
      adc_overflow_times st + zsum (map (fun row => zlen (filter (fun v => M <? Z.abs v) row)) ints) /\
    adc_conversions st' =
      adc_conversions st + num_rram (c_storage c) * c_num_adc c * (if c_adc_differential c then 1 else 2) /\
    adc_active_cycles st' = adc_active_cycles st + c_adc_lat c.
Proof.
  intros H1 H2 H3 H4. destruct (adc_array c steps pos neg st out st' H1 H2 H3 H4) as (A & ints & B & C & D).
  split; [exact A|]. exists ints. split; [exact B|]. split; [|exact D].
  intros q m Hq Hm Hm'. rewrite (C q m Hq Hm Hm'). eexists _, _. rewrite !fnearest_R.
  split; [apply nearest_even_ZnearestE|]. split; [apply nearest_even_ZnearestE|reflexivity].
Qed.

Lemma mvm_saturations' cfg ww c W u : mvmu_ok cfg ww c -> ideal cfg c -> loaded c W u ->
  adc_overflow_times (mv_stat (execute_mvm c u)) = adc_overflow_times (mv_stat u) + saturations c cfg W (inputs u).
Proof. intros OK. exact (mvm_saturations _ _ _ OK W u). Qed.

(** A 2-bit ADC on 4-bit cells. *)
Definition narrow : mvmu_cfg := unit_cfg [QLC] 2 2 1 2 3 1 f0 (f_of_Z 3).
Lemma narrow_case :
  loaded narrow mixed_w (used narrow mixed_w [7; 7]) /\
  outputs (execute_mvm narrow (used narrow mixed_w [7; 7])) = [-21; 21] /\
  adc_overflow_times (mv_stat (execute_mvm narrow (used narrow mixed_w [7; 7]))) = 3.
Proof. split; [apply used_loaded; vm_compute; reflexivity|]. split; vm_compute; reflexivity. Qed.
