(** Consequences of the master theorem. *)
From Verif Require Import PyBase PyLemmas FloatModel AnalogProofs DataConvert ConfigModel ConfigSpec ConfigProofs
  MemoryModel MvmuModel FloatSpec FloatProofs AnalogChain MvmuSpec MvmuLists MvmuLoad MvmuRun MvmuProofs.
From Flocq Require Import IEEE754.BinarySingleNaN Core.
From Coq Require Import Reals Lra Psatz ZifyNat ZifyBool.
Open Scope Z_scope.
Ltac Zify.zify_post_hook ::= Z.div_mod_to_equations.

(** ** Sums *)
Lemma sum_below_0 f : sum_below 0 f = 0. Proof. reflexivity. Qed.
Lemma sum_below_add m f g : sum_below m (fun i => f i + g i) = sum_below m f + sum_below m g.
Proof. induction m as [|m IH]; [reflexivity|]. rewrite !sum_below_S, IH. lia. Qed.
Lemma sum_below_scale m k f : sum_below m (fun i => k * f i) = k * sum_below m f.
Proof. induction m as [|m IH]; [cbn; lia|]. rewrite !sum_below_S, IH. lia. Qed.
Lemma sum_below_scale_r m k f : sum_below m (fun i => f i * k) = sum_below m f * k.
Proof. induction m as [|m IH]; [cbn; lia|]. rewrite !sum_below_S, IH. lia. Qed.
Lemma sum_below_const m k : sum_below m (fun _ => k) = Z.of_nat m * k.
Proof. induction m as [|m IH]; [reflexivity|]. rewrite sum_below_S, IH. lia. Qed.
Lemma sum_below_swap m p f : sum_below m (fun i => sum_below p (fun j => f i j)) = sum_below p (fun j => sum_below m (fun i => f i j)).
Proof.
  induction m as [|m IH].
  - cbn. rewrite sum_below_const. lia.
  - rewrite sum_below_S, IH, <- sum_below_add. apply sum_below_ext. intros j _. now rewrite sum_below_S.
Qed.
Lemma sum_below_app m p f : sum_below (m + p) f = sum_below m f + sum_below p (fun i => f (m + i)%nat).
Proof.
  induction p as [|p IH]; [rewrite Nat.add_0_r; cbn; lia|]. rewrite Nat.add_succ_r, !sum_below_S, IH. lia.
Qed.
(** Rows grouped by mux position. *)
Lemma sum_below_grid C A f :
  sum_below C (fun j => sum_below A (fun m => f (m * C + j)%nat)) = sum_below (A * C) f.
Proof.
  rewrite sum_below_swap. induction A as [|A IH]; [reflexivity|].
  rewrite sum_below_S, IH. cbn [Nat.mul]. rewrite (Nat.add_comm C (A * C)), sum_below_app. reflexivity.
Qed.

(** Binary digits at increasing positions. *)
Lemma digits (B : nat -> Z) v m :
  B 0%nat = 0 -> (forall k, (k < m)%nat -> 0 <= B k <= B (S k)) ->
  sum_below m (fun k => 2 ^ B k * (v / 2 ^ B k mod 2 ^ (B (S k) - B k))) = v mod 2 ^ B m.
Proof.
  intros H0; induction m as [|m IH]; intros H.
  - rewrite H0. cbn. now rewrite Z.mod_1_r.
  - rewrite sum_below_S, IH by (intros; apply H; lia). pose proof (H m ltac:(lia)).
    replace (2 ^ B (S m)) with (2 ^ B m * 2 ^ (B (S m) - B m)) by (rewrite <- Z.pow_add_r by lia; f_equal; lia).
    rewrite Z.rem_mul_r; [reflexivity|apply Z.pow_nonzero; lia|apply Z.pow_pos_nonneg; lia].
Qed.

(** ** Linearity of dot products *)
Lemma dot_add_l {X} (f g : X -> Z) row x :
  dot (map (fun w => f w + g w) row) x = dot (map f row) x + dot (map g row) x.
Proof. revert x; induction row as [|w row IH]; intros [|y x]; cbn [map dot]; try reflexivity. rewrite IH. ring. Qed.
Lemma dot_scale_l {X} k (f : X -> Z) row x : dot (map (fun w => k * f w) row) x = k * dot (map f row) x.
Proof. revert x; induction row as [|w row IH]; intros [|y x]; cbn [map dot]; try ring. rewrite IH. ring. Qed.
Lemma dot_zero_l {X} row x : dot (map (fun _ : X => 0) row) x = 0.
Proof. revert x; induction row as [|w row IH]; intros [|y x]; cbn [map dot]; try reflexivity. rewrite IH. ring. Qed.
Lemma dot_sum_l {X} m (f : nat -> X -> Z) row x :
  dot (map (fun w => sum_below m (fun k => f k w)) row) x = sum_below m (fun k => dot (map (f k) row) x).
Proof.
  induction m as [|m IH].
  - cbn. apply dot_zero_l.
  - rewrite sum_below_S, <- IH, <- dot_add_l. f_equal. apply map_ext. intros w. now rewrite sum_below_S.
Qed.
Lemma dot_comm a b : dot a b = dot b a.
Proof. revert b; induction a as [|x a IH]; intros [|y b]; cbn [dot]; try reflexivity. rewrite IH. ring. Qed.
Lemma dot_sum_r {X} m (f : nat -> X -> Z) row x :
  dot row (map (fun w => sum_below m (fun k => f k w)) x) = sum_below m (fun k => dot row (map (f k) x)).
Proof. rewrite dot_comm, dot_sum_l. apply sum_below_ext. intros. apply dot_comm. Qed.
Lemma dot_scale_r {X} k (f : X -> Z) row x : dot row (map (fun w => k * f w) x) = k * dot row (map f x).
Proof. rewrite dot_comm, dot_scale_l. now rewrite dot_comm. Qed.
Lemma dot_zero_r {X} row x : dot row (map (fun _ : X => 0) x) = 0.
Proof. rewrite dot_comm. apply dot_zero_l. Qed.

(** ** Values *)
Section Use.
Context (cfg : list bitcfg) (ww : Z) (c : mvmu_cfg) (OK : mvmu_ok cfg ww c).
Notation K := (length cfg).
Notation n := (c_size c).
Notation res := (c_dac_res c).
Notation frac := (c_weight_frac c).

Lemma ww_eq : bits_below cfg K = ww.
Proof.
  pose proof (ok_storage _ _ _ OK) as V. rewrite validate_storage_eq in V.
  destruct (Z.eqb_spec (zsum (map cell_bits cfg)) ww) as [E|]; [|discriminate].
  unfold bits_below. now rewrite firstn_all.
Qed.

Lemma cells_recombine w : sum_below K (fun k => 2 ^ bits_below cfg k * cell_of cfg frac k w) = stored_weight ww frac w.
Proof.
  unfold stored_weight, cell_of.
  transitivity (weight_sgn w * sum_below K (fun k => 2 ^ bits_below cfg k *
     (weight_mag frac w / 2 ^ bits_below cfg k mod 2 ^ (bits_below cfg (S k) - bits_below cfg k)))).
  - rewrite <- sum_below_scale. apply sum_below_ext. intros k Hk. rewrite bits_below_step by assumption.
    replace (bits_below cfg k + cell_bits (nth k cfg SLC) - bits_below cfg k) with (cell_bits (nth k cfg SLC)) by lia. ring.
  - rewrite digits.
    + now rewrite ww_eq.
    + reflexivity.
    + intros k Hk. pose proof (bits_below_nonneg cfg k). rewrite bits_below_step by assumption.
      pose proof (cell_bits_pos (nth k cfg SLC)). lia.
Qed.

Lemma value_product row x : no_saturation c cfg row x ->
  mvm_value c cfg row x = product ww frac row (map (input_value c) x).
Proof.
  intros NS. unfold product, input_value. rewrite dot_sum_r. unfold mvm_value. apply sum_below_ext. intros i Hi.
  rewrite dot_scale_r. f_equal.
  transitivity (sum_below K (fun k => dot (map (fun w => 2 ^ bits_below cfg k * cell_of cfg frac k w) row) (map (in_slice res (Z.of_nat i)) x))).
  - apply sum_below_ext. intros k Hk. rewrite dot_scale_l. f_equal. unfold converted.
    destruct (is_sram (nth k cfg SLC)) eqn:Hb; [reflexivity|]. pose proof (NS (Z.of_nat i) k ltac:(lia) Hk Hb). unfold row_sum in *. lia.
  - rewrite <- dot_sum_l. f_equal. apply map_ext. intros w. apply cells_recombine.
Qed.

Lemma input_value_1 x : res = 1 -> input_value c x = x mod 2 ^ c_act_width c.
Proof.
  intros R1. unfold input_value. pose proof (ok_act _ _ _ OK) as Ha.
  assert (ES : slices c = c_act_width c) by (unfold slices; rewrite R1, Z.div_1_r; lia).
  rewrite ES. transitivity (x mod 2 ^ Z.of_nat (Z.to_nat (c_act_width c))); [|do 2 f_equal; lia].
  rewrite <- (digits Z.of_nat x) by (intros; lia). apply sum_below_ext. intros i _. f_equal. unfold in_slice.
  rewrite R1, Z.mul_1_l. do 2 f_equal. lia.
Qed.

Lemma slices_cover : c_act_width c <= res * slices c.
Proof.
  pose proof (ok_dac _ _ _ OK). unfold slices.
  pose proof (Z.div_mod (c_act_width c + res - 1) res ltac:(lia)).
  pose proof (Z.mod_pos_bound (c_act_width c + res - 1) res ltac:(lia)). lia.
Qed.

(** Any resolution: what is computed. *)
Lemma mvm_product W u : ideal cfg c -> loaded c W u -> Forall (fun row => no_saturation c cfg row (inputs u)) W ->
  outputs (execute_mvm c u) = map (fun row => wrap32 (product ww frac row (map (input_value c) (inputs u)))) W.
Proof.
  intros ID L NS. rewrite (loaded_mvm _ _ _ OK W u ID L). apply map_ext_in. intros row Hrow. f_equal.
  apply value_product. rewrite Forall_forall in NS. now apply NS.
Qed.

Lemma mvm_product_1 W u : res = 1 -> ideal cfg c -> loaded c W u ->
  Forall (fun row => no_saturation c cfg row (inputs u)) W ->
  outputs (execute_mvm c u) =
  map (fun row => wrap32 (product ww frac row (map (fun x => x mod 2 ^ c_act_width c) (inputs u)))) W.
Proof.
  intros R1 ID L NS. rewrite (mvm_product W u ID L NS). apply map_ext. intros row. do 2 f_equal.
  apply map_ext. intros x. now apply input_value_1.
Qed.

Lemma map_mod_small aw x : Forall (fun v => 0 <= v < 2 ^ aw) x -> map (fun v => v mod 2 ^ aw) x = x.
Proof.
  intros H. rewrite <- (map_id x) at 2. apply map_ext_in. intros v Hv. rewrite Forall_forall in H.
  apply Z.mod_small. now apply H.
Qed.

Lemma stored_exact w : weight_mag frac w < 2 ^ ww -> stored_weight ww frac w = fixed_weight frac w.
Proof.
  intros H. unfold stored_weight, fixed_weight. rewrite Z.mod_small; [reflexivity|].
  pose proof (weight_mag_nonneg frac w). lia.
Qed.

Lemma product_exact row x : Forall (fun w => weight_mag frac w < 2 ^ ww) row ->
  product ww frac row x = dot (map (fixed_weight frac) row) x.
Proof.
  intros H. unfold product. f_equal. apply map_ext_in. intros w Hw. rewrite Forall_forall in H.
  apply stored_exact. now apply H.
Qed.

Lemma mvm_exact_inputs W u : res = 1 -> ideal cfg c -> loaded c W u ->
  Forall (fun row => no_saturation c cfg row (inputs u)) W ->
  Forall (fun x => 0 <= x < 2 ^ c_act_width c) (inputs u) ->
  Forall (Forall (fun w => weight_mag frac w < 2 ^ ww)) W ->
  outputs (execute_mvm c u) = map (fun row => wrap32 (dot (map (fixed_weight frac) row) (inputs u))) W.
Proof.
  intros R1 ID L NS HX HW. rewrite (mvm_product_1 W u R1 ID L NS). rewrite map_mod_small by assumption.
  apply map_ext_in. intros row Hrow. f_equal. apply product_exact. rewrite Forall_forall in HW. now apply HW.
Qed.

Lemma sram_ideal : Forall (fun b => is_sram b = true) cfg -> ideal cfg c.
Proof.
  intros H E. apply existsb_exists in E as (b & Hb & Eb). rewrite Forall_forall in H. rewrite (H b Hb) in Eb. discriminate.
Qed.
Lemma sram_no_sat row x : Forall (fun b => is_sram b = true) cfg -> no_saturation c cfg row x.
Proof.
  intros H i k _ Hk Hb. rewrite Forall_forall in H. rewrite (H (nth k cfg SLC)) in Hb by (now apply nth_In). discriminate.
Qed.

Lemma digital_exact W u : Forall (fun b => is_sram b = true) cfg -> res = 1 -> loaded c W u ->
  Forall (fun x => 0 <= x < 2 ^ c_act_width c) (inputs u) ->
  Forall (Forall (fun w => weight_mag frac w < 2 ^ ww)) W ->
  outputs (execute_mvm c u) = map (fun row => wrap32 (dot (map (fixed_weight frac) row) (inputs u))) W.
Proof.
  intros HS R1 L HX HW. apply mvm_exact_inputs; try assumption; [now apply sram_ideal|].
  apply Forall_forall. intros. now apply sram_no_sat.
Qed.

(** Wide enough converters never saturate. *)
Lemma wide_no_sat row x :
  (forall k, (k < K)%nat -> is_sram (nth k cfg SLC) = false ->
     zlen row * ((2 ^ cell_bits (nth k cfg SLC) - 1) * (2 ^ res - 1)) <= 2 ^ c_adc_res c - 1) ->
  no_saturation c cfg row x.
Proof.
  intros H i k Hi Hk Hb. specialize (H k Hk Hb). unfold row_sum.
  pose proof (ok_dac _ _ _ OK) as Hr. pose proof (cell_bits_pos (nth k cfg SLC)) as Hc.
  set (M := 2 ^ cell_bits (nth k cfg SLC) - 1) in *. set (D := 2 ^ res - 1) in *.
  assert (HM : 0 <= M). { unfold M. assert (0 < 2 ^ cell_bits (nth k cfg SLC)) by (apply Z.pow_pos_nonneg; lia). lia. }
  assert (HD : 0 <= D). { unfold D. assert (0 < 2 ^ res) by (apply Z.pow_pos_nonneg; lia). lia. }
  rewrite <- dot_split.
  assert (CR : forall w, - M <= cell_of cfg frac k w <= M).
  { intros w. unfold cell_of. pose proof (cell_range cfg frac k w). fold M in H0. unfold M.
    destruct (weight_sgn_cases w) as [->|[->| ->]]; lia. }
  assert (FX : Forall (fun d => 0 <= d <= D) (map (in_slice res i) x)).
  { apply Forall_map, Forall_forall. intros y _. unfold in_slice, D.
    pose proof (Z.mod_pos_bound (y / 2 ^ (res * i)) (2 ^ res) ltac:(apply Z.pow_pos_nonneg; lia)). lia. }
  assert (B1 := dot_bound (map (fun w => Z.max (cell_of cfg frac k w) 0) row) (map (in_slice res i) x) M D HM HD).
  assert (B2 := dot_bound (map (fun w => Z.max (- cell_of cfg frac k w) 0) row) (map (in_slice res i) x) M D HM HD).
  unfold zlen in *. rewrite map_length in B1, B2.
  specialize (B1 ltac:(apply Forall_map, Forall_forall; intros w _; specialize (CR w); lia) FX).
  specialize (B2 ltac:(apply Forall_map, Forall_forall; intros w _; specialize (CR w); lia) FX).
  lia.
Qed.

(** ** Inputs are consumed *)
Lemma inputs_after u : shaped cfg c u ->
  inputs (execute_mvm c u) = map (fun x => x / 2 ^ (res * slices c)) (inputs u).
Proof. intros S. now destruct (mvm_frame cfg ww c OK u S) as (_ & H & _). Qed.

Lemma inputs_consumed u : shaped cfg c u -> Forall (fun x => 0 <= x < 2 ^ c_act_width c) (inputs u) ->
  inputs (execute_mvm c u) = map (fun _ => 0) (inputs u).
Proof.
  intros S H. rewrite inputs_after by assumption. apply map_ext_in. intros x Hx. rewrite Forall_forall in H.
  specialize (H x Hx). apply Z.div_small. split; [lia|]. eapply Z.lt_le_trans; [apply H|].
  apply Z.pow_le_mono_r; [lia|apply slices_cover].
Qed.

Lemma zero_value row (x : list Z) : mvm_value c cfg row (map (fun _ => 0) x) = 0.
Proof.
  unfold mvm_value.
  assert (E : forall i : nat, (i < Z.to_nat (slices c))%nat ->
    2 ^ Z.of_nat i * sum_below K (fun k => 2 ^ bits_below cfg k *
      converted (c_adc_res c) (nth k cfg SLC) (row_sum c cfg k (Z.of_nat i) row (map (fun _ => 0) x))) = 0).
  { intros i _. apply Z.mul_eq_0. right. transitivity (sum_below K (fun _ => 0)); [|rewrite sum_below_const; lia].
    apply sum_below_ext. intros k _. unfold row_sum. rewrite map_map.
    assert (R0 : dot (map (cell_of cfg frac k) row) (map (fun _ : Z => in_slice res (Z.of_nat i) 0) x) = 0).
    { rewrite (map_ext _ (fun _ : Z => 0)); [apply dot_zero_r|]. intros _. unfold in_slice.
      rewrite Z.div_0_l by (apply Z.pow_nonzero; pose proof (ok_dac _ _ _ OK); nia). apply Z.mod_0_l.
      apply Z.pow_nonzero; pose proof (ok_dac _ _ _ OK); lia. }
    rewrite R0. unfold converted. destruct (is_sram _); [lia|].
    assert (0 < 2 ^ c_adc_res c) by (apply Z.pow_pos_nonneg; [lia|apply (ok_adc _ _ _ OK)]).
    apply Z.mul_eq_0. right. lia. }
  rewrite (sum_below_ext _ _ (fun _ => 0) E), sum_below_const. lia.
Qed.

Lemma loaded_step W u o : not_load o -> loaded c W u -> loaded c W (mv_step c u o).
Proof.
  intros NL (before & after & H1 & H2 & ->). exists before, (after ++ [o]). split; [exact H1|]. split.
  - apply Forall_app. split; [exact H2|]. constructor; [exact NL|constructor].
  - unfold mv_run at 3. rewrite fold_left_app. reflexivity.
Qed.

Lemma second_multiply W u : ideal cfg c -> loaded c W u ->
  Forall (fun x => 0 <= x < 2 ^ c_act_width c) (inputs u) ->
  outputs (execute_mvm c (execute_mvm c u)) = map (fun _ => 0) W.
Proof.
  intros ID L HX. pose proof (loaded_step W u OMvm I L) as L2. cbn [mv_step] in L2.
  rewrite (loaded_mvm _ _ _ OK W _ ID L2).
  destruct (loaded_holds _ _ _ OK W u ID L) as [_ S]. rewrite inputs_consumed by assumption.
  apply map_ext. intros row. now rewrite zero_value.
Qed.

(** ** Independence *)
Lemma mvm_independent u1 u2 : shaped cfg c u1 -> shaped cfg c u2 ->
  rram_pos u1 = rram_pos u2 -> rram_neg u1 = rram_neg u2 -> sram_pos u1 = sram_pos u2 -> sram_neg u1 = sram_neg u2 ->
  inputs u1 = inputs u2 -> outputs (execute_mvm c u1) = outputs (execute_mvm c u2).
Proof.
  intros S1 S2 E1 E2 E3 E4 E5.
  destruct (mvm_frame cfg ww c OK u1 S1) as (T1 & _ & _ & _ & _ & _ & M1).
  destruct (mvm_frame cfg ww c OK u2 S2) as (T2 & _ & _ & _ & _ & _ & M2).
  pose proof (sh_outl _ _ _ T1) as L1. pose proof (sh_outl _ _ _ T2) as L2.
  apply (list_ext 0); [unfold outputs; congruence|]. intros r Hr. unfold outputs in Hr. rewrite L1 in Hr.
  rewrite M1, M2 by assumption. rewrite E5. f_equal. apply sum_below_ext. intros i _. f_equal.
  unfold xpos_of, xneg_of, sout_of. now rewrite E1, E2, E3, E4.
Qed.

(** ** Reading *)
Lemma read_floor u s l : shaped cfg c u -> 0 <= s -> 0 <= l -> s + l <= n ->
  fst (read_from_outreg c u s l) = Ok (map (fun k => nth (Z.to_nat (s + k)) (outputs u) 0 / 2 ^ frac) (zrange l)) /\
  outputs (snd (read_from_outreg c u s l)) = outputs u.
Proof.
  intros S Hs Hl Hsl. split; [|now apply (read_frame cfg c u s l S)].
  unfold read_from_outreg, outreg_read.
  assert (B : bad_index (out_size (mv_out u)) (map (fun k => s + k) (zrange l)) = false).
  { rewrite (sh_out _ _ _ S). unfold bad_index. apply orb_false_iff. split;
      (destruct (existsb _ _) eqn:E; [|reflexivity]); apply existsb_exists in E as (x & Hx & Hc);
      apply in_map_iff in Hx as (k & <- & Hk); apply in_zrange in Hk; lia. }
  rewrite B. cbn [fst]. f_equal. rewrite !map_map. apply map_ext. intros k. unfold znth, outputs.
  apply Z.shiftr_div_pow2. apply (ok_frac _ _ _ OK).
Qed.

Lemma read_rejected u s l : shaped cfg c u -> 0 < l -> s < 0 \/ n < s + l ->
  fst (read_from_outreg c u s l) = Raise ValueError /\ outputs (snd (read_from_outreg c u s l)) = outputs u.
Proof.
  intros S Hl Hsl. split; [|now apply (read_frame cfg c u s l S)].
  unfold read_from_outreg, outreg_read.
  assert (B : bad_index (out_size (mv_out u)) (map (fun k => s + k) (zrange l)) = true).
  { rewrite (sh_out _ _ _ S). unfold bad_index. apply orb_true_iff. destruct Hsl as [Hs|Hs].
    - right. apply existsb_exists. exists (s + 0). split; [|lia]. apply in_map_iff. exists 0. split; [reflexivity|].
      apply in_zrange. lia.
    - left. apply existsb_exists. exists (s + (l - 1)). split; [|lia]. apply in_map_iff. exists (l - 1).
      split; [reflexivity|]. apply in_zrange. lia. }
  rewrite B. reflexivity.
Qed.

(** ** Measured weights *)
Lemma measured_exact W u k r j : ideal cfg c -> holds cfg c W u ->
  (k < K)%nat -> (r < Z.to_nat n)%nat -> (j < Z.to_nat n)%nat ->
  measured_cell c cfg u k r j = cell_of cfg frac k (nth j (nth r W []) f0).
Proof.
  intros ID H Hk Hr Hj. unfold measured_cell, at3, before.
  assert (HrW : (r < length W)%nat) by (rewrite (h_rows _ _ _ _ H); exact Hr).
  assert (HjW : (j < length (nth r W []))%nat) by (rewrite (W_row _ _ _ _ H r Hr); exact Hj).
  destruct (is_sram (nth k cfg SLC)) eqn:Hb.
  - destruct (h_sram _ _ _ _ H k Hk Hb) as [Hp Hn]. unfold sk, rank in Hp, Hn.
    pose proof (Forall2_nth _ _ _ j f0 0 (Forall2_nth _ _ _ r [] [] Hp HrW) HjW) as P. cbv beta in P.
    pose proof (Forall2_nth _ _ _ j f0 0 (Forall2_nth _ _ _ r [] [] Hn HrW) HjW) as N. cbv beta in N.
    rewrite P, N. unfold cell. lia.
  - destruct (h_rram _ _ _ _ H k Hk Hb) as [Hp Hn]. unfold rk, rank in Hp, Hn.
    pose proof (Forall2_nth _ _ _ j f0 f0 (Forall2_nth _ _ _ r [] [] Hp HrW) HjW) as P. cbv beta in P.
    pose proof (Forall2_nth _ _ _ j f0 f0 (Forall2_nth _ _ _ r [] [] Hn HrW) HjW) as N. cbv beta in N.
    change (fun b : bitcfg => negb (is_sram b)) with is_rram.
    fold (gstep c (cell_bits (nth k cfg SLC))).
    pose proof (rram_ideal _ _ ID k Hk Hb) as AN.
    pose proof (cell_bits_pos (nth k cfg SLC)) as CB.
    pose proof (cell_range cfg frac k (nth j (nth r W []) f0)) as CR.
    assert (CR' : Z.abs (cell cfg c k (nth j (nth r W []) f0)) < 2 ^ cell_bits (nth k cfg SLC)).
    { unfold cell, cell_of. destruct (weight_sgn_cases (nth j (nth r W []) f0)) as [->|[->| ->]]; lia. }
    fold (cell cfg c k (nth j (nth r W []) f0)).
    set (v := cell cfg c k (nth j (nth r W []) f0)) in *.
    assert (P4 : 2 ^ cell_bits (nth k cfg SLC) <= 2 ^ 4) by (apply Z.pow_le_mono_r; lia).
    assert (G0 : (0 < gstep c (cell_bits (nth k cfg SLC)))%R).
    { unfold gstep. pose proof (IZR_code (cell_bits (nth k cfg SLC)) ltac:(lia)).
      pose proof (mid_pos _ (an_gmax _ AN)). apply Rmult_lt_0_compat; [assumption|]. apply Rinv_0_lt_compat. lra. }
    set (g := gstep c (cell_bits (nth k cfg SLC))) in *.
    destruct P as (_ & _ & P1 & P2). destruct N as (_ & _ & N1 & N2).
    set (p := B2R (nth j _ f0)) in *.
    set (q := B2R (nth j (nth r (nth _ (rram_neg u) []) []) f0)) in *.
    assert (EQ : IZR v = (IZR (Z.max v 0) - IZR (Z.max (- v) 0))%R).
    { rewrite <- minus_IZR. f_equal. lia. }
    assert (V1 : (0 <= IZR (Z.max v 0) <= 16)%R) by (split; apply IZR_le; lia).
    assert (V2 : (0 <= IZR (Z.max (- v) 0) <= 16)%R) by (split; apply IZR_le; lia).
    set (a := IZR (Z.max v 0)) in *. set (b := IZR (Z.max (- v) 0)) in *.
    pose proof u64_small as US. pose proof u64_pos as UP.
    assert (L2 : ((1 - u64) ^ 2 >= 1 - 2 * u64)%R) by (cbn; nra).
    assert (U2 : ((1 + u64) ^ 2 <= 1 + 3 * u64)%R) by (cbn; nra).
    apply Znearest_imp. rewrite EQ. fold a b.
    assert (D : ((p - q) / g - (a - b) = (p - a * g) / g - (q - b * g) / g)%R) by (field; lra).
    rewrite D.
    assert (T : forall x e, (0 <= e <= 16 -> e * g * (1 - u64) ^ 2 <= x -> x <= e * g * (1 + u64) ^ 2 -> Rabs ((x - e * g) / g) <= / 8)%R).
    { intros x e He Hl Hu. apply Rabs_le.
      assert (E0 : (0 <= e * g)%R) by (apply Rmult_le_pos; lra).
      assert (H1 : (- (48 * u64) * g <= x - e * g <= 48 * u64 * g)%R).
      { assert (e * g * u64 <= 16 * g * u64)%R by (apply Rmult_le_compat_r; [lra|]; apply Rmult_le_compat_r; lra).
        assert (e * g * (1 - 2 * u64) <= e * g * (1 - u64) ^ 2)%R by (apply Rmult_le_compat_l; lra).
        assert (e * g * (1 + u64) ^ 2 <= e * g * (1 + 3 * u64))%R by (apply Rmult_le_compat_l; lra).
        nra. }
      assert (48 * u64 <= / 8)%R.
      { unfold u64. apply Rle_trans with (bpow radix2 6 * bpow radix2 (-53))%R.
        - apply Rmult_le_compat_r; [apply bpow_ge_0|]. cbn. lra.
        - rewrite <- bpow_plus. change (/ 8)%R with (bpow radix2 (-3)). apply bpow_le. lia. }
      assert (Q : ((x - e * g) / g * g = x - e * g)%R) by (field; lra).
      split; apply (Rmult_le_reg_r g); try lra; rewrite Q; nra. }
    pose proof (T p a V1 P1 P2) as T1. pose proof (T q b V2 N1 N2) as T2.
    eapply Rle_lt_trans; [apply Rabs_triang|]. rewrite Rabs_Ropp. lra.
Qed.

Lemma measured_weight_exact W u r j : ideal cfg c -> holds cfg c W u ->
  (r < Z.to_nat n)%nat -> (j < Z.to_nat n)%nat ->
  measured_weight c cfg u r j = stored_weight ww frac (nth j (nth r W []) f0).
Proof.
  intros ID H Hr Hj. unfold measured_weight. rewrite <- cells_recombine. apply sum_below_ext. intros k Hk. f_equal.
  now apply (measured_exact W).
Qed.

Lemma fixed_weight_near w : (Rabs (IZR (fixed_weight frac w) * bpow radix2 (- frac) - B2R w) <= / 2 * bpow radix2 (- frac))%R.
Proof.
  pose proof (bpow_gt_0 radix2 (- frac)) as P.
  assert (E : (B2R w = (B2R w * bpow radix2 frac) * bpow radix2 (- frac))%R).
  { rewrite Rmult_assoc, <- bpow_plus. replace (frac + - frac) with 0 by lia. cbn. ring. }
  rewrite E, <- Rmult_minus_distr_r, Rabs_mult, (Rabs_pos_eq (bpow _ _)) by lra.
  apply Rmult_le_compat_r; [lra|].
  unfold fixed_weight, weight_mag, weight_sgn. pose proof (bpow_gt_0 radix2 frac) as PF.
  pose proof (Znearest_half (fun x => negb (Z.even x)) (Rabs (B2R w) * bpow radix2 frac)) as Hh.
  destruct (Rlt_bool_spec (B2R w) 0).
  - rewrite (Rabs_left (B2R w)) in * by assumption. rewrite mult_IZR. set (z := IZR (ZnearestE _)) in *.
    replace (IZR (-1) * z - B2R w * bpow radix2 frac)%R with (- B2R w * bpow radix2 frac - z)%R by ring. exact Hh.
  - destruct (Rlt_bool_spec 0 (B2R w)).
    + rewrite (Rabs_pos_eq (B2R w)) in * by lra. rewrite Z.mul_1_l, Rabs_minus_sym. exact Hh.
    + assert (Z0 : B2R w = 0%R) by lra. rewrite Z0, !Rmult_0_l. cbn. rewrite Rminus_0_r, Rabs_R0. lra.
Qed.

Lemma measured_near W u r j : ideal cfg c -> loaded c W u ->
  (r < Z.to_nat n)%nat -> (j < Z.to_nat n)%nat ->
  weight_mag frac (nth j (nth r W []) f0) < 2 ^ ww ->
  (Rabs (IZR (measured_weight c cfg u r j) * bpow radix2 (- frac) - B2R (nth j (nth r W []) f0)) <= / 2 * bpow radix2 (- frac))%R.
Proof.
  intros ID L Hr Hj HM. destruct (loaded_holds _ _ _ OK W u ID L) as [H _].
  rewrite (measured_weight_exact W) by assumption. rewrite stored_exact by assumption. apply fixed_weight_near.
Qed.
End Use.
