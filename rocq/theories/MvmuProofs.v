(** The multiply: values of a slice and the master theorem. *)
From Verif Require Import PyBase PyLemmas FloatModel AnalogProofs DataConvert ConfigModel ConfigSpec ConfigProofs
  MemoryModel MvmuModel FloatSpec FloatProofs AnalogChain MvmuSpec MvmuLists MvmuLoad MvmuRun.
From Flocq Require Import IEEE754.BinarySingleNaN Core.
From Coq Require Import Reals Lra Psatz ZifyNat ZifyBool.
Open Scope Z_scope.
Ltac Zify.zify_post_hook ::= Z.div_mod_to_equations.

(** ** Dot products *)
Lemma dot_nil_r a : dot a [] = 0. Proof. destruct a; reflexivity. Qed.
Lemma dot_split {X} (f : X -> Z) row ds :
  dot (map (fun w => Z.max (f w) 0) row) ds - dot (map (fun w => Z.max (- f w) 0) row) ds = dot (map f row) ds.
Proof.
  revert ds; induction row as [|w row IH]; intros [|d ds]; cbn [map dot]; try reflexivity.
  rewrite <- (IH ds). replace (f w) with (Z.max (f w) 0 - Z.max (- f w) 0) at 3 by lia. ring.
Qed.

Lemma dot_bound row ds a b : 0 <= a -> 0 <= b ->
  Forall (fun w => 0 <= w <= a) row -> Forall (fun d => 0 <= d <= b) ds ->
  0 <= dot row ds <= zlen row * (a * b).
Proof.
  intros Ha Hb Hr; revert ds; induction Hr as [|w row Hw Hr IH]; intros ds Hd.
  - cbn. lia.
  - destruct Hd as [|d ds Hd0 Hd]; cbn [dot]; unfold zlen in *; cbn [length].
    + split; [lia|]. apply Z.mul_nonneg_nonneg; nia.
    + specialize (IH ds Hd). assert (0 <= w * d <= a * b) by nia. nia.
Qed.

Section Slice.
Context (cfg : list bitcfg) (ww : Z) (c : mvmu_cfg) (OK : mvmu_ok cfg ww c).
Notation K := (length cfg).
Notation n := (c_size c).
Notation res := (c_dac_res c).

Lemma lanes_of b (f : f64 -> Z) row gs ds :
  mid (c_vdd c) -> 1 <= b <= 31 ->
  (forall w, 0 <= f w < 2 ^ b) ->
  Forall2 (fun w g => approx 2 g (IZR (f w) * gstep c b)) row gs ->
  Forall (fun d => 0 <= d < 2 ^ res) ds -> length row = length ds ->
  exists ls, Forall (lane_ok c b) ls /\ map (fun l => (l_g l, l_x l)) ls = combine gs (map (dac_convert c) ds) /\
    zsum (map lane_prod ls) = dot (map f row) ds /\ length ls = length row.
Proof.
  intros MV Hb Hf H; revert ds; induction H as [|w g row gs Hg H IH]; intros ds Hd Hl.
  - destruct ds; [|discriminate]. exists []. repeat split. constructor.
  - destruct ds as [|d ds]; [discriminate|]. inversion Hd as [|? ? Hd0 Hd1]; subst.
    destruct (IH ds Hd1 ltac:(cbn in Hl; lia)) as (ls & I1 & I2 & I3 & I4).
    exists (MkLane (f w) d g (dac_convert c d) :: ls). repeat split.
    + constructor; [|exact I1]. unfold lane_ok. cbn [l_v l_d l_g l_x].
      split; [apply Hf|]. split; [exact Hd0|]. split; [exact Hg|].
      apply dac_approx; [exact MV|apply (ok_dac _ _ _ OK)|exact Hd0].
    + cbn [map combine l_g l_x]. now rewrite I2.
    + cbn [map dot]. change (zsum (?x :: ?y)) with (x + zsum y). rewrite I3. reflexivity.
    + cbn [length]. now rewrite I4.
Qed.

Lemma cell_bits_le b : 1 <= cell_bits b <= 4.
Proof. destruct b; cbn; lia. Qed.

(** One plane of one RRAM row. *)
Lemma plane_exact k (f : f64 -> Z) row gs ds :
  analog_ok c -> (k < K)%nat ->
  (forall w, 0 <= f w < 2 ^ cell_bits (nth k cfg SLC)) ->
  Forall2 (fun w g => approx 2 g (IZR (f w) * gstep c (cell_bits (nth k cfg SLC)))) row gs ->
  Forall (fun d => 0 <= d < 2 ^ res) ds -> length row = Z.to_nat n -> length ds = Z.to_nat n ->
  np_rint (fdiv (c_dot c gs (map (dac_convert c) ds)) (adc_step c (cell_bits (nth k cfg SLC)))) = dot (map f row) ds.
Proof.
  intros AN Hk Hf Hg Hd Lr Ld. pose proof (cell_bits_le (nth k cfg SLC)) as Hb.
  set (b := cell_bits (nth k cfg SLC)) in *.
  assert (Hres : 1 <= res <= 31) by apply (ok_dac _ _ _ OK).
  pose proof (ok_size _ _ _ OK) as Hn.
  destruct (lanes_of b f row gs ds (an_vdd _ AN) ltac:(lia) Hf Hg Hd ltac:(lia)) as (ls & I1 & I2 & I3 & I4).
  rewrite <- I3. destruct (an_gmin _ AN) as (F0 & E0).
  pose proof (lanes_bound c b ls ltac:(lia) ltac:(lia) I1) as [B0 B1].
  pose proof (an_size _ AN) as SZ.
  assert (P1 : 2 ^ b <= 2 ^ 4) by (apply Z.pow_le_mono_r; lia). change (2 ^ 4) with 16 in P1.
  assert (P0 : 0 < 2 ^ b) by (apply Z.pow_pos_nonneg; lia).
  assert (P2 : 2 ^ 1 <= 2 ^ res) by (apply Z.pow_le_mono_r; lia).
  assert (ZL : zlen ls = n) by (unfold zlen; lia).
  rewrite ZL in B1.
  set (D := 2 ^ res - 1) in *. assert (1 <= D) by (unfold D; lia).
  assert (BB : zsum (map lane_prod ls) <= n * (15 * D)).
  { eapply Z.le_trans; [exact B1|]. apply Z.mul_le_mono_nonneg_l; [lia|]. apply Z.mul_le_mono_nonneg_r; lia. }
  eapply chain_exact; try eassumption; try apply AN; try lia.
  - rewrite I2. apply (an_dot _ AN). rewrite map_length.
    rewrite <- (Forall2_len _ _ _ Hg). lia.
  - rewrite ZL. eapply Z.le_lt_trans; [|exact SZ]. apply Z.mul_le_mono_nonneg_r; lia.
  - rewrite ZL. eapply Z.le_trans; [|apply Z.lt_le_incl, SZ].
    rewrite <- (Z.mul_1_l (n + 12)) at 1. apply Z.mul_le_mono_nonneg_r; nia.
Qed.

Lemma sram_row_R32 (f : f64 -> Z) row ps ns ds :
  Forall2 (fun w p => p = Z.max (f w) 0) row ps -> Forall2 (fun w p => p = Z.max (- f w) 0) row ns ->
  R32 (sram_row ps ns ds) (dot (map f row) ds).
Proof.
  intros Hp Hn. unfold sram_row. eapply R32_trans; [apply R32_wrap32|].
  rewrite <- dot_split.
  assert (Ep : ps = map (fun w => Z.max (f w) 0) row).
  { clear Hn. induction Hp; cbn; congruence. }
  assert (En : ns = map (fun w => Z.max (- f w) 0) row).
  { clear Hp Ep. induction Hn; cbn; congruence. }
  rewrite <- Ep, <- En. apply R32_sub; apply R32_wrap32.
Qed.

(** Inputs to the columns for a vector of input codes. *)
Definition xpos_of (u : mvmu) (d : list Z) := map (map (fun row => c_dot c row (map (dac_convert c) d))) (rram_pos u).
Definition xneg_of (u : mvmu) (d : list Z) := map (map (fun row => c_dot c row (map (dac_convert c) d))) (rram_neg u).
Definition sout_of (u : mvmu) (d : list Z) :=
  map (fun pn => map (fun q => sram_row (fst q) (snd q) d) (combine (fst pn) (snd pn)))
      (combine (sram_pos u) (sram_neg u)).

Section Loaded.
Context (W : list (list f64)) (u : mvmu) (ID : ideal cfg c) (H : holds cfg c W u).

Lemma W_row r : (r < Z.to_nat n)%nat -> length (nth r W []) = Z.to_nat n.
Proof.
  intros Hr. pose proof (h_cols _ _ _ _ H) as F. rewrite Forall_forall in F. apply F. apply nth_In.
  rewrite (h_rows _ _ _ _ H). exact Hr.
Qed.

Lemma rram_ideal k : (k < K)%nat -> is_sram (nth k cfg SLC) = false -> analog_ok c.
Proof.
  intros Hk Hb. apply ID. apply (existsb_nth_lt _ _ k SLC Hk). now rewrite Hb.
Qed.

(** Integer before the clamp. *)
Lemma adc_int_exact k r d :
  (k < K)%nat -> is_sram (nth k cfg SLC) = false -> (r < Z.to_nat n)%nat ->
  Forall (fun x => 0 <= x < 2 ^ res) d -> length d = Z.to_nat n ->
  adc_int (adc_step c (cell_bits (nth k cfg SLC)))
    (nth r (nth (rk cfg k) (xpos_of u d) []) f0) (nth r (nth (rk cfg k) (xneg_of u d) []) f0)
  = dot (map (cell_of cfg (c_weight_frac c) k) (nth r W [])) d.
Proof.
  intros Hk Hb Hr Hd Ld. destruct (h_lens _ _ _ _ H) as (L1 & L2 & L3 & L4).
  assert (AN : analog_ok c) by (eapply rram_ideal; eassumption).
  destruct (h_rram _ _ _ _ H k Hk Hb) as [Hp Hn].
  assert (R : (rk cfg k < length (filter is_rram cfg))%nat).
  { eapply rank_lt; [exact Hk|]. unfold is_rram. now rewrite Hb. }
  unfold xpos_of, xneg_of. rewrite (nth_map_lt _ (rram_pos u) _ []), (nth_map_lt _ (rram_neg u) _ []) by lia.
  assert (Lp : (r < length (nth (rk cfg k) (rram_pos u) []))%nat).
  { rewrite <- (Forall2_len _ _ _ Hp), (h_rows _ _ _ _ H). exact Hr. }
  assert (Ln : (r < length (nth (rk cfg k) (rram_neg u) []))%nat).
  { rewrite <- (Forall2_len _ _ _ Hn), (h_rows _ _ _ _ H). exact Hr. }
  rewrite (nth_map_lt _ (nth (rk cfg k) (rram_pos u) []) _ []), (nth_map_lt _ (nth (rk cfg k) (rram_neg u) []) _ []) by assumption.
  unfold adc_int. rewrite <- dot_split.
  pose proof (fun w => cell_range cfg (c_weight_frac c) k w) as CR.
  assert (C1 : forall w, Z.abs (cell_of cfg (c_weight_frac c) k w) < 2 ^ cell_bits (nth k cfg SLC)).
  { intros w. unfold cell_of. specialize (CR w). destruct (weight_sgn_cases w) as [->|[->| ->]]; lia. }
  assert (HrW : (r < length W)%nat) by (rewrite (h_rows _ _ _ _ H); exact Hr).
  f_equal.
  - apply plane_exact; try assumption.
    + intros w. specialize (C1 w). lia.
    + exact (Forall2_nth _ _ _ r [] [] Hp HrW).
    + now apply W_row.
  - apply plane_exact; try assumption.
    + intros w. specialize (C1 w). lia.
    + exact (Forall2_nth _ _ _ r [] [] Hn HrW).
    + now apply W_row.
Qed.

Lemma colval_exact k r d :
  (k < K)%nat -> (r < Z.to_nat n)%nat ->
  Forall (fun x => 0 <= x < 2 ^ res) d -> length d = Z.to_nat n ->
  R32 (colval cfg c (xpos_of u d) (xneg_of u d) (sout_of u d) k r)
      (converted (c_adc_res c) (nth k cfg SLC) (dot (map (cell_of cfg (c_weight_frac c) k) (nth r W [])) d)).
Proof.
  intros Hk Hr Hd Ld. destruct (h_lens _ _ _ _ H) as (L1 & L2 & L3 & L4).
  unfold colval, converted. destruct (is_sram (nth k cfg SLC)) eqn:Hb.
  - destruct (h_sram _ _ _ _ H k Hk Hb) as [Hp Hn].
    assert (R : (sk cfg k < length (filter is_sram cfg))%nat) by (eapply rank_lt; eassumption).
    unfold sout_of. rewrite (nth_map_lt _ _ _ ([], [])) by (rewrite combine_length; lia).
    rewrite combine_nth by lia. cbn [fst snd].
    assert (HrW : (r < length W)%nat) by (rewrite (h_rows _ _ _ _ H); exact Hr).
    pose proof (Forall2_len _ _ _ Hp). pose proof (Forall2_len _ _ _ Hn).
    rewrite (nth_map_lt _ _ _ ([], [])) by (rewrite combine_length; lia).
    rewrite combine_nth by lia. cbn [fst snd].
    apply sram_row_R32.
    + exact (Forall2_nth _ _ _ r [] [] Hp HrW).
    + exact (Forall2_nth _ _ _ r [] [] Hn HrW).
  - rewrite adc_int_exact by assumption. unfold adc_clip, clipZ, adc_max.
    rewrite pow2_shiftl by apply (ok_adc _ _ _ OK).
    set (M := 2 ^ c_adc_res c - 1). set (v := dot _ _).
    assert (0 <= M).
    { unfold M. assert (0 < 2 ^ c_adc_res c) by (apply Z.pow_pos_nonneg; [lia|apply (ok_adc _ _ _ OK)]). lia. }
    replace (Z.min (Z.max v (- M)) M) with (Z.max (- M) (Z.min M v)) by lia. apply R32_refl.
Qed.
End Loaded.

(** ** One slice *)
Definition slice_codes (u : mvmu) : list Z := map (in_slice res 0) (inputs u).

Lemma land_slice x : Z.land x (Z.shiftl 1 res - 1) = in_slice res 0 x.
Proof.
  pose proof (ok_dac _ _ _ OK). unfold in_slice. rewrite Z.mul_0_r, Z.pow_0_r, Z.div_1_r.
  rewrite Z.shiftl_1_l. rewrite <- Z.land_ones by lia. f_equal. rewrite Z.ones_equiv. lia.
Qed.

Lemma mvm_slice_unfold u i :
  mvm_slice c u i =
  let d := slice_codes u in
  let p := fold_left (mvm_column c i (xpos_of u d) (xneg_of u d) (sout_of u d)) (zrange (c_cols c))
             (mv_out u, count_slice c (mv_stat u)) in
  MkMvmu (snd (inreg_read (mv_in u) res)) (fst p) (rram_pos u) (rram_neg u) (sram_pos u) (sram_neg u) (snd p).
Proof.
  unfold mvm_slice. unfold inreg_read. cbn [snd]. cbv zeta.
  assert (E : map (fun x => Z.land x (Z.shiftl 1 res - 1)) (in_regs (mv_in u)) = slice_codes u).
  { unfold slice_codes, inputs. apply map_ext. intros. apply land_slice. }
  rewrite E. unfold xpos_of, xneg_of, sout_of. destruct (fold_left _ _ _) as [o st]. reflexivity.
Qed.

Lemma slice_codes_ok u : Forall (fun x => 0 <= x < 2 ^ res) (slice_codes u).
Proof.
  pose proof (ok_dac _ _ _ OK). unfold slice_codes. apply Forall_map, Forall_forall. intros x _.
  unfold in_slice. apply Z.mod_pos_bound. apply Z.pow_pos_nonneg; lia.
Qed.

Lemma lens_out u d : shaped cfg c u ->
  length (xpos_of u d) = length (filter is_rram cfg) /\ length (xneg_of u d) = length (filter is_rram cfg) /\
  length (sout_of u d) = length (filter is_sram cfg).
Proof.
  intros S. destruct (sh_lens _ _ _ S) as (L1 & L2 & L3 & L4).
  unfold xpos_of, xneg_of, sout_of. rewrite !map_length, combine_length. lia.
Qed.

Lemma int32_shiftr x b : 0 <= b -> int32 x -> int32 (Z.shiftr x b).
Proof.
  intros Hb Hx. rewrite Z.shiftr_div_pow2 by assumption. unfold int32 in *.
  assert (P : 0 < 2 ^ b) by (apply Z.pow_pos_nonneg; lia). split.
  - apply Z.div_le_lower_bound; [lia|nia].
  - apply Z.div_le_upper_bound; [lia|nia].
Qed.

(** A slice on any unit of the right shape (the weights need not be loaded). *)
Lemma slice_frame u i : 0 <= i -> shaped cfg c u ->
  let u' := mvm_slice c u i in
  shaped cfg c u' /\ inputs u' = map (fun x => x / 2 ^ res) (inputs u) /\
  rram_pos u' = rram_pos u /\ rram_neg u' = rram_neg u /\ sram_pos u' = sram_pos u /\ sram_neg u' = sram_neg u /\
  in_stat (mv_in u') = count_read (in_stat (mv_in u)) 1 n /\
  (forall r, (r < Z.to_nat n)%nat -> nth r (outputs u') 0 =
     wrap32 (2 ^ i * rowval cfg c (xpos_of u (slice_codes u)) (xneg_of u (slice_codes u)) (sout_of u (slice_codes u)) r
             + nth r (outputs u) 0)).
Proof.
  intros Hi S. pose proof (ok_dac _ _ _ OK) as Hr.
  destruct (lens_out u (slice_codes u) S) as (L1 & L2 & L3).
  pose proof (columns_spec cfg ww c OK _ _ _ L1 L2 L3 i (mv_out u) (count_slice c (mv_stat u)) Hi
                (sh_out _ _ _ S) (sh_outl _ _ _ S)) as (Q1 & Q2 & Q3).
  cbv zeta. rewrite mvm_slice_unfold. cbv zeta.
  set (p := fold_left _ _ _) in *. unfold inputs, outputs. cbn [mv_in mv_out rram_pos rram_neg sram_pos sram_neg inreg_read snd in_regs in_stat].
  assert (E : map (fun x => Z.shiftr x res) (in_regs (mv_in u)) = map (fun x => x / 2 ^ res) (in_regs (mv_in u))).
  { apply map_ext. intros. apply Z.shiftr_div_pow2. lia. }
  split; [|split; [exact E|repeat split; try rewrite (sh_in _ _ _ S); try reflexivity; exact Q3]].
  constructor; cbn [mv_in mv_out inreg_read snd in_regs in_size rram_pos rram_neg sram_pos sram_neg].
  - apply (sh_in _ _ _ S).
  - rewrite map_length. apply (sh_inl _ _ _ S).
  - apply Forall_map. eapply Forall_impl; [|apply (sh_in32 _ _ _ S)]. intros x Hx. apply int32_shiftr; [lia|exact Hx].
  - exact Q1.
  - exact Q2.
  - apply Forall_forall. intros x Hx. apply (In_nth _ _ 0) in Hx as (r & Hr' & <-). rewrite Q2 in Hr'.
    rewrite Q3 by assumption. apply wrap32_int32.
  - apply (sh_lens _ _ _ S).
Qed.

Lemma shaped_clean u : shaped cfg c u ->
  shaped cfg c (MkMvmu (mv_in u) (outreg_clean (mv_out u)) (rram_pos u) (rram_neg u) (sram_pos u) (sram_neg u) (mv_stat u)).
Proof.
  intros S. constructor; cbn [mv_in mv_out outreg_clean out_size out_regs rram_pos rram_neg sram_pos sram_neg].
  - apply (sh_in _ _ _ S).
  - apply (sh_inl _ _ _ S).
  - apply (sh_in32 _ _ _ S).
  - apply (sh_out _ _ _ S).
  - rewrite map_length. apply (sh_outl _ _ _ S).
  - apply Forall_map, Forall_forall. intros. unfold int32. lia.
  - apply (sh_lens _ _ _ S).
Qed.

Lemma iter_eq : num_iterations c = slices c. Proof. reflexivity. Qed.
Lemma slices_nonneg : 0 <= slices c.
Proof.
  pose proof (ok_dac _ _ _ OK). pose proof (ok_act _ _ _ OK). unfold slices. apply Z.div_pos; lia.
Qed.

Lemma div_pow x i : 0 <= i -> x / 2 ^ (res * i) / 2 ^ res = x / 2 ^ (res * (i + 1)).
Proof.
  intros Hi. pose proof (ok_dac _ _ _ OK). rewrite Z.div_div; try (apply Z.pow_pos_nonneg; nia); try (apply Z.pow_nonzero; nia).
  rewrite <- Z.pow_add_r by nia. do 2 f_equal. ring.
Qed.

Lemma slice_code_at x i : 0 <= i -> in_slice res 0 (x / 2 ^ (res * i)) = in_slice res i x.
Proof. intros. unfold in_slice. now rewrite Z.mul_0_r, Z.pow_0_r, Z.div_1_r. Qed.

(** The whole multiply on any unit of the right shape. *)
Lemma mvm_frame u : shaped cfg c u ->
  let u' := execute_mvm c u in
  shaped cfg c u' /\ inputs u' = map (fun x => x / 2 ^ (res * slices c)) (inputs u) /\
  rram_pos u' = rram_pos u /\ rram_neg u' = rram_neg u /\ sram_pos u' = sram_pos u /\ sram_neg u' = sram_neg u /\
  (forall r, (r < Z.to_nat n)%nat -> nth r (outputs u') 0 =
     wrap32 (sum_below (Z.to_nat (slices c)) (fun i =>
       2 ^ Z.of_nat i *
       rowval cfg c (xpos_of u (map (in_slice res (Z.of_nat i)) (inputs u)))
                    (xneg_of u (map (in_slice res (Z.of_nat i)) (inputs u)))
                    (sout_of u (map (in_slice res (Z.of_nat i)) (inputs u))) r))).
Proof.
  intros S. cbv zeta. unfold execute_mvm. rewrite iter_eq. pose proof slices_nonneg as SN.
  pose proof (shaped_clean u S) as S0. set (u0 := MkMvmu _ _ _ _ _ _ _) in *.
  set (P := fun (i : nat) (v : mvmu) =>
    shaped cfg c v /\ inputs v = map (fun x => x / 2 ^ (res * Z.of_nat i)) (inputs u) /\
    rram_pos v = rram_pos u /\ rram_neg v = rram_neg u /\ sram_pos v = sram_pos u /\ sram_neg v = sram_neg u /\
    (forall r, (r < Z.to_nat n)%nat -> nth r (outputs v) 0 =
     wrap32 (sum_below i (fun i =>
       2 ^ Z.of_nat i *
       rowval cfg c (xpos_of u (map (in_slice res (Z.of_nat i)) (inputs u)))
                    (xneg_of u (map (in_slice res (Z.of_nat i)) (inputs u)))
                    (sout_of u (map (in_slice res (Z.of_nat i)) (inputs u))) r)))).
  assert (Q : P (Z.to_nat (slices c)) (fold_left (mvm_slice c) (zrange (slices c)) u0)).
  { replace (zrange (slices c)) with (zrange (Z.of_nat (Z.to_nat (slices c)))) by (f_equal; lia).
    apply fold_zrange_inv.
    - unfold P. split; [exact S0|]. split.
      + unfold u0, inputs. cbn [mv_in]. rewrite Z.mul_0_r, Z.pow_0_r.
        rewrite <- (map_id (in_regs (mv_in u))) at 1. apply map_ext. intros. now rewrite Z.div_1_r.
      + repeat split. intros r Hr. unfold outputs, u0. cbn [mv_out outreg_clean out_regs].
        rewrite (nth_map_lt _ _ _ 0); [reflexivity|]. rewrite (sh_outl _ _ _ S). exact Hr.
    - intros i v Hi (V1 & V2 & V3 & V4 & V5 & V6 & V7).
      destruct (slice_frame v (Z.of_nat i) ltac:(lia) V1) as (T1 & T2 & T3 & T4 & T5 & T6 & _ & T7).
      unfold P. split; [exact T1|]. split.
      { rewrite T2, V2, map_map. apply map_ext. intros x. rewrite div_pow by lia.
        do 3 f_equal. lia. }
      split; [congruence|]. split; [congruence|]. split; [congruence|]. split; [congruence|].
      intros r Hr. rewrite T7 by assumption. rewrite V7 by assumption. rewrite wrap32_add_r.
      rewrite sum_below_S. f_equal. rewrite Z.add_comm. f_equal.
      assert (EC : slice_codes v = map (in_slice res (Z.of_nat i)) (inputs u)).
      { unfold slice_codes. rewrite V2, map_map. apply map_ext. intros x. apply slice_code_at. lia. }
      rewrite EC. unfold xpos_of, xneg_of, sout_of. now rewrite V3, V4, V5, V6. }
  destruct Q as (Q1 & Q2 & Q3). rewrite Z2Nat.id in Q2 by assumption. split; [exact Q1|]. split; [exact Q2|].
  exact Q3.
Qed.

Lemma holds_frame W u u' : holds cfg c W u ->
  rram_pos u' = rram_pos u -> rram_neg u' = rram_neg u -> sram_pos u' = sram_pos u -> sram_neg u' = sram_neg u ->
  holds cfg c W u'.
Proof.
  intros H E1 E2 E3 E4. constructor; try apply H.
  - rewrite E1, E2, E3, E4. apply H.
  - intros k Hk Hb. unfold holds_rram. rewrite E1, E2. now apply (h_rram _ _ _ _ H).
  - intros k Hk Hb. unfold holds_sram. rewrite E3, E4. now apply (h_sram _ _ _ _ H).
Qed.

(** Master theorem. *)
Lemma mvm_exact W u : ideal cfg c -> holds cfg c W u -> shaped cfg c u ->
  outputs (execute_mvm c u) = map (fun row => wrap32 (mvm_value c cfg row (inputs u))) W.
Proof.
  intros ID H S. destruct (mvm_frame u S) as (M1 & _ & _ & _ & _ & _ & M2).
  apply (list_ext 0).
  - rewrite map_length, (h_rows _ _ _ _ H). apply (sh_outl _ _ _ M1).
  - intros r Hr. unfold outputs in Hr. rewrite (sh_outl _ _ _ M1) in Hr. rewrite M2 by assumption.
    rewrite (nth_map_lt _ _ _ []) by (rewrite (h_rows _ _ _ _ H); exact Hr).
    apply wrap32_R32. unfold mvm_value. apply R32_sum. intros i Hi. apply R32_mul.
    unfold rowval. apply R32_sum. intros k Hk. apply R32_mul.
    unfold row_sum. apply colval_exact; try assumption.
    + pose proof (ok_dac _ _ _ OK). apply Forall_map, Forall_forall. intros x _.
      unfold in_slice. apply Z.mod_pos_bound. apply Z.pow_pos_nonneg; lia.
    + rewrite map_length. apply (sh_inl _ _ _ S).
Qed.

(** ** Units reached by clients *)
Lemma init_shaped : shaped cfg c (mvmu_init c).
Proof.
  constructor; cbn [mvmu_init mv_in mv_out inreg_init outreg_init in_size in_regs out_size out_regs rram_pos rram_neg sram_pos sram_neg];
    try reflexivity; try (now rewrite repeat_length).
  - apply Forall_forall. intros x Hx. apply repeat_spec in Hx. subst. unfold int32. lia.
  - apply Forall_forall. intros x Hx. apply repeat_spec in Hx. subst. unfold int32. lia.
  - unfold zeros. rewrite !repeat_length, (num_rram_eq _ _ _ OK), (num_sram_eq _ _ _ OK). lia.
Qed.

Lemma write_frame u s v : shaped cfg c u ->
  let u' := snd (write_to_inreg u s v) in
  shaped cfg c u' /\ rram_pos u' = rram_pos u /\ rram_neg u' = rram_neg u /\ sram_pos u' = sram_pos u /\ sram_neg u' = sram_neg u.
Proof.
  intros S. cbv zeta. unfold write_to_inreg, inreg_write.
  destruct ((s <? 0) || (in_size (mv_in u) <? s + zlen v)) eqn:E; cbn [snd rram_pos rram_neg sram_pos sram_neg];
    (split; [|repeat split]); constructor; cbn [mv_in mv_out in_size in_regs rram_pos rram_neg sram_pos sram_neg]; try apply S.
  - rewrite length_blit; [apply S|lia|]. unfold zlen. rewrite map_length, (sh_inl _ _ _ S).
    rewrite (sh_in _ _ _ S) in E. unfold zlen in E. pose proof (ok_size _ _ _ OK). lia.
  - apply Forall_blit; [apply S|]. apply Forall_map, Forall_forall. intros. apply wrap32_int32.
Qed.

Lemma read_frame u s l : shaped cfg c u ->
  let u' := snd (read_from_outreg c u s l) in
  shaped cfg c u' /\ rram_pos u' = rram_pos u /\ rram_neg u' = rram_neg u /\ sram_pos u' = sram_pos u /\ sram_neg u' = sram_neg u
  /\ outputs u' = outputs u /\ inputs u' = inputs u.
Proof.
  intros S. cbv zeta. unfold read_from_outreg, outreg_read.
  destruct (bad_index _ _); cbn [snd rram_pos rram_neg sram_pos sram_neg];
    (split; [|repeat split]); constructor; cbn [mv_in mv_out out_size out_regs rram_pos rram_neg sram_pos sram_neg]; apply S.
Qed.

Lemma reset_frame u : shaped cfg c u ->
  let u' := snd (mvmu_reset c u) in
  shaped cfg c u' /\ rram_pos u' = rram_pos u /\ rram_neg u' = rram_neg u /\ sram_pos u' = sram_pos u /\ sram_neg u' = sram_neg u.
Proof.
  intros S. cbv zeta. unfold mvmu_reset. destruct (negb _); cbn [snd rram_pos rram_neg sram_pos sram_neg].
  - split; [exact S|repeat split].
  - split; [|repeat split]. constructor; cbn [mv_in mv_out inreg_reset outreg_reset in_size in_regs out_size out_regs rram_pos rram_neg sram_pos sram_neg];
      rewrite ?map_length; try apply S; apply Forall_map, Forall_forall; intros; unfold int32; lia.
Qed.

Lemma load_shaped u W : shaped cfg c u -> shaped cfg c (snd (load_weights c u W)).
Proof.
  intros S. unfold load_weights. destruct (negb (is_square _ _)); [exact S|].
  destruct (map2d_res _ W) as [iw|e]; [|exact S]. destruct (map_res _ _) as [xs|e] eqn:Ex; [|exact S].
  apply map_res_ok in Ex. destruct (sh_lens _ _ _ S) as (L1 & L2 & L3 & L4).
  rewrite (num_xbar_eq _ _ _ OK) in Ex. unfold zlen in Ex. rewrite Nat2Z.id in Ex.
  assert (KE : map kind xs = map is_rram cfg).
  { apply (list_ext false).
    - rewrite !map_length. rewrite <- (Forall2_len _ _ _ Ex). apply seq_length.
    - intros i Hi. rewrite map_length, <- (Forall2_len _ _ _ Ex), seq_length in Hi.
      rewrite (nth_map_lt _ _ _ (XRram [])) by (rewrite <- (Forall2_len _ _ _ Ex), seq_length; exact Hi).
      rewrite (nth_map_lt _ _ _ SLC) by exact Hi.
      pose proof (Forall2_nth _ _ _ i 0%nat (XRram []) Ex ltac:(now rewrite seq_length)) as G. cbv beta in G.
      rewrite seq_nth in G by exact Hi. cbn [Nat.add] in G. eapply load_xbar_kind; eassumption. }
  assert (R1 : length (rram_of xs) = length (filter is_rram cfg)).
  { unfold rram_of. rewrite (length_flat _ kind).
    - now apply filter_len_map.
    - intros [m|m] _ Hm; [eexists; reflexivity|discriminate].
    - intros [m|m] _ Hm; [discriminate|reflexivity]. }
  assert (R2 : length (sram_of xs) = length (filter is_sram cfg)).
  { unfold sram_of. rewrite (length_flat _ (fun x => negb (kind x))).
    - apply filter_len_map. rewrite <- (map_map kind negb), KE, map_map. apply map_ext.
      intros b. unfold is_rram. apply negb_involutive.
    - intros [m|m] _ Hm; [discriminate|eexists; reflexivity].
    - intros [m|m] _ Hm; [reflexivity|discriminate]. }
  cbn [snd]. constructor; cbn [mv_in mv_out rram_pos rram_neg sram_pos sram_neg]; try apply S.
  destruct (have_rram (c_storage c)), (have_sram (c_storage c)); rewrite ?map_length; auto.
Qed.

Lemma step_shaped u o : shaped cfg c u -> shaped cfg c (mv_step c u o).
Proof.
  intros S. destruct o; cbn [mv_step].
  - now apply load_shaped.
  - now apply write_frame.
  - now apply mvm_frame.
  - now apply read_frame.
  - now apply reset_frame.
Qed.
Lemma run_shaped ops u : shaped cfg c u -> shaped cfg c (mv_run c u ops).
Proof. revert u; induction ops as [|o ops IH]; intros u S; [exact S|]. apply IH. now apply step_shaped. Qed.

Lemma step_holds W u o : not_load o -> shaped cfg c u -> holds cfg c W u -> holds cfg c W (mv_step c u o).
Proof.
  intros NL S H. destruct o; cbn [mv_step]; [contradiction|..].
  - destruct (write_frame u start v S) as (_ & E1 & E2 & E3 & E4). eapply holds_frame; eassumption.
  - destruct (mvm_frame u S) as (_ & _ & E1 & E2 & E3 & E4 & _). eapply holds_frame; eassumption.
  - destruct (read_frame u start len S) as (_ & E1 & E2 & E3 & E4 & _). eapply holds_frame; eassumption.
  - destruct (reset_frame u S) as (_ & E1 & E2 & E3 & E4). eapply holds_frame; eassumption.
Qed.

Lemma run_holds W ops u : Forall not_load ops -> shaped cfg c u -> holds cfg c W u -> holds cfg c W (mv_run c u ops).
Proof.
  intros NL; revert u; induction NL as [|o ops Ho NL IH]; intros u S H; [exact H|].
  apply IH; [now apply step_shaped|now apply step_holds].
Qed.

Lemma mv_run_app u a b : mv_run c u (a ++ b) = mv_run c (mv_run c u a) b.
Proof. unfold mv_run. apply fold_left_app. Qed.

Lemma loaded_holds W u : ideal cfg c -> loaded c W u -> holds cfg c W u /\ shaped cfg c u.
Proof.
  intros ID (before & after & HL & NL & ->). rewrite mv_run_app.
  pose proof (run_shaped before _ init_shaped) as S0. set (u0 := mv_run c (mvmu_init c) before) in *.
  destruct (load_weights c u0 W) as [r u1] eqn:EL. cbn [fst] in HL. subst r.
  destruct (load_holds _ _ _ _ _ _ OK ID S0 EL) as (H & S & _).
  assert (E1 : mv_run c u0 [OLoad W] = u1) by (cbn; now rewrite EL).
  rewrite E1. split; [now apply run_holds|now apply run_shaped].
Qed.

Lemma loaded_mvm W u : ideal cfg c -> loaded c W u ->
  outputs (execute_mvm c u) = map (fun row => wrap32 (mvm_value c cfg row (inputs u))) W.
Proof. intros ID L. destruct (loaded_holds W u ID L). now apply mvm_exact. Qed.
End Slice.
