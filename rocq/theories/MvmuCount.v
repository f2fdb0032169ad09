(** Activity counters of a multiply. *)
From Verif Require Import PyBase PyLemmas FloatModel AnalogProofs DataConvert ConfigModel ConfigSpec ConfigProofs
  MemoryModel MvmuModel FloatSpec FloatProofs AnalogChain MvmuSpec MvmuLists MvmuLoad MvmuRun MvmuProofs MvmuUse.
From Coq Require Import ZifyNat ZifyBool.
Open Scope Z_scope.
Ltac Zify.zify_post_hook ::= Z.div_mod_to_equations.

Definition if_rram (c : mvmu_cfg) (x : Z) : Z := if have_rram (c_storage c) then x else 0.
Definition if_sram (c : mvmu_cfg) (x : Z) : Z := if have_sram (c_storage c) then x else 0.
Definition b2z (b : bool) : Z := if b then 1 else 0.

Lemma count_true_sum {A} (p : A -> bool) l d : count_true p l = sum_below (length l) (fun i => b2z (p (nth i l d))).
Proof.
  unfold count_true, zlen. induction l as [|x l IH] using rev_ind; [reflexivity|].
  rewrite filter_app, !app_length. cbn [filter length]. rewrite Nat.add_1_r, sum_below_S.
  rewrite app_nth2, Nat.sub_diag by lia. cbn [nth].
  rewrite (sum_below_ext _ _ (fun i => b2z (p (nth i l d)))) by (intros i Hi; now rewrite app_nth1).
  rewrite <- IH. destruct (p x); cbn [length b2z]; lia.
Qed.

Lemma zsum_map_sum {A} (f : A -> Z) l d : zsum (map f l) = sum_below (length l) (fun i => f (nth i l d)).
Proof.
  induction l as [|x l IH] using rev_ind; [reflexivity|].
  rewrite map_app, zsum_app, app_length. cbn [length]. rewrite Nat.add_1_r, sum_below_S.
  rewrite app_nth2, Nat.sub_diag by lia. rewrite IH. cbn. f_equal; [|lia].
  apply sum_below_ext. intros i Hi. now rewrite app_nth1.
Qed.

(** A sum over the kept elements is a sum over all positions. *)
Lemma sum_filter {A} (p : A -> bool) l d (g : nat -> Z) :
  sum_below (length (filter p l)) g = sum_below (length l) (fun k => if p (nth k l d) then g (rank p l k) else 0).
Proof.
  induction l as [|x l IH] using rev_ind; [reflexivity|].
  rewrite filter_app, !app_length. cbn [length]. rewrite Nat.add_1_r, sum_below_S.
  rewrite app_nth2, Nat.sub_diag by lia. cbn [nth].
  rewrite (sum_below_ext (length l) _ (fun k => if p (nth k l d) then g (rank p l k) else 0)).
  2:{ intros k Hk. rewrite app_nth1 by assumption. unfold rank. rewrite firstn_app.
      replace (k - length l)%nat with 0%nat by lia. cbn [firstn]. now rewrite app_nil_r. }
  rewrite <- IH. cbn [filter]. destruct (p x); cbn [length].
  - rewrite Nat.add_1_r, sum_below_S. f_equal. f_equal. unfold rank.
    rewrite firstn_app, Nat.sub_diag, firstn_all. cbn [firstn]. now rewrite app_nil_r.
  - rewrite Nat.add_0_r. lia.
Qed.

Section Count.
Context (cfg : list bitcfg) (ww : Z) (c : mvmu_cfg) (OK : mvmu_ok cfg ww c).
Notation K := (length cfg).
Notation C := (c_cols c).
Notation A := (c_num_adc c).
Notation n := (c_size c).
Notation res := (c_dac_res c).

(** Clamped values of output row r in one slice. *)
Definition sat_row (xpos xneg : list (list f64)) (r : nat) : Z :=
  sum_below K (fun k => if is_sram (nth k cfg SLC) then 0
    else b2z (adc_overflows c (adc_int (adc_step c (cell_bits (nth k cfg SLC)))
                     (nth r (nth (rk cfg k) xpos []) f0) (nth r (nth (rk cfg k) xneg []) f0)))).

(** Activity of t columns in which v values were clamped. *)
Definition cols_stat (t v : Z) (st : mv_stats) : mv_stats :=
  MkMvStats (dac_conversions st) (dac_active_cycles st) (rram_mvm_operations st)
    (snh_pos_samples st) (snh_neg_samples st)
    (mux_pos_selections st + t * if_rram c (num_rram (c_storage c) * A))
    (mux_neg_selections st + t * if_rram c (num_rram (c_storage c) * A))
    (adc_conversions st + t * if_rram c (adc_size c)) (adc_overflow_times st + v)
    (adc_active_cycles st + t * if_rram c (c_adc_lat c))
    (sram_mac_operations st)
    (mux_sram_selections st + t * if_sram c (num_sram (c_storage c) * A))
    (sna_operations st + t * (zlen cfg * A + A)).

Lemma cols_stat_add t1 v1 t2 v2 st : cols_stat t2 v2 (cols_stat t1 v1 st) = cols_stat (t1 + t2) (v1 + v2) st.
Proof. destruct st. unfold cols_stat. cbn. f_equal; ring. Qed.
Lemma cols_stat_0 st : cols_stat 0 0 st = st.
Proof. destruct st. unfold cols_stat. cbn. rewrite !Z.add_0_r. reflexivity. Qed.

Section Col.
Context (xpos xneg : list (list f64)) (sout : list (list Z)).
Context (Lp : length xpos = length (filter is_rram cfg)) (Ln : length xneg = length (filter is_rram cfg))
        (Ls : length sout = length (filter is_sram cfg)).

Lemma overflow_col j st : 0 <= j < C -> have_rram (c_storage c) = true ->
  adc_overflow_times (snd (adc_out c xpos xneg st j)) =
  adc_overflow_times st + sum_below (Z.to_nat A) (fun m => sat_row xpos xneg (m * Z.to_nat C + Z.to_nat j)).
Proof.
    intros Hj HR. unfold adc_out. rewrite HR. unfold adc_convert. cbn [snd adc_overflow_times]. f_equal.
    set (ints := map _ (combine _ _)).
    assert (LI : length ints = length (filter is_rram cfg)).
    { unfold ints. rewrite map_length, !combine_length, map_length, (rram_bits_eq _ _ _ OK), map_length, !length_mux. lia. }
    assert (EI : forall q, (q < length (filter is_rram cfg))%nat ->
       length (nth q ints []) = Z.to_nat A /\
       forall m, (m < Z.to_nat A)%nat -> nth m (nth q ints []) 0 =
         adc_int (adc_step c (cell_bits (nth q (filter is_rram cfg) SLC)))
           (nth (m * Z.to_nat C + Z.to_nat j) (nth q xpos []) f0) (nth (m * Z.to_nat C + Z.to_nat j) (nth q xneg []) f0)).
    { intros q Hq. unfold ints.
      rewrite (nth_map_lt _ _ _ (f0, ([], []))) by (rewrite !combine_length, map_length, (rram_bits_eq _ _ _ OK), map_length, !length_mux; lia).
      rewrite combine_nth by (rewrite map_length, (rram_bits_eq _ _ _ OK), map_length, combine_length, !length_mux; lia).
      cbn [fst snd]. rewrite combine_nth by (rewrite !length_mux; lia). cbn [fst snd].
      split.
      - rewrite map_length, combine_length, !length_mux_row by lia. lia.
      - intros m Hm. rewrite (nth_map_lt _ _ _ (f0, f0)) by (rewrite combine_length, !length_mux_row by lia; lia).
        rewrite combine_nth by (rewrite !length_mux_row by lia; reflexivity). cbn [fst snd].
        rewrite !nth_mux by lia. rewrite (rram_bits_eq _ _ _ OK), map_map, (nth_map_lt _ _ _ SLC) by assumption.
        pose proof (dims _ _ _ OK) as (HC & _).
        replace (Z.to_nat (Z.of_nat m * C + j)) with (m * Z.to_nat C + Z.to_nat j)%nat by nia. reflexivity. }
    rewrite (zsum_map_sum _ _ []), LI.
    rewrite (sum_below_ext _ _ (fun q => sum_below (Z.to_nat A) (fun m => b2z (adc_overflows c
        (adc_int (adc_step c (cell_bits (nth q (filter is_rram cfg) SLC)))
           (nth (m * Z.to_nat C + Z.to_nat j) (nth q xpos []) f0) (nth (m * Z.to_nat C + Z.to_nat j) (nth q xneg []) f0)))))).
    2:{ intros q Hq. destruct (EI q Hq) as [E1 E2]. rewrite (count_true_sum _ _ 0), E1.
        apply sum_below_ext. intros m Hm. now rewrite E2. }
    rewrite sum_below_swap. apply sum_below_ext. intros m Hm.
    rewrite (sum_filter is_rram cfg SLC). unfold sat_row. apply sum_below_ext. intros k Hk.
    unfold is_rram at 1. destruct (is_sram (nth k cfg SLC)) eqn:Hb; cbn [negb]; [reflexivity|].
    rewrite nth_filter_rank; [reflexivity|exact Hk|]. unfold is_rram. now rewrite Hb.
Qed.

Lemma column_stat j st : 0 <= j < C ->
  count_column c (snd (adc_out c xpos xneg st j)) =
  cols_stat 1 (sum_below (Z.to_nat A) (fun m => sat_row xpos xneg (m * Z.to_nat C + Z.to_nat j))) st.
Proof.
  intros Hj. pose proof (num_xbar_eq _ _ _ OK) as NX.
  destruct (have_rram (c_storage c)) eqn:HR.
  - pose proof (overflow_col j st Hj HR) as OV.
    assert (E : snd (adc_out c xpos xneg st j) =
      MkMvStats (dac_conversions st) (dac_active_cycles st) (rram_mvm_operations st)
       (snh_pos_samples st) (snh_neg_samples st) (mux_pos_selections st) (mux_neg_selections st)
       (adc_conversions st + adc_size c) (adc_overflow_times (snd (adc_out c xpos xneg st j)))
       (adc_active_cycles st + c_adc_lat c)
       (sram_mac_operations st) (mux_sram_selections st) (sna_operations st)).
    { unfold adc_out. rewrite HR. reflexivity. }
    rewrite E, OV. unfold count_column, cols_stat, if_rram, if_sram. rewrite HR, NX.
    cbn [dac_conversions dac_active_cycles rram_mvm_operations snh_pos_samples snh_neg_samples mux_pos_selections mux_neg_selections adc_conversions adc_overflow_times adc_active_cycles sram_mac_operations mux_sram_selections sna_operations].
    destruct (have_sram (c_storage c)); f_equal; ring.
  - unfold adc_out. rewrite HR. cbn [snd]. unfold count_column, cols_stat, if_rram, if_sram. rewrite HR, NX.
    cbn [dac_conversions dac_active_cycles rram_mvm_operations snh_pos_samples snh_neg_samples mux_pos_selections mux_neg_selections adc_conversions adc_overflow_times adc_active_cycles sram_mac_operations mux_sram_selections sna_operations].
    assert (E : sum_below (Z.to_nat A) (fun m => sat_row xpos xneg (m * Z.to_nat C + Z.to_nat j)) = 0).
    { transitivity (sum_below (Z.to_nat A) (fun _ => 0)); [|rewrite sum_below_const; lia].
      apply sum_below_ext. intros m _. unfold sat_row.
      transitivity (sum_below K (fun _ => 0)); [|rewrite sum_below_const; lia].
      apply sum_below_ext. intros k Hk. rewrite (have_rram_eq _ _ _ OK) in HR.
      pose proof (existsb_false _ _ (nth k cfg SLC) HR ltac:(now apply nth_In)) as F. unfold is_rram in F.
      destruct (is_sram (nth k cfg SLC)); [reflexivity|discriminate]. }
    rewrite E. destruct (have_sram (c_storage c)); f_equal; ring.
Qed.

Definition rw_stat (t len : Z) (s : mstats) : mstats :=
  MkMStats (read_operations s + t) (read_cells s + t * len) (write_operations s + t) (write_cells s + t * len)
    (total_operations s + 2 * t) (total_operated_cells s + 2 * t * len).

Lemma columns_stat i o st :
  0 <= i -> out_size o = n -> length (out_regs o) = Z.to_nat n ->
  let p := fold_left (mvm_column c i xpos xneg sout) (zrange C) (o, st) in
  snd p = cols_stat C (sum_below (Z.to_nat n) (sat_row xpos xneg)) st /\
  out_stat (fst p) = rw_stat C A (out_stat o).
Proof.
  intros Hi Ho Hl. destruct (dims _ _ _ OK) as (HC & HA & Hn). cbv zeta.
  pose (P := fun (j : nat) (x : outreg * mv_stats) =>
    out_size (fst x) = n /\ length (out_regs (fst x)) = Z.to_nat n /\
    snd x = cols_stat (Z.of_nat j) (sum_below j (fun j => sum_below (Z.to_nat A) (fun m => sat_row xpos xneg (m * Z.to_nat C + j)))) st /\
    out_stat (fst x) = rw_stat (Z.of_nat j) A (out_stat o)).
  assert (Q : P (Z.to_nat C) (fold_left (mvm_column c i xpos xneg sout) (zrange C) (o, st))).
  { replace (zrange C) with (zrange (Z.of_nat (Z.to_nat C))) by (f_equal; lia).
    apply fold_zrange_inv.
    - unfold P. cbn [fst snd]. split; [exact Ho|]. split; [exact Hl|]. split.
      + symmetry. apply cols_stat_0.
      + destruct (out_stat o). unfold rw_stat. cbn. rewrite !Z.add_0_r. reflexivity.
    - intros j [o1 st1] Hj (P1 & P2 & P3 & P4). cbn [fst snd] in *.
      destruct (column_spec cfg ww c OK xpos xneg sout Lp Ln Ls i (Z.of_nat j) o1 st1 Hi ltac:(lia) P1 P2) as (Q1 & Q2 & _ & Q4 & Q5).
      unfold P. split; [exact Q1|]. split; [exact Q2|]. split.
      + rewrite Q5, column_stat by lia. rewrite P3, cols_stat_add, sum_below_S, Nat2Z.id. f_equal. lia.
      + rewrite Q4, P4. unfold rw_stat, count_read, count_write. cbn [read_operations read_cells write_operations write_cells total_operations total_operated_cells].
        f_equal; lia. }
  destruct Q as (_ & _ & Q3 & Q4). rewrite Z2Nat.id in Q3, Q4 by lia. split; [|exact Q4].
  rewrite Q3. f_equal. rewrite sum_below_grid. f_equal. nia.
Qed.
End Col.

(** Activity of t slices in which v values were clamped. *)
Definition slices_stat (t v : Z) (st : mv_stats) : mv_stats :=
  MkMvStats (dac_conversions st + t * if_rram c n) (dac_active_cycles st + t * if_rram c (c_dac_lat c))
    (rram_mvm_operations st + t * if_rram c (num_rram (c_storage c) * 2))
    (snh_pos_samples st + t * if_rram c (num_rram (c_storage c) * n))
    (snh_neg_samples st + t * if_rram c (num_rram (c_storage c) * n))
    (mux_pos_selections st + t * if_rram c (num_rram (c_storage c) * n))
    (mux_neg_selections st + t * if_rram c (num_rram (c_storage c) * n))
    (adc_conversions st + t * (C * if_rram c (adc_size c))) (adc_overflow_times st + v)
    (adc_active_cycles st + t * (C * if_rram c (c_adc_lat c)))
    (sram_mac_operations st + t * if_sram c (num_sram (c_storage c) * 2 * n))
    (mux_sram_selections st + t * if_sram c (num_sram (c_storage c) * n))
    (sna_operations st + t * (zlen cfg * n + n)).

Lemma slice_stat_eq v st : cols_stat C v (count_slice c st) = slices_stat 1 v st.
Proof.
  destruct (dims _ _ _ OK) as (HC & HA & Hn). unfold cols_stat, slices_stat, count_slice, if_rram, if_sram.
  cbn [dac_conversions dac_active_cycles rram_mvm_operations snh_pos_samples snh_neg_samples mux_pos_selections mux_neg_selections adc_conversions adc_overflow_times adc_active_cycles sram_mac_operations mux_sram_selections sna_operations].
  rewrite Hn. destruct (have_rram _), (have_sram _); f_equal; ring.
Qed.
Lemma slices_stat_add t1 v1 t2 v2 st : slices_stat t2 v2 (slices_stat t1 v1 st) = slices_stat (t1 + t2) (v1 + v2) st.
Proof. destruct st. unfold slices_stat. cbn. f_equal; ring. Qed.

Lemma mvm_stats u : shaped cfg c u ->
  let u' := execute_mvm c u in
  mv_stat u' = slices_stat (slices c) (sum_below (Z.to_nat (slices c)) (fun i =>
     sum_below (Z.to_nat n) (sat_row (xpos_of c u (map (in_slice res (Z.of_nat i)) (inputs u)))
                                     (xneg_of c u (map (in_slice res (Z.of_nat i)) (inputs u)))))) (mv_stat u) /\
  in_stat (mv_in u') = MkMStats (read_operations (in_stat (mv_in u)) + slices c) (read_cells (in_stat (mv_in u)) + slices c * n)
     (write_operations (in_stat (mv_in u))) (write_cells (in_stat (mv_in u)))
     (total_operations (in_stat (mv_in u)) + slices c) (total_operated_cells (in_stat (mv_in u)) + slices c * n) /\
  out_stat (mv_out u') = rw_stat (slices c * C) A (count_write (out_stat (mv_out u)) 1 n).
Proof.
  intros S. cbv zeta. unfold execute_mvm. rewrite iter_eq. pose proof (slices_nonneg _ _ _ OK) as SN.
  destruct (dims _ _ _ OK) as (HC & HA & Hn).
  pose proof (shaped_clean cfg c u S) as S0. set (u0 := MkMvmu _ _ _ _ _ _ _) in *.
  pose (P := fun (i : nat) (v : mvmu) =>
    shaped cfg c v /\ inputs v = map (fun x => x / 2 ^ (res * Z.of_nat i)) (inputs u) /\
    rram_pos v = rram_pos u /\ rram_neg v = rram_neg u /\
    mv_stat v = slices_stat (Z.of_nat i) (sum_below i (fun i =>
     sum_below (Z.to_nat n) (sat_row (xpos_of c u (map (in_slice res (Z.of_nat i)) (inputs u)))
                                     (xneg_of c u (map (in_slice res (Z.of_nat i)) (inputs u)))))) (mv_stat u) /\
    in_stat (mv_in v) = MkMStats (read_operations (in_stat (mv_in u)) + Z.of_nat i) (read_cells (in_stat (mv_in u)) + Z.of_nat i * n)
     (write_operations (in_stat (mv_in u))) (write_cells (in_stat (mv_in u)))
     (total_operations (in_stat (mv_in u)) + Z.of_nat i) (total_operated_cells (in_stat (mv_in u)) + Z.of_nat i * n) /\
    out_stat (mv_out v) = rw_stat (Z.of_nat i * C) A (count_write (out_stat (mv_out u)) 1 n)).
  assert (Q : P (Z.to_nat (slices c)) (fold_left (mvm_slice c) (zrange (slices c)) u0)).
  { replace (zrange (slices c)) with (zrange (Z.of_nat (Z.to_nat (slices c)))) by (f_equal; lia).
    apply fold_zrange_inv.
    - unfold P. split; [exact S0|]. split.
      + unfold u0, inputs. cbn [mv_in]. rewrite Z.mul_0_r, Z.pow_0_r.
        rewrite <- (map_id (in_regs (mv_in u))) at 1. apply map_ext. intros. now rewrite Z.div_1_r.
      + split; [reflexivity|]. split; [reflexivity|]. unfold u0. cbn [mv_stat mv_in mv_out outreg_clean out_stat].
        split; [|split].
        * destruct (mv_stat u). unfold slices_stat. cbn. rewrite !Z.add_0_r. reflexivity.
        * destruct (in_stat (mv_in u)). cbn. rewrite !Z.add_0_r. reflexivity.
        * rewrite (sh_out _ _ _ S). destruct (count_write _ _ _). unfold rw_stat. cbn. rewrite !Z.add_0_r. reflexivity.
    - intros i v Hi (V1 & V2 & V3 & V4 & V5 & V6 & V7).
      destruct (slice_frame cfg ww c OK v (Z.of_nat i) ltac:(lia) V1) as (T1 & T2 & T3 & T4 & _ & _ & TI & _).
      unfold P. split; [exact T1|]. split.
      { rewrite T2, V2, map_map. apply map_ext. intros x. rewrite (div_pow cfg ww c OK) by lia. do 3 f_equal. lia. }
      split; [congruence|]. split; [congruence|].
      assert (EC : slice_codes c v = map (in_slice res (Z.of_nat i)) (inputs u)).
      { unfold slice_codes. rewrite V2, map_map. apply map_ext. intros x. apply slice_code_at. lia. }
      destruct (lens_out cfg c v (slice_codes c v) V1) as (L1 & L2 & L3).
      pose proof (columns_stat _ _ _ L1 L2 L3 (Z.of_nat i) (mv_out v) (count_slice c (mv_stat v)) ltac:(lia)
                    (sh_out _ _ _ V1) (sh_outl _ _ _ V1)) as (Q1 & Q2). cbv zeta in Q1, Q2.
      split; [|split].
      + rewrite (mvm_slice_unfold cfg ww c OK). cbv zeta. cbn [mv_stat]. rewrite Q1, slice_stat_eq, V5, slices_stat_add.
        rewrite sum_below_S. rewrite EC. unfold xpos_of, xneg_of. rewrite V3, V4. f_equal. lia.
      + rewrite TI, V6. unfold count_read. cbn [read_operations read_cells write_operations write_cells total_operations total_operated_cells].
        f_equal; nia.
      + rewrite (mvm_slice_unfold cfg ww c OK). cbv zeta. cbn [mv_out]. rewrite Q2, V7.
        set (s0 := count_write _ _ _). clearbody s0. unfold rw_stat. cbn [read_operations read_cells write_operations write_cells total_operations total_operated_cells].
        f_equal; nia. }
  destruct Q as (_ & _ & _ & _ & Q1 & Q2 & Q3). rewrite Z2Nat.id in Q1, Q2, Q3 by assumption.
  split; [exact Q1|]. split; [exact Q2|exact Q3].
Qed.

(** The clamped values are the saturated row sums. *)
Lemma mvm_saturations W u : ideal cfg c -> loaded c W u ->
  adc_overflow_times (mv_stat (execute_mvm c u)) = adc_overflow_times (mv_stat u) + saturations c cfg W (inputs u).
Proof.
  intros ID L. destruct (loaded_holds _ _ _ OK W u ID L) as [H S].
  destruct (mvm_stats u S) as (E & _). rewrite E. unfold slices_stat. cbn [adc_overflow_times]. f_equal.
  unfold saturations. apply sum_below_ext. intros i Hi. rewrite (h_rows _ _ _ _ H). apply sum_below_ext. intros r Hr.
  unfold sat_row. apply sum_below_ext. intros k Hk. destruct (is_sram (nth k cfg SLC)) eqn:Hb; [reflexivity|].
  rewrite (adc_int_exact cfg ww c OK W u ID H); try assumption.
  - unfold row_sum, adc_overflows, adc_max. rewrite pow2_shiftl by apply (ok_adc _ _ _ OK).
    set (M := 2 ^ c_adc_res c - 1). set (v := dot _ _). unfold b2z.
    assert (0 <= M).
    { unfold M. assert (0 < 2 ^ c_adc_res c) by (apply Z.pow_pos_nonneg; [lia|apply (ok_adc _ _ _ OK)]). lia. }
    replace ((M <? v) || (v <? - M)) with (M <? Z.abs v) by lia. reflexivity.
  - pose proof (ok_dac _ _ _ OK). apply Forall_map, Forall_forall. intros x _.
    unfold in_slice. apply Z.mod_pos_bound. apply Z.pow_pos_nonneg; lia.
  - rewrite map_length. apply (sh_inl _ _ _ S).
Qed.
End Count.

(** ** The converter array on its own *)
Lemma adc_convert_range c steps pos neg st : 0 <= c_adc_res c ->
  Forall (Forall (fun v => - (2 ^ c_adc_res c - 1) <= v <= 2 ^ c_adc_res c - 1)) (fst (adc_convert c steps pos neg st)).
Proof.
  intros H. unfold adc_convert. cbn [fst]. unfold map2d. apply Forall_map, Forall_forall. intros row _.
  apply Forall_map, Forall_forall. intros v _. unfold adc_clip, adc_max. rewrite pow2_shiftl by assumption.
  assert (0 < 2 ^ c_adc_res c) by (apply Z.pow_pos_nonneg; lia). apply clipZ_range. lia.
Qed.

(** ** Statements for PropMvmu *)
Lemma reached_shaped cfg ww c u : mvmu_ok cfg ww c -> reached c u -> shaped cfg c u.
Proof. intros OK (ops & ->). apply (run_shaped cfg ww c OK). now apply (init_shaped cfg ww c OK). Qed.

Lemma if_rram_when cfg ww c x : mvmu_ok cfg ww c -> if_rram c x = when (rrams cfg) x.
Proof.
  intros OK. unfold if_rram, when, rrams, zlen. rewrite (have_rram_eq _ _ _ OK).
  change (fun b => negb (is_sram b)) with is_rram.
  destruct (existsb is_rram cfg) eqn:E.
  - apply existsb_exists in E as (b & Hb & Eb). assert (H : In b (filter is_rram cfg)) by (now apply filter_In).
    destruct (filter is_rram cfg); [contradiction|]. reflexivity.
  - destruct (filter is_rram cfg) as [|b l] eqn:F; [reflexivity|].
    assert (H : In b (filter is_rram cfg)) by (rewrite F; now left). apply filter_In in H as [H1 H2].
    pose proof (existsb_false _ _ _ E H1). congruence.
Qed.
Lemma if_sram_when cfg ww c x : mvmu_ok cfg ww c -> if_sram c x = when (srams cfg) x.
Proof.
  intros OK. unfold if_sram, when, srams, zlen. rewrite (have_sram_eq _ _ _ OK).
  destruct (existsb is_sram cfg) eqn:E.
  - apply existsb_exists in E as (b & Hb & Eb). assert (H : In b (filter is_sram cfg)) by (now apply filter_In).
    destruct (filter is_sram cfg); [contradiction|]. reflexivity.
  - destruct (filter is_sram cfg) as [|b l] eqn:F; [reflexivity|].
    assert (H : In b (filter is_sram cfg)) by (rewrite F; now left). apply filter_In in H as [H1 H2].
    pose proof (existsb_false _ _ _ E H1). congruence.
Qed.

Lemma mvm_counters cfg ww c u : mvmu_ok cfg ww c -> reached c u ->
  let u' := execute_mvm c u in
  let T := slices c in let n := c_size c in let C := c_cols c in
  let R := rrams cfg in let S := srams cfg in
  let s := mv_stat u in let s' := mv_stat u' in
  dac_conversions s' = dac_conversions s + T * when R n /\
  dac_active_cycles s' = dac_active_cycles s + T * when R (c_dac_lat c) /\
  rram_mvm_operations s' = rram_mvm_operations s + T * (R * 2) /\
  snh_pos_samples s' = snh_pos_samples s + T * (R * n) /\
  snh_neg_samples s' = snh_neg_samples s + T * (R * n) /\
  mux_pos_selections s' = mux_pos_selections s + T * (R * n) /\
  mux_neg_selections s' = mux_neg_selections s + T * (R * n) /\
  adc_conversions s' = adc_conversions s + T * (R * n * (if c_adc_differential c then 1 else 2)) /\
  adc_active_cycles s' = adc_active_cycles s + T * (C * when R (c_adc_lat c)) /\
  sram_mac_operations s' = sram_mac_operations s + T * (S * 2 * n) /\
  mux_sram_selections s' = mux_sram_selections s + T * (S * n) /\
  sna_operations s' = sna_operations s + T * ((R + S) * n + n) /\
  (let i := in_stat (mv_in u) in let i' := in_stat (mv_in u') in
   read_operations i' = read_operations i + T /\ read_cells i' = read_cells i + T * n /\
   write_operations i' = write_operations i /\ write_cells i' = write_cells i /\
   total_operations i' = total_operations i + T /\ total_operated_cells i' = total_operated_cells i + T * n) /\
  (let o := out_stat (mv_out u) in let o' := out_stat (mv_out u') in
   read_operations o' = read_operations o + T * C /\ read_cells o' = read_cells o + T * n /\
   write_operations o' = write_operations o + (1 + T * C) /\ write_cells o' = write_cells o + (n + T * n) /\
   total_operations o' = total_operations o + (1 + 2 * (T * C)) /\
   total_operated_cells o' = total_operated_cells o + (n + 2 * (T * n))).
Proof.
  intros OK HR. cbv zeta. pose proof (reached_shaped _ _ _ _ OK HR) as S.
  destruct (mvm_stats _ _ _ OK u S) as (E1 & E2 & E3). cbv zeta in E1, E2, E3.
  rewrite E1, E2, E3. destruct (dims _ _ _ OK) as (HC & HA & Hn).
  pose proof (num_rram_eq _ _ _ OK) as NR. pose proof (num_sram_eq _ _ _ OK) as NS.
  assert (W0 : forall k x, 0 <= k -> when k (k * x) = k * x).
  { intros k x Hk. unfold when. destruct (Z.ltb_spec 0 k); [reflexivity|]. replace k with 0 by lia. reflexivity. }
  assert (WR : forall x, when (rrams cfg) (rrams cfg * x) = rrams cfg * x) by (intros; apply W0; apply zlen_nonneg).
  assert (WS : forall x, when (srams cfg) (srams cfg * x) = srams cfg * x) by (intros; apply W0; apply zlen_nonneg).
  change (Z.of_nat (length (filter is_rram cfg))) with (rrams cfg) in NR.
  change (Z.of_nat (length (filter is_sram cfg))) with (srams cfg) in NS.
  assert (ZL : zlen cfg = rrams cfg + srams cfg).
  { pose proof (filter_split is_sram cfg). unfold rrams, srams, zlen. lia. }
  unfold slices_stat, rw_stat, count_write.
  cbn [dac_conversions dac_active_cycles rram_mvm_operations snh_pos_samples snh_neg_samples mux_pos_selections mux_neg_selections adc_conversions adc_overflow_times adc_active_cycles sram_mac_operations mux_sram_selections sna_operations
       read_operations read_cells write_operations write_cells total_operations total_operated_cells].
  unfold adc_size. rewrite !(if_rram_when _ _ _ _ OK), !(if_sram_when _ _ _ _ OK), NR, NS, ZL.
  rewrite <- !(Z.mul_assoc (rrams cfg)), <- !(Z.mul_assoc (srams cfg)), !WR, !WS.
  generalize (slices c). intros T. rewrite Hn. repeat split; ring.
Qed.

Lemma clip_cases c v : 0 <= c_adc_res c ->
  let M := 2 ^ c_adc_res c - 1 in
  (Z.abs v <= M -> adc_clip c v = v) /\ (M < v -> adc_clip c v = M) /\ (v < - M -> adc_clip c v = - M).
Proof.
  intros H. cbv zeta. unfold adc_clip, adc_max, clipZ. rewrite pow2_shiftl by assumption.
  assert (0 < 2 ^ c_adc_res c) by (apply Z.pow_pos_nonneg; lia). lia.
Qed.

Lemma adc_array c steps pos neg st out st' :
  0 <= c_adc_res c -> length pos = length steps -> length neg = length steps ->
  adc_convert c steps pos neg st = (out, st') ->
  let M := 2 ^ c_adc_res c - 1 in
  Forall (Forall (fun o => - M <= o <= M)) out /\
  exists ints,
    length ints = length steps /\
    (forall q m, (q < length steps)%nat -> (m < length (nth q pos []))%nat -> (m < length (nth q neg []))%nat ->
       nth m (nth q ints []) 0 =
       fnearest (fdiv (nth m (nth q pos []) f0) (nth q steps f0)) - fnearest (fdiv (nth m (nth q neg []) f0) (nth q steps f0))) /\
    (forall q, (q < length steps)%nat -> length (nth q ints []) = Nat.min (length (nth q pos [])) (length (nth q neg []))) /\
    Forall2 (Forall2 (fun v o => (Z.abs v <= M -> o = v) /\ (M < v -> o = M) /\ (v < - M -> o = - M))) ints out /\
    adc_overflow_times st' = adc_overflow_times st + zsum (map (fun row => zlen (filter (fun v => M <? Z.abs v) row)) ints) /\
    adc_conversions st' = adc_conversions st + num_rram (c_storage c) * c_num_adc c * (if c_adc_differential c then 1 else 2) /\
    adc_active_cycles st' = adc_active_cycles st + c_adc_lat c.
Proof.
  intros HR Lp Ln E. cbv zeta. split.
  { replace out with (fst (adc_convert c steps pos neg st)) by (now rewrite E). now apply adc_convert_range. }
  unfold adc_convert in E. set (ints := map _ (combine _ _)) in E. injection E as E1 E2. exists ints.
  split; [unfold ints; rewrite map_length, !combine_length; lia|].
  split.
  { intros q m Hq Hm Hm'. unfold ints. rewrite (nth_map_lt _ _ _ (f0, ([], []))) by (rewrite !combine_length; lia).
    rewrite combine_nth by (rewrite combine_length; lia). cbn [fst snd]. rewrite combine_nth by lia. cbn [fst snd].
    rewrite (nth_map_lt _ _ _ (f0, f0)) by (rewrite combine_length; lia).
    assert (CN : forall (a b : list f64) i, (i < length a)%nat -> (i < length b)%nat -> nth i (combine a b) (f0, f0) = (nth i a f0, nth i b f0)).
    { clear. induction a as [|x a IH]; intros [|y b] [|i] Ha Hb; cbn in *; try lia; auto. apply IH; lia. }
    rewrite CN by assumption. reflexivity. }
  split.
  { intros q Hq. unfold ints. rewrite (nth_map_lt _ _ _ (f0, ([], []))) by (rewrite !combine_length; lia).
    rewrite combine_nth by (rewrite combine_length; lia). cbn [fst snd]. rewrite combine_nth by lia. cbn [fst snd].
    rewrite map_length, combine_length. reflexivity. }
  split.
  { subst out. unfold map2d. apply Forall2_map_r. clear - HR. induction ints as [|row ints IH]; constructor; [|exact IH].
    apply Forall2_map_r. induction row as [|v row IHr]; constructor; [|exact IHr]. now apply clip_cases. }
  split; [|split; [now subst st'|now subst st']].
  subst st'. cbn [adc_overflow_times]. f_equal. f_equal. apply map_ext. intros row. unfold count_true. f_equal.
  apply filter_ext. intros v. unfold adc_overflows, adc_max. rewrite pow2_shiftl by assumption.
  assert (0 < 2 ^ c_adc_res c) by (apply Z.pow_pos_nonneg; lia). lia.
Qed.
