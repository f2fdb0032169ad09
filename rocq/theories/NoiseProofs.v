(** Noisy multiplies. *)
From Verif Require Import PyBase PyLemmas FloatModel AnalogProofs DataConvert ConfigModel ConfigSpec ConfigProofs
  MemoryModel MvmuModel FloatSpec FloatProofs AnalogChain MvmuSpec MvmuLists MvmuLoad MvmuRun MvmuProofs MvmuUse MvmuCount
  NoiseAnalog NoiseModel NoiseSpec.
From Flocq Require Import IEEE754.BinarySingleNaN Core.
From Coq Require Import Reals Lra Psatz ZifyNat ZifyBool.
Open Scope Z_scope.

(** ** Lists *)
Lemma length_mapi {A B} (f : nat -> A -> B) l : length (mapi f l) = length l.
Proof. revert f; induction l as [|x l IH]; intros f; cbn [mapi length]; [reflexivity|]. now rewrite IH. Qed.
Lemma nth_mapi {A B} (f : nat -> A -> B) l k d e : (k < length l)%nat -> nth k (mapi f l) e = f k (nth k l d).
Proof.
  revert f k; induction l as [|x l IH]; intros f [|k] Hk; cbn [mapi length nth] in *; try lia; [reflexivity|].
  rewrite IH by lia. reflexivity.
Qed.

Lemma rsum_below_rsum n f : rsum_below n f = rsum (map f (seq 0 n)).
Proof.
  induction n as [|n IH]; [reflexivity|]. rewrite seq_S, map_app, rsum_app. cbn [rsum_below map rsum Nat.add]. rewrite IH. lra.
Qed.
Lemma rsum_below_S n f : rsum_below (S n) f = (f 0%nat + rsum_below n (fun j => f (S j)))%R.
Proof. rewrite !rsum_below_rsum. cbn [seq map rsum]. now rewrite <- seq_shift, map_map. Qed.
Lemma rsum_below_le n f g : (forall j, (j < n)%nat -> f j <= g j)%R -> (rsum_below n f <= rsum_below n g)%R.
Proof. induction n as [|n IH]; intros H; cbn [rsum_below]; [lra|]. apply Rplus_le_compat; [apply IH; auto|apply H; lia]. Qed.
Lemma rsum_below_const n x : rsum_below n (fun _ => x) = (INR n * x)%R.
Proof. induction n as [|n IH]; [cbn; lra|]. cbn [rsum_below]. rewrite IH, S_INR. ring. Qed.

Section Noise.
Context (cfg : list bitcfg) (ww : Z) (c : mvmu_cfg) (OK : mvmu_ok cfg ww c).
Notation K := (length cfg).
Notation n := (c_size c).
Notation res := (c_dac_res c).

(** ** One plane *)
Lemma noisy_lanes b (f : f64 -> Z) row gs ds (e : nat -> f64) :
  mid (c_vdd c) -> 1 <= b <= 31 -> (forall w, 0 <= f w < 2 ^ b) -> (forall j, noise_ok c (e j)) ->
  Forall2 (fun w g => approx 2 g (IZR (f w) * gstep c b)) row gs ->
  Forall (fun d => 0 <= d < 2 ^ res) ds -> length row = length ds ->
  exists ls, Forall (fun q => lane_ok c b (fst q) /\ noise_ok c (snd q)) ls /\
    pairs ls = combine (mapi (fun j g => fadd g (e j)) gs) (map (dac_convert c) ds) /\
    total ls = dot (map f row) ds /\ length ls = length row /\
    disturb ls = rsum_below (length ds) (fun j => Rabs (B2R (e j)) * IZR (nth j ds 0%Z))%R.
Proof.
  intros MV Hb Hf He H; revert ds e He; induction H as [|w g row gs Hg H IH]; intros ds e He Hd Hl.
  - destruct ds; [|discriminate]. exists []. repeat split. constructor.
  - destruct ds as [|d ds]; [discriminate|]. inversion Hd as [|? ? Hd0 Hd1]; subst.
    destruct (IH ds (fun j => e (S j)) (fun j => He (S j)) Hd1 ltac:(cbn in Hl; lia)) as (ls & I1 & I2 & I3 & I4 & I5).
    exists ((MkLane (f w) d g (dac_convert c d), e 0%nat) :: ls). split; [|split; [|split; [|split]]].
    + constructor; [|exact I1]. split; [|apply He]. unfold lane_ok. cbn [fst l_v l_d l_g l_x].
      split; [apply Hf|]. split; [exact Hd0|]. split; [exact Hg|]. apply dac_approx; [exact MV|apply (ok_dac _ _ _ OK)|exact Hd0].
    + cbn [mapi map combine]. change (pairs ?x) with (pairs x). rewrite <- I2. reflexivity.
    + cbn [map dot]. rewrite <- I3. reflexivity.
    + cbn [length]. now rewrite I4.
    + cbn [length]. rewrite rsum_below_S. cbn [nth]. rewrite <- I5. reflexivity.
Qed.

Lemma noisy_plane k (f : f64 -> Z) row gs ds (e : nat -> f64) :
  analog_ok c -> noise_size c -> (k < K)%nat -> (forall j, noise_ok c (e j)) ->
  (forall w, 0 <= f w < 2 ^ cell_bits (nth k cfg SLC)) ->
  Forall2 (fun w g => approx 2 g (IZR (f w) * gstep c (cell_bits (nth k cfg SLC)))) row gs ->
  Forall (fun d => 0 <= d < 2 ^ res) ds -> length row = Z.to_nat n -> length ds = Z.to_nat n ->
  (Rabs (IZR (np_rint (fdiv (c_dot c (mapi (fun j g => fadd g (e j)) gs) (map (dac_convert c) ds)) (adc_step c (cell_bits (nth k cfg SLC))))
             - dot (map f row) ds)) <= row_noise c (cell_bits (nth k cfg SLC)) e ds + / 2 + / 1024)%R.
Proof.
  intros AN SZ Hk He Hf Hg Hd Lr Ld. pose proof (cell_bits_le (nth k cfg SLC)) as Hb.
  set (b := cell_bits (nth k cfg SLC)) in *. pose proof (ok_dac _ _ _ OK) as Hres. pose proof (ok_size _ _ _ OK) as Hn.
  destruct (noisy_lanes b f row gs ds e (an_vdd _ AN) ltac:(lia) Hf He Hg Hd ltac:(lia)) as (ls & I1 & I2 & I3 & I4 & I5).
  destruct (an_gmin _ AN) as (F0 & E0).
  pose proof (noisy_chain c b (an_vdd _ AN) (an_gmax _ AN) F0 E0 Hres ltac:(lia) ls (c_dot c (mapi (fun j g => fadd g (e j)) gs) (map (dac_convert c) ds)) I1) as NC.
  rewrite minus_IZR, <- I3. unfold row_noise. rewrite <- I5.
  eapply Rle_trans; [apply NC|lra].
  - rewrite I2. apply (an_dot _ AN). rewrite length_mapi, map_length, <- (Forall2_len _ _ _ Hg). lia.
  - assert (P1 : 2 ^ b <= 2 ^ 4) by (apply Z.pow_le_mono_r; lia). change (2 ^ 4) with 16 in P1.
    assert (P0 : 0 < 2 ^ b) by (apply Z.pow_pos_nonneg; lia). assert (P2 : 2 ^ 1 <= 2 ^ res) by (apply Z.pow_le_mono_r; lia).
    assert (ZL : zlen ls = n) by (unfold zlen; lia). rewrite ZL. unfold noise_size in SZ. eapply Z.le_lt_trans; [|exact SZ].
    apply Z.mul_le_mono_nonneg_r; [lia|]. apply Z.mul_le_mono_nonneg_l; [lia|]. apply Z.mul_le_mono_nonneg_r; lia.
Qed.

(** ** The disturbed unit *)
Lemma shaped_noisy u ns : shaped cfg c u -> shaped cfg c (noisy_unit u ns).
Proof.
  intros S. constructor; cbn [noisy_unit mv_in mv_out rram_pos rram_neg sram_pos sram_neg]; try apply S.
  unfold with_noise. rewrite !length_mapi. apply S.
Qed.

Lemma nth_noisy (m : list (list (list f64))) e (v : list f64) q r :
  (q < length m)%nat -> (r < length (nth q m []))%nat ->
  nth r (nth q (map (map (fun row => c_dot c row v)) (with_noise m e)) []) f0 =
  c_dot c (mapi (fun j g => fadd g (e q r j)) (nth r (nth q m []) [])) v.
Proof.
  intros Hq Hr. unfold with_noise. rewrite (nth_map_lt _ _ _ []) by (now rewrite length_mapi).
  rewrite (nth_mapi _ _ _ []) by exact Hq. rewrite (nth_map_lt _ _ _ []) by (now rewrite length_mapi).
  now rewrite (nth_mapi _ _ _ []).
Qed.

Section Loaded.
Context (W : list (list f64)) (u : mvmu) (ID : ideal cfg c) (SZ : noise_size c) (H : holds cfg c W u).

Definition adc_of (v : mvmu) (d : list Z) (k r : nat) : Z :=
  adc_int (adc_step c (cell_bits (nth k cfg SLC)))
    (nth r (nth (rk cfg k) (xpos_of c v d) []) f0) (nth r (nth (rk cfg k) (xneg_of c v d) []) f0).

Lemma adc_noisy ns k r d :
  noise_range c (n_pos ns) -> noise_range c (n_neg ns) ->
  (k < K)%nat -> is_sram (nth k cfg SLC) = false -> (r < Z.to_nat n)%nat ->
  Forall (fun x => 0 <= x < 2 ^ res) d -> length d = Z.to_nat n ->
  let lp := row_noise c (cell_bits (nth k cfg SLC)) (n_pos ns (rk cfg k) r) d in
  let ln := row_noise c (cell_bits (nth k cfg SLC)) (n_neg ns (rk cfg k) r) d in
  exists e, adc_of (noisy_unit u ns) d k r = dot (map (cell_of cfg (c_weight_frac c) k) (nth r W [])) d + e /\
    (Rabs (IZR e) <= lp + ln + 1 + / 512)%R /\ ((lp < 511 / 1024)%R -> (ln < 511 / 1024)%R -> e = 0).
Proof.
  intros NP NN Hk Hb Hr Hd Ld lp ln. destruct (h_lens _ _ _ _ H) as (L1 & L2 & L3 & L4).
  assert (AN : analog_ok c) by (eapply rram_ideal; eassumption).
  destruct (h_rram _ _ _ _ H k Hk Hb) as [Hp Hn].
  assert (R : (rk cfg k < length (filter is_rram cfg))%nat) by (eapply rank_lt; [exact Hk|]; unfold is_rram; now rewrite Hb).
  assert (HrW : (r < length W)%nat) by (rewrite (h_rows _ _ _ _ H); exact Hr).
  unfold adc_of, xpos_of, xneg_of. cbn [noisy_unit rram_pos rram_neg].
  rewrite !nth_noisy; try lia; try (rewrite <- (Forall2_len _ _ _ Hp) || rewrite <- (Forall2_len _ _ _ Hn); exact HrW).
  assert (C1 : forall w, Z.abs (cell_of cfg (c_weight_frac c) k w) < 2 ^ cell_bits (nth k cfg SLC)).
  { intros w. pose proof (cell_range cfg (c_weight_frac c) k w) as CR. unfold cell_of. destruct (weight_sgn_cases w) as [->|[->| ->]]; lia. }
  pose proof (noisy_plane k (fun w => Z.max (cell_of cfg (c_weight_frac c) k w) 0) (nth r W []) (nth r (nth (rk cfg k) (rram_pos u) []) []) d
    (n_pos ns (rk cfg k) r) AN SZ Hk (NP (rk cfg k) r) ltac:(intros w; specialize (C1 w); lia) (Forall2_nth _ _ _ r [] [] Hp HrW) Hd
    ltac:(eapply W_row; eassumption) Ld) as EP.
  pose proof (noisy_plane k (fun w => Z.max (- cell_of cfg (c_weight_frac c) k w) 0) (nth r W []) (nth r (nth (rk cfg k) (rram_neg u) []) []) d
    (n_neg ns (rk cfg k) r) AN SZ Hk (NN (rk cfg k) r) ltac:(intros w; specialize (C1 w); lia) (Forall2_nth _ _ _ r [] [] Hn HrW) Hd
    ltac:(eapply W_row; eassumption) Ld) as EN.
  fold lp in EP. fold ln in EN. unfold adc_int.
  set (p := np_rint _) in *. set (m := np_rint _) in EN |- *.
  rewrite <- dot_split. set (dp := dot _ d) in *. set (dm := dot (map (fun w => Z.max (- _) 0) _) d) in *.
  exists ((p - dp) - (m - dm)). split; [ring|].
  rewrite <- abs_IZR in EP, EN. split.
  - rewrite <- abs_IZR. assert (A : Z.abs (p - dp - (m - dm)) <= Z.abs (p - dp) + Z.abs (m - dm)) by lia.
    apply IZR_le in A. rewrite plus_IZR in A. lra.
  - intros Q1 Q2. assert (A : (IZR (Z.abs (p - dp)) < 1)%R) by lra. assert (B : (IZR (Z.abs (m - dm)) < 1)%R) by lra.
    apply lt_IZR in A, B. lia.
Qed.
End Loaded.

(** ** The whole multiply *)
Context (draw : Z -> noise).
Notation codes u i := (map (in_slice res (Z.of_nat i)) (inputs u)).

Definition noisy_rowval (u : mvmu) (i r : nat) : Z :=
  rowval cfg c (xpos_of c (noisy_unit u (draw (Z.of_nat i))) (codes u i))
    (xneg_of c (noisy_unit u (draw (Z.of_nat i))) (codes u i)) (sout_of u (codes u i)) r.
Definition noisy_sat (u : mvmu) (i : nat) : Z :=
  sum_below (Z.to_nat n) (sat_row cfg c (xpos_of c (noisy_unit u (draw (Z.of_nat i))) (codes u i))
    (xneg_of c (noisy_unit u (draw (Z.of_nat i))) (codes u i))).

Lemma noisy_frame u : shaped cfg c u ->
  let u' := execute_mvm_noisy c draw u in
  shaped cfg c u' /\ inputs u' = map (fun x => x / 2 ^ (res * slices c)) (inputs u) /\
  rram_pos u' = rram_pos u /\ rram_neg u' = rram_neg u /\ sram_pos u' = sram_pos u /\ sram_neg u' = sram_neg u /\
  (forall r, (r < Z.to_nat n)%nat -> nth r (outputs u') 0 =
     wrap32 (sum_below (Z.to_nat (slices c)) (fun i => 2 ^ Z.of_nat i * noisy_rowval u i r))) /\
  mv_stat u' = slices_stat cfg c (slices c) (sum_below (Z.to_nat (slices c)) (noisy_sat u)) (mv_stat u) /\
  in_stat (mv_in u') = MkMStats (read_operations (in_stat (mv_in u)) + slices c) (read_cells (in_stat (mv_in u)) + slices c * n)
     (write_operations (in_stat (mv_in u))) (write_cells (in_stat (mv_in u)))
     (total_operations (in_stat (mv_in u)) + slices c) (total_operated_cells (in_stat (mv_in u)) + slices c * n) /\
  out_stat (mv_out u') = rw_stat (slices c * c_cols c) (c_num_adc c) (count_write (out_stat (mv_out u)) 1 n).
Proof.
  intros S. cbv zeta. unfold execute_mvm_noisy. rewrite iter_eq. pose proof (slices_nonneg _ _ _ OK) as SN.
  destruct (dims _ _ _ OK) as (HC & HA & Hn).
  pose proof (shaped_clean cfg c u S) as S0. set (u0 := MkMvmu _ _ _ _ _ _ _) in *.
  pose (P := fun (i : nat) (v : mvmu) =>
    shaped cfg c v /\ inputs v = map (fun x => x / 2 ^ (res * Z.of_nat i)) (inputs u) /\
    rram_pos v = rram_pos u /\ rram_neg v = rram_neg u /\ sram_pos v = sram_pos u /\ sram_neg v = sram_neg u /\
    (forall r, (r < Z.to_nat n)%nat -> nth r (outputs v) 0 =
       wrap32 (sum_below i (fun i => 2 ^ Z.of_nat i * noisy_rowval u i r))) /\
    mv_stat v = slices_stat cfg c (Z.of_nat i) (sum_below i (noisy_sat u)) (mv_stat u) /\
    in_stat (mv_in v) = MkMStats (read_operations (in_stat (mv_in u)) + Z.of_nat i) (read_cells (in_stat (mv_in u)) + Z.of_nat i * n)
     (write_operations (in_stat (mv_in u))) (write_cells (in_stat (mv_in u)))
     (total_operations (in_stat (mv_in u)) + Z.of_nat i) (total_operated_cells (in_stat (mv_in u)) + Z.of_nat i * n) /\
    out_stat (mv_out v) = rw_stat (Z.of_nat i * c_cols c) (c_num_adc c) (count_write (out_stat (mv_out u)) 1 n)).
  assert (Q : P (Z.to_nat (slices c)) (fold_left (noisy_slice c draw) (zrange (slices c)) u0)).
  { replace (zrange (slices c)) with (zrange (Z.of_nat (Z.to_nat (slices c)))) by (f_equal; lia).
    apply fold_zrange_inv.
    - unfold P. split; [exact S0|]. split.
      + unfold u0, inputs. cbn [mv_in]. rewrite Z.mul_0_r, Z.pow_0_r.
        rewrite <- (map_id (in_regs (mv_in u))) at 1. apply map_ext. intros. now rewrite Z.div_1_r.
      + do 4 (split; [reflexivity|]). unfold u0. cbn [mv_stat mv_in mv_out outreg_clean out_stat].
        split; [|split; [|split]].
        * intros r Hr. unfold outputs. cbn [mv_out outreg_clean out_regs].
          rewrite (nth_map_lt _ _ _ 0); [reflexivity|]. rewrite (sh_outl _ _ _ S). exact Hr.
        * destruct (mv_stat u). unfold slices_stat. cbn. rewrite !Z.add_0_r. reflexivity.
        * destruct (in_stat (mv_in u)). cbn. rewrite !Z.add_0_r. reflexivity.
        * rewrite (sh_out _ _ _ S). destruct (count_write _ _ _). unfold rw_stat. cbn. rewrite !Z.add_0_r. reflexivity.
    - intros i v Hi (V1 & V2 & V3 & V4 & V5 & V6 & V7 & V8 & V9 & V10).
      pose proof (shaped_noisy v (draw (Z.of_nat i)) V1) as VN. set (vn := noisy_unit v (draw (Z.of_nat i))) in *.
      destruct (slice_frame cfg ww c OK vn (Z.of_nat i) ltac:(lia) VN) as (T1 & T2 & _ & _ & _ & _ & TI & TO).
      assert (EC : slice_codes c vn = map (in_slice res (Z.of_nat i)) (inputs u)).
      { unfold slice_codes. change (inputs vn) with (inputs v). rewrite V2, map_map. apply map_ext. intros x. apply slice_code_at. lia. }
      assert (EX : xpos_of c vn (slice_codes c vn) = xpos_of c (noisy_unit u (draw (Z.of_nat i))) (codes u i) /\
                   xneg_of c vn (slice_codes c vn) = xneg_of c (noisy_unit u (draw (Z.of_nat i))) (codes u i) /\
                   sout_of vn (slice_codes c vn) = sout_of u (codes u i)).
      { rewrite EC. unfold xpos_of, xneg_of, sout_of, vn. cbn [noisy_unit rram_pos rram_neg sram_pos sram_neg]. now rewrite V3, V4, V5, V6. }
      destruct EX as (EX1 & EX2 & EX3).
      destruct (lens_out cfg c vn (slice_codes c vn) VN) as (L1 & L2 & L3).
      pose proof (columns_stat cfg ww c OK _ _ _ L1 L2 L3 (Z.of_nat i) (mv_out vn) (count_slice c (mv_stat vn)) ltac:(lia)
                    (sh_out _ _ _ VN) (sh_outl _ _ _ VN)) as (Q1 & Q2). cbv zeta in Q1, Q2.
      unfold P, noisy_slice. fold vn. cbn [rram_pos rram_neg sram_pos sram_neg mv_in mv_out mv_stat]. split.
      { destruct T1 as [? ? ? ? ? ? LL]. constructor; cbn [rram_pos rram_neg sram_pos sram_neg mv_in mv_out]; try assumption. apply V1. }
      split.
      { unfold inputs in *. cbn [mv_in]. rewrite T2. change (mv_in vn) with (mv_in v). rewrite V2, map_map. apply map_ext. intros x.
        rewrite (div_pow cfg ww c OK) by lia. do 3 f_equal. lia. }
      do 4 (split; [assumption|]). split; [|split; [|split]].
      + intros r Hr. unfold outputs in *. cbn [mv_out]. rewrite TO by assumption. change (mv_out vn) with (mv_out v). rewrite V7 by assumption.
        rewrite wrap32_add_r, sum_below_S. f_equal. rewrite Z.add_comm. f_equal. unfold noisy_rowval. rewrite EX1, EX2, EX3. reflexivity.
      + rewrite (mvm_slice_unfold cfg ww c OK). cbv zeta. cbn [mv_stat]. rewrite Q1, (slice_stat_eq cfg ww c OK). change (mv_stat vn) with (mv_stat v).
        rewrite V8, slices_stat_add, sum_below_S. unfold noisy_sat at 3. rewrite EX1, EX2. f_equal. lia.
      + rewrite TI. change (mv_in vn) with (mv_in v). rewrite V9. unfold count_read.
        cbn [read_operations read_cells write_operations write_cells total_operations total_operated_cells]. f_equal; nia.
      + rewrite (mvm_slice_unfold cfg ww c OK). cbv zeta. cbn [mv_out]. rewrite Q2. change (mv_out vn) with (mv_out v). rewrite V10.
        set (s0 := count_write _ _ _). clearbody s0. unfold rw_stat. cbn [read_operations read_cells write_operations write_cells total_operations total_operated_cells].
        f_equal; nia. }
  destruct Q as (R1 & R2 & R3 & R4 & R5 & R6 & R7 & R8 & R9 & R10). rewrite Z2Nat.id in R2, R8, R9, R10 by assumption. repeat (split; [assumption|]). assumption.
Qed.

(** ** Errors *)
Lemma codes_ok u i : shaped cfg c u -> Forall (fun x => 0 <= x < 2 ^ res) (codes u i) /\ length (codes u i) = Z.to_nat n.
Proof.
  intros S. pose proof (ok_dac _ _ _ OK). split.
  - apply Forall_map, Forall_forall. intros x _. unfold in_slice. apply Z.mod_pos_bound. apply Z.pow_pos_nonneg; lia.
  - rewrite map_length. apply (sh_inl _ _ _ S).
Qed.

(** What the converter of crossbar k is off by. *)
Definition off (W : list (list f64)) (u : mvmu) (r i k : nat) : Z :=
  if is_sram (nth k cfg SLC) then 0
  else adc_of (noisy_unit u (draw (Z.of_nat i))) (codes u i) k r - row_sum c cfg k (Z.of_nat i) (nth r W []) (inputs u).

Lemma off_bound W u r i k : ideal cfg c -> noise_size c -> holds cfg c W u -> shaped cfg c u -> draws_ok c draw ->
  (r < Z.to_nat n)%nat -> (i < Z.to_nat (slices c))%nat -> (k < K)%nat -> is_sram (nth k cfg SLC) = false ->
  let p := pos_noise c cfg draw (inputs u) k r (Z.of_nat i) in let m := neg_noise c cfg draw (inputs u) k r (Z.of_nat i) in
  (Rabs (IZR (off W u r i k)) <= p + m + 1 + / 512)%R /\ ((p < 511 / 1024)%R -> (m < 511 / 1024)%R -> off W u r i k = 0).
Proof.
  intros ID SZ H S D Hr Hi Hk Hb p m. destruct (codes_ok u i S) as (C1 & C2).
  destruct (D (Z.of_nat i) ltac:(lia)) as (D1 & D2).
  destruct (adc_noisy W u ID SZ H (draw (Z.of_nat i)) k r (codes u i) D1 D2 Hk Hb Hr C1 C2) as (e & E1 & E2 & E3).
  unfold off. rewrite Hb, E1. unfold row_sum. rewrite Z.add_simpl_l. split; [exact E2|exact E3].
Qed.

Lemma rowval_off W u i r : ideal cfg c -> holds cfg c W u -> shaped cfg c u -> (r < Z.to_nat n)%nat ->
  R32 (noisy_rowval u i r) (sum_below K (fun k => 2 ^ bits_below cfg k *
      converted (c_adc_res c) (nth k cfg SLC) (row_sum c cfg k (Z.of_nat i) (nth r W []) (inputs u) + off W u r i k))).
Proof.
  intros ID H S Hr. destruct (codes_ok u i S) as (C1 & C2). unfold noisy_rowval, rowval. apply R32_sum. intros k Hk. apply R32_mul.
  destruct (is_sram (nth k cfg SLC)) eqn:Hb.
  - pose proof (colval_exact cfg ww c OK W u ID H k r (codes u i) Hk Hr C1 C2) as CE. unfold colval, off, row_sum, converted in *. rewrite Hb in *.
    rewrite Z.add_0_r. exact CE.
  - unfold colval, converted, off. rewrite Hb. unfold adc_of. set (v := adc_int _ _ _). replace (row_sum _ _ _ _ _ _ + (v - _)) with v by lia.
    unfold adc_clip, clipZ, adc_max. rewrite pow2_shiftl by apply (ok_adc _ _ _ OK).
    set (M := 2 ^ c_adc_res c - 1). assert (0 <= M).
    { unfold M. assert (0 < 2 ^ c_adc_res c) by (apply Z.pow_pos_nonneg; [lia|apply (ok_adc _ _ _ OK)]). lia. }
    replace (Z.min (Z.max v (- M)) M) with (Z.max (- M) (Z.min M v)) by lia. apply R32_refl.
Qed.

Lemma noisy_value W u r : ideal cfg c -> holds cfg c W u -> shaped cfg c u -> (r < Z.to_nat n)%nat ->
  nth r (outputs (execute_mvm_noisy c draw u)) 0 = wrap32 (mvm_value_off c cfg (nth r W []) (inputs u) (off W u r)).
Proof.
  intros ID H S Hr. destruct (noisy_frame u S) as (_ & _ & _ & _ & _ & _ & F & _). rewrite F by exact Hr.
  apply wrap32_R32. unfold mvm_value_off. apply R32_sum. intros i Hi. apply R32_mul. now apply rowval_off.
Qed.

(** Conversion does not enlarge an error. *)
Lemma converted_lip a b v e : 0 <= a -> Z.abs (converted a b (v + e) - converted a b v) <= Z.abs e.
Proof. intros Ha. unfold converted. destruct (is_sram b); lia. Qed.

Lemma IZR_pow2 k : 0 <= k -> IZR (2 ^ k) = bpow radix2 k.
Proof. intros H. now rewrite <- (IZR_Zpower radix2). Qed.

Lemma sum_below_diff m f g (h : nat -> R) : (forall i, (i < m)%nat -> Rabs (IZR (f i - g i)) <= h i)%R ->
  (Rabs (IZR (sum_below m f - sum_below m g)) <= rsum_below m h)%R.
Proof.
  induction m as [|m IH]; intros Hm; [cbn; rewrite Rabs_R0; lra|]. rewrite !sum_below_S. cbn [rsum_below].
  replace (sum_below m f + f m - (sum_below m g + g m)) with ((sum_below m f - sum_below m g) + (f m - g m)) by ring.
  rewrite plus_IZR. eapply Rle_trans; [apply Rabs_triang|]. apply Rplus_le_compat; [apply IH; auto|apply Hm; lia].
Qed.

Lemma scaled_diff k a b h : 0 <= k -> (Rabs (IZR (a - b)) <= h)%R -> (Rabs (IZR (2 ^ k * a - 2 ^ k * b)) <= bpow radix2 k * h)%R.
Proof.
  intros Hk Hh. rewrite <- Z.mul_sub_distr_l, mult_IZR, Rabs_mult, IZR_pow2, (Rabs_pos_eq (bpow radix2 k)) by (try apply bpow_ge_0; assumption).
  apply Rmult_le_compat_l; [apply bpow_ge_0|exact Hh].
Qed.

Lemma noisy_deviation W u r : ideal cfg c -> noise_size c -> holds cfg c W u -> shaped cfg c u -> draws_ok c draw -> (r < Z.to_nat n)%nat ->
  (Rabs (IZR (mvm_value_off c cfg (nth r W []) (inputs u) (off W u r) - mvm_value c cfg (nth r W []) (inputs u)))
   <= noise_bound c cfg draw (inputs u) r)%R.
Proof.
  intros ID SZ H S D Hr. unfold mvm_value_off, mvm_value, noise_bound. apply sum_below_diff. intros i Hi.
  apply scaled_diff; [lia|]. apply sum_below_diff. intros k Hk. apply scaled_diff; [apply bits_below_nonneg|].
  pose proof (converted_lip (c_adc_res c) (nth k cfg SLC) (row_sum c cfg k (Z.of_nat i) (nth r W []) (inputs u)) (off W u r i k) (ok_adc _ _ _ OK)) as L.
  destruct (is_sram (nth k cfg SLC)) eqn:Hb.
  - unfold off in *. rewrite Hb in *. assert (E : converted (c_adc_res c) (nth k cfg SLC) (row_sum c cfg k (Z.of_nat i) (nth r W []) (inputs u) + 0)
      - converted (c_adc_res c) (nth k cfg SLC) (row_sum c cfg k (Z.of_nat i) (nth r W []) (inputs u)) = 0) by lia.
    rewrite E, Rabs_R0. lra.
  - destruct (off_bound W u r i k ID SZ H S D Hr Hi Hk Hb) as (B & _). cbv zeta in B. rewrite <- abs_IZR in *. apply IZR_le in L. lra.
Qed.

(** ** Little noise *)
Lemma mstats_ext (a b : mstats) : read_operations a = read_operations b -> read_cells a = read_cells b -> write_operations a = write_operations b ->
  write_cells a = write_cells b -> total_operations a = total_operations b -> total_operated_cells a = total_operated_cells b -> a = b.
Proof. destruct a, b; cbn. intros; congruence. Qed.

Lemma noisy_quiet W u : ideal cfg c -> noise_size c -> holds cfg c W u -> shaped cfg c u -> draws_ok c draw ->
  quiet c cfg draw (inputs u) -> execute_mvm_noisy c draw u = execute_mvm c u.
Proof.
  intros ID SZ H S D Q.
  destruct (noisy_frame u S) as (A1 & A2 & A3 & A4 & A5 & A6 & A7 & A8 & A9 & A10).
  destruct (mvm_frame cfg ww c OK u S) as (B1 & B2 & B3 & B4 & B5 & B6 & B7).
  destruct (mvm_stats cfg ww c OK u S) as (B8 & B9 & B10).
  assert (E : forall i k r, (i < Z.to_nat (slices c))%nat -> (k < K)%nat -> is_sram (nth k cfg SLC) = false -> (r < Z.to_nat n)%nat ->
    adc_of (noisy_unit u (draw (Z.of_nat i))) (codes u i) k r = adc_of u (codes u i) k r).
  { intros i k r Hi Hk Hb Hr. destruct (codes_ok u i S) as (C1 & C2).
    destruct (Q (Z.of_nat i) k r ltac:(lia) Hk Hb Hr) as (Q1 & Q2). destruct (off_bound W u r i k ID SZ H S D Hr Hi Hk Hb) as (_ & B).
    specialize (B Q1 Q2). unfold off in B. rewrite Hb in B.
    pose proof (adc_int_exact cfg ww c OK W u ID H k r (codes u i) Hk Hb Hr C1 C2) as X. unfold adc_of in *. rewrite X. unfold row_sum in B. lia. }
  destruct (execute_mvm_noisy c draw u) as [ni no nrp nrn nsp nsn nst], (execute_mvm c u) as [pi po prp prn psp psn pst].
  unfold inputs, outputs in *. cbn [mv_in mv_out rram_pos rram_neg sram_pos sram_neg mv_stat] in *.
  f_equal; try congruence.
  - pose proof (sh_in _ _ _ A1) as G1. pose proof (sh_in _ _ _ B1) as G2. destruct ni as [s1 r1 t1], pi as [s2 r2 t2]. cbn [mv_in in_size in_regs in_stat] in *. congruence.
  - pose proof (sh_out _ _ _ A1) as G1. pose proof (sh_out _ _ _ B1) as G2. pose proof (sh_outl _ _ _ A1) as G3. pose proof (sh_outl _ _ _ B1) as G4.
    destruct no as [s1 r1 t1], po as [s2 r2 t2]. cbn [mv_out out_size out_regs out_stat] in *. f_equal; [congruence| |congruence].
    apply (list_ext 0); [congruence|]. intros r Hr. rewrite G3 in Hr. rewrite A7, B7 by exact Hr. f_equal. apply sum_below_ext. intros i Hi. f_equal.
    unfold noisy_rowval, rowval. apply sum_below_ext. intros k Hk. f_equal. unfold colval. destruct (is_sram (nth k cfg SLC)) eqn:Hb; [reflexivity|].
    f_equal. now apply E.
  - rewrite A8, B8. f_equal. apply sum_below_ext. intros i Hi. unfold noisy_sat. apply sum_below_ext. intros r Hr.
    unfold sat_row. apply sum_below_ext. intros k Hk. destruct (is_sram (nth k cfg SLC)) eqn:Hb; [reflexivity|].
    do 2 f_equal. now apply E.
Qed.

Lemma gmax_pos : analog_ok c -> (0 < B2R (c_gmax c))%R.
Proof. intros AN. apply mid_pos. apply (an_gmax _ AN). Qed.

Lemma uniform_quiet u eps : ideal cfg c -> shaped cfg c u -> uniform c cfg draw eps -> quiet c cfg draw (inputs u).
Proof.
  intros ID S (U1 & U2) i k r Hi Hk Hb Hr. assert (AN : analog_ok c) by (eapply rram_ideal; eassumption).
  pose proof (gmax_pos AN) as GP. pose proof (ok_dac _ _ _ OK) as Hres. pose proof (ok_size _ _ _ OK) as Hn.
  pose proof (U2 (nth k cfg SLC) (nth_In _ _ Hk) Hb) as UB.
  pose proof (cell_bits_le (nth k cfg SLC)) as CB. set (b := cell_bits (nth k cfg SLC)) in *.
  assert (P0 : 2 ^ 1 <= 2 ^ b) by (apply Z.pow_le_mono_r; lia). change (2 ^ 1) with 2 in P0.
  assert (Pb : (1 <= IZR (2 ^ b - 1))%R) by (apply IZR_le; lia).
  assert (E0 : (0 <= eps)%R) by (destruct (U1 i 0%nat 0%nat 0%nat Hi) as (_ & _ & X & _); pose proof (Rabs_pos (B2R (n_pos (draw i) 0%nat 0%nat 0%nat))); lra).
  assert (ROW : forall e, (forall j, Rabs (B2R (e j)) <= eps)%R -> (row_noise c b e (map (in_slice res i) (inputs u)) < 511 / 1024)%R).
  { intros e He. unfold row_noise. rewrite map_length. unfold inputs. rewrite (sh_inl _ _ _ S).
    assert (SB : (rsum_below (Z.to_nat n) (fun j => Rabs (B2R (e j)) * IZR (nth j (map (in_slice res i) (in_regs (mv_in u))) 0%Z))
                  <= IZR (n * (2 ^ res - 1)) * eps)%R).
    { apply Rle_trans with (rsum_below (Z.to_nat n) (fun _ => eps * IZR (2 ^ res - 1))%R).
      - apply rsum_below_le. intros j Hj. apply Rmult_le_compat; [apply Rabs_pos| |apply He|].
        + apply IZR_le. rewrite (nth_map_lt _ _ _ 0) by (rewrite (sh_inl _ _ _ S); exact Hj). unfold in_slice. apply Z.mod_pos_bound. apply Z.pow_pos_nonneg; lia.
        + apply IZR_le. rewrite (nth_map_lt _ _ _ 0) by (rewrite (sh_inl _ _ _ S); exact Hj). unfold in_slice.
          assert (0 < 2 ^ res) by (apply Z.pow_pos_nonneg; lia). pose proof (Z.mod_pos_bound (nth j (in_regs (mv_in u)) 0 / 2 ^ (res * i)) (2 ^ res)). lia.
      - rewrite rsum_below_const, INR_IZR_INZ, Z2Nat.id by lia. rewrite mult_IZR. right. ring. }
    apply (Rmult_lt_reg_r (B2R (c_gmax c) / IZR (2 ^ b - 1))); [apply Rdiv_lt_0_compat; lra|].
    unfold Rdiv at 1. rewrite Rmult_assoc, Rinv_l, Rmult_1_r by (apply Rgt_not_eq, Rdiv_lt_0_compat; lra).
    eapply Rle_lt_trans; [exact SB|]. apply (Rmult_lt_reg_r (IZR (2 ^ b - 1))); [lra|].
    replace (511 / 1024 * (B2R (c_gmax c) / IZR (2 ^ b - 1)) * IZR (2 ^ b - 1))%R with (511 / 1024 * B2R (c_gmax c))%R by (field; lra). lra. }
  split; apply ROW; intros j; apply U1; exact Hi.
Qed.

Lemma uniform_ok eps : existsb (fun b => negb (is_sram b)) cfg = true -> ideal cfg c -> uniform c cfg draw eps -> draws_ok c draw.
Proof.
  intros EX ID (U1 & U2) i Hi. pose proof (gmax_pos (ID EX)) as GP. apply existsb_exists in EX as (b & Hb & Eb).
  pose proof (U2 b Hb ltac:(now destruct (is_sram b))) as UB. pose proof (ok_dac _ _ _ OK) as Hres. pose proof (ok_size _ _ _ OK) as Hn.
  assert (P2 : 2 ^ 1 <= 2 ^ res) by (apply Z.pow_le_mono_r; lia). change (2 ^ 1) with 2 in P2.
  pose proof (cell_bits_le b) as CB. assert (P0 : 2 ^ 1 <= 2 ^ cell_bits b) by (apply Z.pow_le_mono_r; lia). change (2 ^ 1) with 2 in P0.
  assert (E0 : (0 <= eps)%R) by (destruct (U1 i 0%nat 0%nat 0%nat Hi) as (_ & _ & X & _); pose proof (Rabs_pos (B2R (n_pos (draw i) 0%nat 0%nat 0%nat))); lra).
  assert (X1 : (1 <= IZR (n * (2 ^ res - 1)))%R) by (apply IZR_le; nia).
  assert (X2 : (1 <= IZR (2 ^ cell_bits b - 1))%R) by (apply IZR_le; lia).
  assert (LE : (eps <= B2R (c_gmax c))%R).
  { assert (Y1 : (1024 * eps <= 1024 * eps * IZR (n * (2 ^ res - 1)))%R) by (rewrite <- (Rmult_1_r (1024 * eps)) at 1; apply Rmult_le_compat_l; lra).
    assert (Y2 : (1024 * eps * IZR (n * (2 ^ res - 1)) <= 1024 * eps * IZR (n * (2 ^ res - 1)) * IZR (2 ^ cell_bits b - 1))%R).
    { rewrite <- (Rmult_1_r (1024 * eps * IZR (n * (2 ^ res - 1)))) at 1. apply Rmult_le_compat_l; lra. }
    lra. }
  split; intros q r j; destruct (U1 i q r j Hi) as (F1 & F2 & G1 & G2); (split; [assumption|lra]).
Qed.
End Noise.

(** ** Units reached by clients *)
Section Clients.
Context (cfg : list bitcfg) (ww : Z) (c : mvmu_cfg) (OK : mvmu_ok cfg ww c).

Lemma nv_step_shaped u o : shaped cfg c u -> shaped cfg c (nv_step c u o).
Proof.
  intros S. destruct o; cbn [nv_step].
  - now apply (load_shaped cfg ww).
  - now apply (write_frame cfg ww).
  - now apply (noisy_frame cfg ww).
  - now apply read_frame.
  - now apply reset_frame.
Qed.
Lemma nv_run_shaped ops u : shaped cfg c u -> shaped cfg c (nv_run c u ops).
Proof. revert u; induction ops as [|o ops IH]; intros u S; [exact S|]. apply IH. now apply nv_step_shaped. Qed.
Lemma nv_step_holds W u o : nv_not_load o -> shaped cfg c u -> holds cfg c W u -> holds cfg c W (nv_step c u o).
Proof.
  intros NL S H. destruct o; cbn [nv_step]; [contradiction|..].
  - destruct (write_frame cfg ww c OK u start v S) as (_ & E1 & E2 & E3 & E4). eapply holds_frame; eassumption.
  - destruct (noisy_frame cfg ww c OK draw u S) as (_ & _ & E1 & E2 & E3 & E4 & _). eapply holds_frame; eassumption.
  - destruct (read_frame cfg c u start len S) as (_ & E1 & E2 & E3 & E4 & _). eapply holds_frame; eassumption.
  - destruct (reset_frame cfg c u S) as (_ & E1 & E2 & E3 & E4). eapply holds_frame; eassumption.
Qed.
Lemma nv_run_holds W ops u : Forall nv_not_load ops -> shaped cfg c u -> holds cfg c W u -> holds cfg c W (nv_run c u ops).
Proof.
  intros NL; revert u; induction NL as [|o ops Ho NL IH]; intros u S H; [exact H|].
  apply IH; [now apply nv_step_shaped|now apply nv_step_holds].
Qed.
Lemma nv_run_app u a b : nv_run c u (a ++ b) = nv_run c (nv_run c u a) b.
Proof. unfold nv_run. apply fold_left_app. Qed.
Lemma nreached_shaped u : nreached c u -> shaped cfg c u.
Proof. intros (ops & ->). apply nv_run_shaped. eapply init_shaped; eassumption. Qed.
Lemma nloaded_holds W u : ideal cfg c -> nloaded c W u -> holds cfg c W u /\ shaped cfg c u.
Proof.
  intros ID (before & after & HL & NL & ->). rewrite nv_run_app.
  pose proof (nv_run_shaped before _ (init_shaped cfg ww c OK)) as S0. set (u0 := nv_run c (mvmu_init c) before) in *.
  destruct (load_weights c u0 W) as [r u1] eqn:EL. cbn [fst] in HL. subst r.
  destruct (load_holds _ _ _ _ _ _ OK ID S0 EL) as (H & S & _).
  assert (E1 : nv_run c u0 [NLoad W] = u1) by (cbn; now rewrite EL).
  rewrite E1. split; [now apply nv_run_holds|now apply nv_run_shaped].
Qed.

Theorem noise_error W u draw r : ideal cfg c -> noise_size c -> nloaded c W u -> draws_ok c draw -> (r < length W)%nat ->
  exists e : nat -> nat -> Z,
    nth r (outputs (execute_mvm_noisy c draw u)) 0 = wrap32 (mvm_value_off c cfg (nth r W []) (inputs u) e) /\
    forall i k, (i < Z.to_nat (slices c))%nat -> (k < length cfg)%nat ->
      let p := pos_noise c cfg draw (inputs u) k r (Z.of_nat i) in let m := neg_noise c cfg draw (inputs u) k r (Z.of_nat i) in
      (is_sram (nth k cfg SLC) = true -> e i k = 0) /\
      (is_sram (nth k cfg SLC) = false -> (Rabs (IZR (e i k)) <= p + m + 1 + / 512)%R /\ ((p < 511 / 1024)%R -> (m < 511 / 1024)%R -> e i k = 0)).
Proof.
  intros ID SZ L D Hr. destruct (nloaded_holds W u ID L) as (H & S). rewrite (h_rows _ _ _ _ H) in Hr.
  exists (off cfg c draw W u r). split; [now apply (noisy_value cfg ww)|]. intros i k Hi Hk. cbv zeta. split.
  - intros Hb. unfold off. now rewrite Hb.
  - intros Hb. now apply (off_bound cfg ww).
Qed.

Theorem noise_deviation W u draw r : ideal cfg c -> noise_size c -> nloaded c W u -> draws_ok c draw -> (r < length W)%nat ->
  exists e, nth r (outputs (execute_mvm_noisy c draw u)) 0 = wrap32 (mvm_value c cfg (nth r W []) (inputs u) + e) /\
    (Rabs (IZR e) <= noise_bound c cfg draw (inputs u) r)%R.
Proof.
  intros ID SZ L D Hr. destruct (nloaded_holds W u ID L) as (H & S). rewrite (h_rows _ _ _ _ H) in Hr.
  exists (mvm_value_off c cfg (nth r W []) (inputs u) (off cfg c draw W u r) - mvm_value c cfg (nth r W []) (inputs u)). split.
  - replace (_ + (_ - _)) with (mvm_value_off c cfg (nth r W []) (inputs u) (off cfg c draw W u r)) by lia. now apply (noisy_value cfg ww).
  - now apply (noisy_deviation cfg ww).
Qed.

Theorem noise_quiet W u draw : ideal cfg c -> noise_size c -> nloaded c W u -> draws_ok c draw -> quiet c cfg draw (inputs u) ->
  execute_mvm_noisy c draw u = execute_mvm c u.
Proof. intros ID SZ L D Q. destruct (nloaded_holds W u ID L) as (H & S). now apply (noisy_quiet cfg ww c OK draw W u). Qed.

Lemma existsb_all_sram : existsb (fun b => negb (is_sram b)) cfg = false -> forall k, (k < length cfg)%nat -> is_sram (nth k cfg SLC) = true.
Proof.
  intros EX k Hk. destruct (is_sram (nth k cfg SLC)) eqn:E; [reflexivity|]. exfalso.
  assert (existsb (fun b => negb (is_sram b)) cfg = true) by (apply existsb_exists; exists (nth k cfg SLC); split; [now apply nth_In|now rewrite E]). congruence.
Qed.

Theorem noise_uniform W u draw eps : ideal cfg c -> noise_size c -> nloaded c W u -> uniform c cfg draw eps ->
  outputs (execute_mvm_noisy c draw u) = map (fun row => wrap32 (mvm_value c cfg row (inputs u))) W.
Proof.
  intros ID SZ L U. destruct (nloaded_holds W u ID L) as (H & S). destruct (existsb (fun b => negb (is_sram b)) cfg) eqn:EX.
  - rewrite (noise_quiet W u draw ID SZ L (uniform_ok cfg ww c OK draw eps EX ID U) (uniform_quiet cfg ww c OK draw u eps ID S U)). now apply (mvm_exact cfg ww).
  - destruct (noisy_frame cfg ww c OK draw u S) as (A & _). apply (list_ext 0).
    + rewrite map_length, (h_rows _ _ _ _ H). apply (sh_outl _ _ _ A).
    + intros r Hr. unfold outputs in Hr. rewrite (sh_outl _ _ _ A) in Hr. rewrite (nth_map_lt _ _ _ []) by (rewrite (h_rows _ _ _ _ H); exact Hr).
      rewrite (noisy_value cfg ww c OK draw W u r ID H S Hr). f_equal. unfold mvm_value_off, mvm_value. apply sum_below_ext. intros i Hi. f_equal.
      apply sum_below_ext. intros k Hk. unfold off. rewrite (existsb_all_sram EX k Hk). now rewrite Z.add_0_r.
Qed.

(** ** Activity *)
Lemma b2z_range b : 0 <= b2z b <= 1. Proof. destruct b; cbn; lia. Qed.
Lemma sum_below_range m f a : (forall i, (i < m)%nat -> 0 <= f i <= a) -> 0 <= sum_below m f <= Z.of_nat m * a.
Proof.
  induction m as [|m IH]; intros H; [cbn; lia|]. rewrite sum_below_S. pose proof (IH (fun i Hi => H i ltac:(lia))). pose proof (H m ltac:(lia)). lia.
Qed.
Lemma sat_row_range xp xn r : 0 <= sat_row cfg c xp xn r <= rrams cfg.
Proof.
  unfold sat_row. assert (E : rrams cfg = sum_below (length cfg) (fun k => if is_sram (nth k cfg SLC) then 0 else 1)).
  { unfold rrams, zlen. clear. induction cfg as [|b l IH] using rev_ind; [reflexivity|]. rewrite filter_app, !app_length. cbn [length].
    rewrite Nat.add_1_r, sum_below_S, app_nth2, Nat.sub_diag by lia. cbn [nth filter].
    rewrite (sum_below_ext _ _ (fun k => if is_sram (nth k l SLC) then 0 else 1)) by (intros i Hi; now rewrite app_nth1). rewrite <- IH.
    destruct (is_sram b); cbn [negb length]; lia. }
  rewrite E. generalize (length cfg). intros m. induction m as [|m IH]; [cbn; lia|]. rewrite !sum_below_S.
  destruct (is_sram (nth m cfg SLC)); [lia|]. pose proof (b2z_range (adc_overflows c (adc_int (adc_step c (cell_bits (nth m cfg SLC)))
                     (nth r (nth (rk cfg m) xp []) f0) (nth r (nth (rk cfg m) xn []) f0)))). lia.
Qed.

Theorem noise_activity u draw : nreached c u ->
  let u' := execute_mvm_noisy c draw u in let v := execute_mvm c u in
  mv_in u' = mv_in v /\ same_cells u' u /\ out_size (mv_out u') = out_size (mv_out v) /\ length (outputs u') = length (outputs v) /\ out_stat (mv_out u') = out_stat (mv_out v) /\
  (exists t, mv_stat u' = MkMvStats (dac_conversions (mv_stat v)) (dac_active_cycles (mv_stat v)) (rram_mvm_operations (mv_stat v))
     (snh_pos_samples (mv_stat v)) (snh_neg_samples (mv_stat v)) (mux_pos_selections (mv_stat v)) (mux_neg_selections (mv_stat v))
     (adc_conversions (mv_stat v)) (adc_overflow_times (mv_stat u) + t) (adc_active_cycles (mv_stat v))
     (sram_mac_operations (mv_stat v)) (mux_sram_selections (mv_stat v)) (sna_operations (mv_stat v)) /\
     0 <= t <= slices c * c_size c * rrams cfg).
Proof.
  intros R. pose proof (nreached_shaped u R) as S. cbv zeta. pose proof (slices_nonneg _ _ _ OK) as SN. pose proof (ok_size _ _ _ OK) as Hn.
  destruct (noisy_frame cfg ww c OK draw u S) as (A1 & A2 & A3 & A4 & A5 & A6 & A7 & A8 & A9 & A10).
  destruct (mvm_frame cfg ww c OK u S) as (B1 & B2 & B3 & B4 & B5 & B6 & B7).
  destruct (mvm_stats cfg ww c OK u S) as (B8 & B9 & B10). cbv zeta in B8.
  split; [|split; [|split; [|split; [|split]]]].
  - pose proof (sh_in _ _ _ A1) as G1. pose proof (sh_in _ _ _ B1) as G2. unfold inputs in *.
    destruct (mv_in (execute_mvm_noisy c draw u)) as [s1 r1 t1], (mv_in (execute_mvm c u)) as [s2 r2 t2]. cbn [in_size in_regs in_stat] in *. congruence.
  - repeat split; assumption.
  - now rewrite (sh_out _ _ _ A1), (sh_out _ _ _ B1).
  - unfold outputs. now rewrite (sh_outl _ _ _ A1), (sh_outl _ _ _ B1).
  - congruence.
  - exists (sum_below (Z.to_nat (slices c)) (noisy_sat cfg c draw u)). split.
    + rewrite A8, B8. reflexivity.
    + pose proof (sum_below_range (Z.to_nat (slices c)) (noisy_sat cfg c draw u) (c_size c * rrams cfg)) as Q. rewrite Z2Nat.id in Q by assumption.
      rewrite <- Z.mul_assoc. apply Q. intros i Hi. unfold noisy_sat.
      pose proof (sum_below_range (Z.to_nat (c_size c)) (sat_row cfg c (xpos_of c (noisy_unit u (draw (Z.of_nat i))) (map (in_slice (c_dac_res c) (Z.of_nat i)) (inputs u)))
         (xneg_of c (noisy_unit u (draw (Z.of_nat i))) (map (in_slice (c_dac_res c) (Z.of_nat i)) (inputs u)))) (rrams cfg)) as Q2.
      rewrite Z2Nat.id in Q2 by lia. apply Q2. intros r _. apply sat_row_range.
Qed.
End Clients.
