(** Proofs about the loading of an activation. *)
From Verif Require Import PyBase PyLemmas ConfigModel FloatModel FloatProofs MemoryModel MemoryProofs VfuModel MvmuModel CoreModel DramModel DramProofs RouterModel SystemModel LoaderModel LoaderSpec.
From Flocq Require Import Core.Core IEEE754.BinarySingleNaN.
From Coq Require Import Reals Lra.
Open Scope Z_scope.

Lemma Ztrunc_int32 r : (- IZR (2 ^ 31) - 1 < r < IZR (2 ^ 31))%R -> int32 (Ztrunc r).
Proof.
  intros (A & B). unfold int32. destruct (Rle_or_lt 0 r) as [P|P].
  - rewrite Ztrunc_floor by exact P. pose proof (Zfloor_lb r) as L. assert (0 <= Zfloor r) by (apply Zfloor_lub; exact P).
    assert (H' : (IZR (Zfloor r) < IZR (2 ^ 31))%R) by lra. apply lt_IZR in H'. lia.
  - rewrite Ztrunc_ceil by lra. pose proof (Zceil_ub r) as U. assert (Zceil r <= 0) by (apply Zceil_glb; simpl; lra).
    assert (H' : (IZR (- 2 ^ 31 - 1) < IZR (Zceil r))%R) by (rewrite minus_IZR, opp_IZR; lra). apply lt_IZR in H'. lia.
Qed.
Lemma Btrunc_R x : Btrunc x = Ztrunc (@B2R prec64 emax64 x).
Proof.
  apply eq_IZR. rewrite (Btrunc_correct prec64 emax64 _). unfold round, scaled_mantissa, F2R, cexp, FIX_exp. cbn [Fnum Fexp].
  change (bpow radix2 (- 0)) with 1%R. change (bpow radix2 0) with 1%R. now rewrite !Rmult_1_r.
Qed.
Lemma IZR_pow2_bpow f : 0 <= f -> IZR (2 ^ f) = bpow radix2 f.
Proof. intros. now rewrite <- (IZR_Zpower radix2) by assumption. Qed.
Lemma fixed_float frac x : 0 <= frac <= 1023 -> is_finite x = true -> (- IZR (2 ^ 31) - 1 < B2R x * IZR (2 ^ frac) < IZR (2 ^ 31))%R ->
  wrap32 (Btrunc (fmul x (f_of_Z (Z.shiftl 1 frac)))) = Ztrunc (B2R x * IZR (2 ^ frac)).
Proof.
  intros F X H. rewrite pow2_shiftl by lia. pose proof (fmul_pow2 x frac X F) as M. rewrite (IZR_pow2_bpow frac) in * by lia.
  rewrite Rlt_bool_true in M.
  - destruct M as (_ & E). rewrite Btrunc_R, E. apply wrap32_id. now apply Ztrunc_int32.
  - apply Rlt_le_trans with (bpow radix2 32); [|apply bpow_le; lia].
    change (bpow radix2 32) with (IZR (2 ^ 32)). replace (2 ^ 32) with (2 * 2 ^ 31) by reflexivity. rewrite mult_IZR.
    assert (1 <= IZR (2 ^ 31))%R by (apply IZR_le; lia). apply Rabs_def1; lra.
Qed.
Lemma fixed_int frac z : 0 <= frac -> (- IZR (2 ^ 31) - 1 < IZR z * IZR (2 ^ frac) < IZR (2 ^ 31))%R ->
  wrap32 (wrap64 (z * Z.shiftl 1 frac)) = Ztrunc (IZR z * IZR (2 ^ frac)).
Proof.
  intros F H. rewrite pow2_shiftl by lia. pose proof (Ztrunc_int32 _ H) as I. rewrite <- mult_IZR in I |- *. rewrite Ztrunc_IZR in I |- *.
  set (p := z * 2 ^ frac) in *. unfold int32 in I. unfold wrap32, wrap64. lia.
Qed.
Lemma zlen_fixed frac v : zlen (fixed_activation frac v) = vlen v.
Proof. destruct v; unfold zlen; cbn; now rewrite map_length. Qed.
Lemma fixed_at frac v i : 0 <= frac <= 1023 -> fits frac v -> 0 <= i < vlen v ->
  znth 0 (fixed_activation frac v) i = Ztrunc (znth 0%R (reals_of v) i * IZR (2 ^ frac)).
Proof.
  intros F (FI & R) H. destruct v as [l|l]; cbn [vlen fixed_activation reals_of all_finite] in *; unfold znth, zlen in *.
  - assert (L : (Z.to_nat i < List.length l)%nat) by lia.
    set (z := B754_zero false : f64). rewrite nth_indep with (d' := wrap32 (Btrunc (fmul z (f_of_Z (Z.shiftl 1 frac))))) by (now rewrite map_length).
    rewrite map_nth with (f := fun x => wrap32 (Btrunc (fmul x (f_of_Z (Z.shiftl 1 frac))))).
    change 0%R with (B2R z). rewrite map_nth. apply fixed_float; [exact F| |].
    + rewrite Forall_forall in FI. apply FI. now apply nth_In.
    + rewrite Forall_forall in R. apply R. apply in_map. now apply nth_In.
  - assert (L : (Z.to_nat i < List.length l)%nat) by lia.
    rewrite nth_indep with (d' := wrap32 (wrap64 (0 * Z.shiftl 1 frac))) by (now rewrite map_length).
    rewrite map_nth with (f := fun z => wrap32 (wrap64 (z * Z.shiftl 1 frac))).
    rewrite map_nth with (d := 0). apply fixed_int; [lia|]. rewrite Forall_forall in R. apply R. apply in_map. now apply nth_In.
Qed.
Lemma fixed_int32 frac v : Forall int32 (fixed_activation frac v).
Proof. destruct v; cbn; apply Forall_forall; intros z H; apply in_map_iff in H; destruct H as (y & <- & _); apply wrap32_int32. Qed.
Lemma map_wrap_id l : Forall int32 l -> map wrap32 l = l.
Proof. induction 1; cbn; [reflexivity|]. now rewrite wrap32_id, IHForall. Qed.

Lemma activation_ok frac v d : 0 <= frac <= 1023 -> fits frac v -> vlen v <= msize (d_mem d) ->
  zlen (cells (d_mem d)) = msize (d_mem d) -> zlen (d_valid d) = msize (d_mem d) ->
  activation_loaded frac v d (load_activation frac v d).
Proof.
  intros F R L C V. unfold load_activation, dc_preload. rewrite zlen_fixed. destruct (msize (d_mem d) <? vlen v) eqn:E; [lia|].
  rewrite map_wrap_id by apply fixed_int32. assert (N : 0 <= vlen v) by (rewrite <- (zlen_fixed frac); apply zlen_nonneg).
  unfold activation_loaded. cbn [d_mem cells d_valid].
  split; [|split; [|split; [|split; [|split; [|split]]]]].
  - intros i H. rewrite znth_blit by (rewrite ?zlen_fixed; lia). rewrite zlen_fixed.
    destruct ((0 <=? i) && (i <? 0 + vlen v)) eqn:B; [|lia]. rewrite Z.sub_0_r. now apply fixed_at.
  - intros i H. rewrite znth_blit by (rewrite ?zlen_fixed; lia). rewrite zlen_fixed.
    destruct ((0 <=? i) && (i <? 0 + vlen v)) eqn:B; [lia|reflexivity].
  - intros i H. rewrite znth_set_valid by lia. rewrite !slice_exact by lia.
    match goal with |- (if ?b then _ else _) = _ => destruct b eqn:B end; [reflexivity|]. lia.
  - intros i H. destruct (Z_lt_dec i (zlen (d_valid d))) as [Y|Y].
    + rewrite znth_set_valid by lia. rewrite !slice_exact by lia. match goal with |- (if ?b then _ else _) = _ => destruct b eqn:B end; [|reflexivity]. lia.
    + unfold znth. rewrite !nth_overflow; [reflexivity| |]; pose proof (zlen_set_valid (d_valid d) 0 (vlen v)) as Q; unfold zlen in *; lia.
  - rewrite zlen_blit; [reflexivity|lia|rewrite zlen_fixed; lia].
  - apply zlen_set_valid.
  - eexists. reflexivity.
Qed.
Lemma activation_long frac v d : msize (d_mem d) < vlen v -> load_activation frac v d = d.
Proof. intros H. unfold load_activation, dc_preload. rewrite zlen_fixed. destruct (msize (d_mem d) <? vlen v) eqn:E; [reflexivity|lia]. Qed.
