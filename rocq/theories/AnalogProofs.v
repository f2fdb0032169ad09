(** Error analysis of the float64 analog path. *)
From Verif Require Import PyBase PyLemmas FloatModel.
From Flocq Require Import IEEE754.BinarySingleNaN Core Relative.
From Coq Require Import Permutation Reals Lra Psatz ZifyNat.
Open Scope R_scope.

Notation fexp64 := (SpecFloat.fexp prec64 emax64).
Notation rnd64 := (round radix2 fexp64 ZnearestE).

Definition u64 : R := bpow radix2 (-53).

Lemma u64_pos : 0 < u64. Proof. apply bpow_gt_0. Qed.
Lemma u64_small : u64 <= /1024.
Proof. unfold u64. change (/1024) with (bpow radix2 (-10)). apply bpow_le. lia. Qed.

Definition fin (x : f64) : Prop := is_finite x = true.

(** A non-negative real that is zero or of moderate size. *)
Definition moderate (y : R) : Prop := y = 0 \/ bpow radix2 (-900) <= y <= bpow radix2 900.

Lemma moderate_nonneg y : moderate y -> 0 <= y.
Proof. intros [->|[H _]]; [lra|]. pose proof (bpow_gt_0 radix2 (-900)). lra. Qed.

Lemma fexp64_FLT : forall e, fexp64 e = FLT_exp (-1074) 53 e.
Proof. intros e. reflexivity. Qed.

#[local] Instance valid64 : Valid_exp fexp64.
Proof. apply (fexp_correct prec64 emax64). exact eq_refl. Qed.

Lemma rnd64_moderate y : moderate y -> y * (1 - u64) <= rnd64 y <= y * (1 + u64).
Proof.
  intros [->|[H1 H2]].
  - rewrite round_0 by apply valid_rnd_N. lra.
  - assert (Hy : 0 < y) by (pose proof (bpow_gt_0 radix2 (-900)); lra).
    destruct (relative_error_N_FLT_ex radix2 (-1074) 53 eq_refl (fun x => negb (Z.even x)) y) as (eps & He & Hr).
    { rewrite Rabs_pos_eq by lra. eapply Rle_trans; [|exact H1]. apply bpow_le. lia. }
    change (round radix2 (FLT_exp (-1074) 53) ZnearestE y) with (rnd64 y) in Hr.
    rewrite Hr.
    assert (Hu : / 2 * bpow radix2 (- (53) + 1) = u64).
    { unfold u64. change (/2) with (bpow radix2 (-1)). rewrite <- bpow_plus. reflexivity. }
    rewrite Hu in He. apply Rabs_le_inv in He. split; apply Rmult_le_compat_l; lra.
Qed.

Lemma rnd64_no_overflow y : moderate y -> Rlt_bool (Rabs (rnd64 y)) (bpow radix2 emax64) = true.
Proof.
  intros H. apply Rlt_bool_true. pose proof (rnd64_moderate y H) as [L U].
  pose proof (moderate_nonneg y H). pose proof u64_pos. pose proof u64_small.
  rewrite Rabs_pos_eq by nra.
  destruct H as [->|[_ H]]; [pose proof (bpow_gt_0 radix2 emax64); lra|].
  apply Rle_lt_trans with (bpow radix2 900 * 2); [nra|].
  change 2 with (bpow radix2 1). rewrite <- bpow_plus. apply bpow_lt. unfold emax64. lia.
Qed.

(** x is finite and within k roundings of the non-negative real r. *)
Definition approx (k : nat) (x : f64) (r : R) : Prop :=
  fin x /\ 0 <= r /\ r * (1 - u64) ^ k <= B2R x <= r * (1 + u64) ^ k.

Lemma pow_lo_pos k : 0 < (1 - u64) ^ k.
Proof. apply pow_lt. pose proof u64_small. pose proof u64_pos. lra. Qed.
Lemma pow_lo_le1 k : (1 - u64) ^ k <= 1.
Proof.
  induction k as [|k IH]; cbn [pow]; [lra|]. pose proof (pow_lo_pos k). pose proof u64_pos. pose proof u64_small. nra.
Qed.
Lemma pow_hi_ge1 k : 1 <= (1 + u64) ^ k.
Proof. induction k as [|k IH]; cbn [pow]; [lra|]. pose proof u64_pos. nra. Qed.

Lemma pow_lo_mono j k : (j <= k)%nat -> (1 - u64) ^ k <= (1 - u64) ^ j.
Proof.
  intros H. replace k with (j + (k - j))%nat by lia. rewrite pow_add.
  pose proof (pow_lo_pos j). pose proof (pow_lo_le1 (k - j)). nra.
Qed.
Lemma pow_hi_mono j k : (j <= k)%nat -> (1 + u64) ^ j <= (1 + u64) ^ k.
Proof.
  intros H. replace k with (j + (k - j))%nat by lia. rewrite pow_add.
  pose proof (pow_hi_ge1 j). pose proof (pow_hi_ge1 (k - j)). nra.
Qed.

Lemma approx_weaken j k x r : (j <= k)%nat -> approx j x r -> approx k x r.
Proof.
  intros H (F & P & L & U). split; [exact F|split; [exact P|]].
  pose proof (pow_lo_mono j k H). pose proof (pow_hi_mono j k H). split; nra.
Qed.

Lemma approx_exact x : fin x -> 0 <= B2R x -> approx 0 x (B2R x).
Proof. intros F P. split; [exact F|split; [exact P|]]. cbn. lra. Qed.

Lemma approx_nonneg k x r : approx k x r -> 0 <= B2R x.
Proof. intros (F & P & L & U). pose proof (pow_lo_pos k). nra. Qed.

Lemma approx_zero k x : approx k x 0 -> B2R x = 0.
Proof. intros (F & P & L & U). lra. Qed.

Lemma bernoulli_lo k : 1 - INR k * u64 <= (1 - u64) ^ k.
Proof.
  induction k as [|k IH]; [cbn; lra|]. rewrite S_INR. cbn [pow].
  pose proof u64_pos. pose proof u64_small. pose proof (pos_INR k).
  pose proof (pow_lo_le1 k). nra.
Qed.

Lemma pow_prod_le1 k : (1 + u64) ^ k * (1 - u64) ^ k <= 1.
Proof.
  rewrite <- Rpow_mult_distr. replace 1 with (1 ^ k) at 3 by apply pow1.
  apply pow_incr. pose proof u64_pos. pose proof u64_small. nra.
Qed.

Lemma bernoulli_hi k : INR k * u64 <= / 2 -> (1 + u64) ^ k <= 1 + 2 * (INR k * u64).
Proof.
  intros H. pose proof (bernoulli_lo k) as L. pose proof (pow_prod_le1 k) as P.
  pose proof (pow_lo_pos k). pose proof (pow_hi_ge1 k). pose proof (pos_INR k). pose proof u64_pos.
  set (e := INR k * u64) in *. assert (0 <= e) by (unfold e; nra).
  assert ((1 + u64) ^ k * (1 - e) <= 1) by nra. nra.
Qed.

(** Rounding of a real that is itself within k of a moderate r; (1±u)^k stays within a factor 2. *)
Definition kok (k : nat) : Prop := INR k * u64 <= / 4.

Lemma kok_le j k : (j <= k)%nat -> kok k -> kok j.
Proof. unfold kok. intros H K. apply le_INR in H. pose proof u64_pos. nra. Qed.

Definition moderate' (r : R) : Prop := r = 0 \/ bpow radix2 (-800) <= r <= bpow radix2 800.

Lemma near_moderate k r y : kok k -> moderate' r -> r * (1 - u64) ^ k <= y <= r * (1 + u64) ^ k -> moderate y.
Proof.
  intros K [->|[L U]] [Hl Hu]; [left; lra|right].
  pose proof (bernoulli_lo k). unfold kok in K. pose proof (bernoulli_hi k ltac:(lra)).
  assert (0 < r) by (pose proof (bpow_gt_0 radix2 (-800)); lra).
  split.
  - apply Rle_trans with (bpow radix2 (-800) * / 2).
    + change (/2) with (bpow radix2 (-1)). rewrite <- bpow_plus. apply bpow_le. lia.
    + nra.
  - apply Rle_trans with (bpow radix2 800 * 2).
    + nra.
    + change 2 with (bpow radix2 1). rewrite <- bpow_plus. apply bpow_le. lia.
Qed.

Lemma approx_round k r y (x : f64) :
  kok k -> moderate' r -> 0 <= r ->
  r * (1 - u64) ^ k <= y <= r * (1 + u64) ^ k ->
  fin x -> B2R x = rnd64 y -> approx (S k) x r.
Proof.
  intros K M P Hy F E. split; [exact F|split; [exact P|]]. rewrite E.
  pose proof (rnd64_moderate y (near_moderate k r y K M Hy)) as [L U].
  cbn [pow]. pose proof u64_pos. pose proof u64_small.
  assert (0 <= y) by (pose proof (pow_lo_pos k); nra). split.
  - apply Rle_trans with (y * (1 - u64)); [|exact L]. nra.
  - apply Rle_trans with (y * (1 + u64)); [exact U|]. nra.
Qed.

Lemma approx_prod_bounds j k x a y b :
  approx j x a -> approx k y b ->
  a * b * (1 - u64) ^ (j + k) <= B2R x * B2R y <= a * b * (1 + u64) ^ (j + k).
Proof.
  intros (Fx & Pa & Lx & Ux) (Fy & Pb & Ly & Uy). rewrite !pow_add.
  pose proof (pow_lo_pos j). pose proof (pow_lo_pos k). pose proof (pow_hi_ge1 j). pose proof (pow_hi_ge1 k).
  assert (0 <= a * (1 - u64) ^ j) by nra. assert (0 <= b * (1 - u64) ^ k) by nra.
  split.
  - replace (a * b * ((1 - u64) ^ j * (1 - u64) ^ k)) with ((a * (1 - u64) ^ j) * (b * (1 - u64) ^ k)) by ring.
    apply Rmult_le_compat; assumption.
  - replace (a * b * ((1 + u64) ^ j * (1 + u64) ^ k)) with ((a * (1 + u64) ^ j) * (b * (1 + u64) ^ k)) by ring.
    apply Rmult_le_compat; lra.
Qed.

Lemma approx_mul j k x a y b :
  kok (j + k) -> moderate' (a * b) -> approx j x a -> approx k y b -> approx (S (j + k)) (fmul x y) (a * b).
Proof.
  intros K M Hx Hy. pose proof (approx_prod_bounds _ _ _ _ _ _ Hx Hy) as B.
  assert (P : 0 <= a * b) by (destruct Hx as (_ & ? & _), Hy as (_ & ? & _); nra).
  pose proof (Bmult_correct prec64 emax64 _ _ mode_NE x y) as C.
  cbn [round_mode] in C.
  rewrite rnd64_no_overflow in C by (eapply near_moderate; eauto).
  destruct C as (E & F & _). destruct Hx as (Fx & _), Hy as (Fy & _).
  eapply approx_round; eauto. unfold fin, fmul. rewrite F. unfold fin in *. now rewrite Fx, Fy.
Qed.

Lemma inv_lo k : / (1 - u64) ^ k <= (1 + u64) ^ (2 * k).
Proof.
  pose proof (pow_lo_pos k). apply (Rmult_le_reg_l ((1 - u64) ^ k)); [assumption|].
  rewrite Rinv_r by lra. rewrite pow_mult. rewrite <- Rpow_mult_distr.
  rewrite <- (pow1 k) at 1. apply pow_incr. pose proof u64_pos. pose proof u64_small.
  split; [lra|]. cbn [pow]. nra.
Qed.
Lemma inv_hi k : (1 - u64) ^ (2 * k) <= / (1 + u64) ^ k.
Proof.
  pose proof (pow_hi_ge1 k). apply (Rmult_le_reg_l ((1 + u64) ^ k)); [lra|].
  rewrite Rinv_r by lra. apply Rle_trans with ((1 + u64) ^ k * (1 - u64) ^ k); [|apply pow_prod_le1].
  apply Rmult_le_compat_l; [lra|]. apply pow_lo_mono. lia.
Qed.

Lemma approx_div j k x a y b :
  kok (j + 2 * k) -> moderate' (a / b) -> 0 < b -> approx j x a -> approx k y b ->
  approx (S (j + 2 * k)) (fdiv x y) (a / b).
Proof.
  intros K M Pb (Fx & Pa & Lx & Ux) (Fy & _ & Ly & Uy).
  assert (Py : 0 < B2R y) by (pose proof (pow_lo_pos k); nra).
  assert (Bd : a / b * (1 - u64) ^ (j + 2 * k) <= B2R x / B2R y <= a / b * (1 + u64) ^ (j + 2 * k)).
  { rewrite !pow_add. pose proof (pow_lo_pos j). pose proof (pow_hi_ge1 j).
    assert (I1 : / b * (1 - u64) ^ (2 * k) <= / B2R y).
    { apply Rle_trans with (/ (b * (1 + u64) ^ k)).
      - rewrite Rinv_mult. apply Rmult_le_compat_l; [left; now apply Rinv_0_lt_compat|apply inv_hi].
      - apply Rinv_le_contravar; assumption. }
    assert (I2 : / B2R y <= / b * (1 + u64) ^ (2 * k)).
    { apply Rle_trans with (/ (b * (1 - u64) ^ k)).
      - apply Rinv_le_contravar; [|assumption]. pose proof (pow_lo_pos k). nra.
      - rewrite Rinv_mult. apply Rmult_le_compat_l; [left; now apply Rinv_0_lt_compat|apply inv_lo]. }
    assert (0 < / b) by (now apply Rinv_0_lt_compat).
    assert (0 < / B2R y) by (now apply Rinv_0_lt_compat).
    pose proof (pow_lo_pos (2 * k)). pose proof (pow_hi_ge1 (2 * k)).
    unfold Rdiv. split.
    - replace (a * / b * ((1 - u64) ^ j * (1 - u64) ^ (2 * k)))
        with ((a * (1 - u64) ^ j) * (/ b * (1 - u64) ^ (2 * k))) by ring.
      apply Rmult_le_compat; nra.
    - replace (a * / b * ((1 + u64) ^ j * (1 + u64) ^ (2 * k)))
        with ((a * (1 + u64) ^ j) * (/ b * (1 + u64) ^ (2 * k))) by ring.
      apply Rmult_le_compat; nra. }
  assert (P : 0 <= a / b).
  { unfold Rdiv. assert (0 < / b) by (now apply Rinv_0_lt_compat). nra. }
  pose proof (Bdiv_correct prec64 emax64 _ _ mode_NE x y ltac:(lra)) as C.
  cbn [round_mode] in C.
  rewrite rnd64_no_overflow in C by (eapply near_moderate; eauto).
  destruct C as (E & F & _). eapply approx_round; eauto. unfold fin, fdiv. rewrite F. exact Fx.
Qed.

Lemma approx_add k x a y b :
  kok k -> moderate' (a + b) -> approx k x a -> approx k y b -> approx (S k) (fadd x y) (a + b).
Proof.
  intros K M (Fx & Pa & Lx & Ux) (Fy & Pb & Ly & Uy).
  assert (Bd : (a + b) * (1 - u64) ^ k <= B2R x + B2R y <= (a + b) * (1 + u64) ^ k) by lra.
  pose proof (Bplus_correct prec64 emax64 _ _ mode_NE x y Fx Fy) as C.
  cbn [round_mode] in C.
  rewrite rnd64_no_overflow in C by (eapply near_moderate; eauto).
  destruct C as (E & F & _). eapply approx_round; eauto; lra.
Qed.

Lemma approx_fma j1 j2 k x a y b z c :
  kok k -> (j1 + j2 <= k)%nat -> moderate' (a * b + c) ->
  approx j1 x a -> approx j2 y b -> approx k z c -> approx (S k) (ffma x y z) (a * b + c).
Proof.
  intros K J M Hx Hy (Fz & Pc & Lz & Uz).
  pose proof (approx_prod_bounds _ _ _ _ _ _ Hx Hy) as [B1 B2].
  assert (P : 0 <= a * b) by (destruct Hx as (_ & ? & _), Hy as (_ & ? & _); nra).
  pose proof (pow_lo_mono _ _ J). pose proof (pow_hi_mono _ _ J).
  assert (Bd : (a * b + c) * (1 - u64) ^ k <= B2R x * B2R y + B2R z <= (a * b + c) * (1 + u64) ^ k).
  { split; nra. }
  destruct Hx as (Fx & _), Hy as (Fy & _).
  pose proof (Bfma_correct prec64 emax64 _ _ mode_NE x y z Fx Fy Fz) as C.
  cbn [round_mode] in C. cbv zeta in C.
  rewrite rnd64_no_overflow in C by (eapply near_moderate; eauto).
  destruct C as (E & F & _). eapply approx_round; eauto. lra.
Qed.

(** Integers. *)
Lemma rnd64_IZR z : (Z.abs z <= 2 ^ 53)%Z -> rnd64 (IZR z) = IZR z.
Proof.
  intros H. apply round_generic; [apply valid_rnd_N|].
  change (generic_format radix2 (FLT_exp (-1074) 53) (IZR z)).
  apply generic_format_FLT.
  destruct (Z.eq_dec (Z.abs z) (2 ^ 53)) as [E|E].
  - exists (Float radix2 (Z.sgn z) 53).
    + unfold F2R; cbn [Fnum Fexp].
      replace (bpow radix2 53) with (IZR (2 ^ 53)) by reflexivity. rewrite <- mult_IZR. f_equal. lia.
    + cbn [Fnum]. assert (Z.abs (Z.sgn z) <= 1)%Z by lia. apply Z.le_lt_trans with 1%Z; [assumption|reflexivity].
    + cbn [Fexp]. lia.
  - exists (Float radix2 z 0).
    + unfold F2R; cbn. ring.
    + cbn [Fnum]. change (radix_val radix2 ^ 53)%Z with (2 ^ 53)%Z. lia.
    + cbn [Fexp]. lia.
Qed.

Lemma f_of_Z_correct z : (Z.abs z <= 2 ^ 53)%Z -> fin (f_of_Z z) /\ B2R (f_of_Z z) = IZR z.
Proof.
  intros H. unfold f_of_Z.
  pose proof (binary_normalize_correct prec64 emax64 _ _ mode_NE z 0 false) as C. cbv zeta in C.
  assert (E : F2R (Float radix2 z 0) = IZR z) by (unfold F2R; cbn; ring).
  cbn [round_mode] in C. rewrite E in C.
  rewrite rnd64_IZR in C by assumption.
  rewrite Rlt_bool_true in C.
  - destruct C as (C1 & C2 & _). split; assumption.
  - rewrite <- abs_IZR. apply Rle_lt_trans with (IZR (2 ^ 53)); [now apply IZR_le|].
    change (IZR (2 ^ 53)) with (bpow radix2 53). apply bpow_lt. reflexivity.
Qed.

Lemma approx_f_of_Z z : (0 <= z <= 2 ^ 53)%Z -> approx 0 (f_of_Z z) (IZR z).
Proof.
  intros H. destruct (f_of_Z_correct z ltac:(lia)) as (F & E). rewrite <- E. apply approx_exact; [exact F|].
  rewrite E. apply IZR_le. lia.
Qed.

Lemma fnearest_R x : fnearest x = ZnearestE (B2R x).
Proof.
  unfold fnearest. apply eq_IZR. rewrite (Btrunc_correct prec64 emax64 _).
  destruct (Bnearbyint_correct prec64 emax64 _ mode_NE x) as (E & _ & _). rewrite E. cbn [round_mode].
  assert (G : forall y rn, Valid_rnd rn -> round radix2 (FIX_exp 0) rn y = IZR (rn y)).
  { intros y rn _. unfold round, scaled_mantissa, cexp, FIX_exp, F2R; cbn. rewrite !Rmult_1_r. reflexivity. }
  rewrite !G; try apply valid_rnd_N; try apply valid_rnd_ZR. now rewrite Ztrunc_IZR.
Qed.

Lemma fnearest_approx k x N :
  approx k x (IZR N) -> (0 <= N)%Z -> INR k * IZR N < bpow radix2 51 -> INR k * u64 <= / 4 -> fnearest x = N.
Proof.
  intros (F & P & L & U) HN Hk K. rewrite fnearest_R. apply Znearest_imp.
  pose proof (bernoulli_lo k). pose proof (bernoulli_hi k ltac:(lra)).
  apply IZR_le in HN. 
  assert (E : INR k * IZR N * u64 < / 4).
  { apply Rlt_le_trans with (bpow radix2 51 * u64).
    - apply Rmult_lt_compat_r; [apply u64_pos|exact Hk].
    - unfold u64. rewrite <- bpow_plus. change (/4) with (bpow radix2 (-2)). apply bpow_le. lia. }
  set (e := INR k * u64) in *. replace (INR k * IZR N * u64) with (IZR N * e) in E by (unfold e; ring).
  apply Rabs_lt. nra.
Qed.

(** Sign and rectification. *)
Lemma B2R_f0 : B2R f0 = 0 /\ fin f0. Proof. split; reflexivity. Qed.
Lemma f1_correct : fin f1 /\ B2R f1 = 1.
Proof. apply (f_of_Z_correct 1). lia. Qed.

Lemma flt_R x y : fin x -> fin y -> flt x y = Rlt_bool (B2R x) (B2R y).
Proof. intros. now apply Bltb_correct. Qed.

Lemma fsign_spec w : fin w ->
  fin (fsign w) /\
  ((0 < B2R w /\ B2R (fsign w) = 1) \/ (B2R w < 0 /\ B2R (fsign w) = -1) \/ (B2R w = 0 /\ B2R (fsign w) = 0)).
Proof.
  intros F. unfold fsign.
  assert (N : is_nan w = false) by (destruct w; try reflexivity; discriminate F).
  rewrite N. rewrite !flt_R by (try assumption; reflexivity). change (B2R f0) with 0.
  destruct (Rlt_bool_spec (B2R w) 0) as [H|H].
  - destruct (f_of_Z_correct (-1) ltac:(lia)) as (F1 & E1). rewrite E1. auto.
  - destruct (Rlt_bool_spec 0 (B2R w)) as [H'|H'].
    + destruct f1_correct as (F1 & E1). rewrite E1. auto.
    + split; [reflexivity|]. right; right. split; [lra|reflexivity].
Qed.

Lemma rnd64_B2R (x : f64) : rnd64 (B2R x) = B2R x.
Proof. apply round_generic; [apply valid_rnd_N|]. apply generic_format_B2R. Qed.

Lemma rnd64_opp_B2R (x : f64) : rnd64 (- B2R x) = - B2R x.
Proof. apply round_generic; [apply valid_rnd_N|]. apply generic_format_opp, generic_format_B2R. Qed.

Lemma fmul_sign w x : fin w -> fin x ->
  fin (fmul (fsign w) x) /\ B2R (fmul (fsign w) x) = B2R (fsign w) * B2R x.
Proof.
  intros Fw Fx. destruct (fsign_spec w Fw) as (Fs & Hs).
  pose proof (Bmult_correct prec64 emax64 _ _ mode_NE (fsign w) x) as C. cbn [round_mode] in C.
  assert (R : rnd64 (B2R (fsign w) * B2R x) = B2R (fsign w) * B2R x).
  { destruct Hs as [(_ & ->)|[(_ & ->)|(_ & ->)]].
    - rewrite Rmult_1_l. apply rnd64_B2R.
    - replace (-1 * B2R x) with (- B2R x) by ring. apply rnd64_opp_B2R.
    - rewrite Rmult_0_l. apply round_0, valid_rnd_N. }
  change (round radix2 (SpecFloat.fexp prec64 emax64) ZnearestE (B2R (fsign w) * B2R x))
    with (rnd64 (B2R (fsign w) * B2R x)) in C.
  rewrite R in C. rewrite Rlt_bool_true in C.
  - destruct C as (C1 & C2 & _). split; [|exact C1]. unfold fin, fmul. rewrite C2.
    unfold fin in *. now rewrite Fs, Fx.
  - pose proof (abs_B2R_lt_emax prec64 emax64 x) as B.
    destruct Hs as [(_ & ->)|[(_ & ->)|(_ & ->)]].
    + now rewrite Rmult_1_l.
    + replace (-1 * B2R x) with (- B2R x) by ring. now rewrite Rabs_Ropp.
    + rewrite Rmult_0_l, Rabs_R0. apply bpow_gt_0.
Qed.

Lemma fmax0_spec x : fin x -> fin (fmax0 x) /\ B2R (fmax0 x) = Rmax (B2R x) 0.
Proof.
  intros F. unfold fmax0. rewrite flt_R by (try assumption; reflexivity). change (B2R f0) with 0.
  destruct (Rlt_bool_spec (B2R x) 0) as [H|H].
  - split; [reflexivity|]. rewrite Rmax_right; [reflexivity|lra].
  - split; [exact F|]. rewrite Rmax_left; [reflexivity|lra].
Qed.

Lemma fclip01_approx k x r : r <= 1 -> approx k x r -> approx k (fclip01 x) r.
Proof.
  intros Hr H. pose proof (approx_nonneg _ _ _ H) as Nx. destruct H as (F & P & L & U).
  unfold fclip01. destruct f1_correct as (F1 & E1).
  rewrite !flt_R by (try assumption; reflexivity). change (B2R f0) with 0. rewrite E1.
  rewrite Rlt_bool_false by lra.
  destruct (Rlt_bool_spec 1 (B2R x)) as [H|H].
  - split; [exact F1|split; [exact P|]]. rewrite E1. pose proof (pow_lo_le1 k). pose proof (pow_lo_pos k). nra.
  - split; [exact F|split; [exact P|]]. lra.
Qed.

Lemma fsub_zero x z : fin x -> fin z -> B2R z = 0 -> fin (fsub x z) /\ B2R (fsub x z) = B2R x.
Proof.
  intros Fx Fz Ez. pose proof (Bminus_correct prec64 emax64 _ _ mode_NE x z Fx Fz) as C. cbn [round_mode] in C.
  rewrite Ez, Rminus_0_r in C.
  change (round radix2 (SpecFloat.fexp prec64 emax64) ZnearestE (B2R x)) with (rnd64 (B2R x)) in C.
  rewrite rnd64_B2R in C. rewrite Rlt_bool_true in C by apply abs_B2R_lt_emax.
  destruct C as (C1 & C2 & _). split; assumption.
Qed.

Lemma fadd_zero_l x z : fin x -> fin z -> B2R z = 0 -> fin (fadd z x) /\ B2R (fadd z x) = B2R x.
Proof.
  intros Fx Fz Ez. pose proof (Bplus_correct prec64 emax64 _ _ mode_NE z x Fz Fx) as C. cbn [round_mode] in C.
  rewrite Ez, Rplus_0_l in C.
  change (round radix2 (SpecFloat.fexp prec64 emax64) ZnearestE (B2R x)) with (rnd64 (B2R x)) in C.
  rewrite rnd64_B2R in C. rewrite Rlt_bool_true in C by apply abs_B2R_lt_emax.
  destruct C as (C1 & C2 & _). split; assumption.
Qed.

Lemma fadd_zero_r x z : fin x -> fin z -> B2R z = 0 -> fin (fadd x z) /\ B2R (fadd x z) = B2R x.
Proof.
  intros Fx Fz Ez. pose proof (Bplus_correct prec64 emax64 _ _ mode_NE x z Fx Fz) as C. cbn [round_mode] in C.
  rewrite Ez, Rplus_0_r in C.
  change (round radix2 (SpecFloat.fexp prec64 emax64) ZnearestE (B2R x)) with (rnd64 (B2R x)) in C.
  rewrite rnd64_B2R in C. rewrite Rlt_bool_true in C by apply abs_B2R_lt_emax.
  destruct C as (C1 & C2 & _). split; assumption.
Qed.

(** Sums of products in any order.  [val] gives the exact real each operand stands for. *)
Fixpoint rsum (l : list R) : R := match l with [] => 0 | x :: t => x + rsum t end.

Lemma rsum_app a b : rsum (a ++ b) = rsum a + rsum b.
Proof. induction a as [|x a IH]; cbn; [lra|]. rewrite IH. lra. Qed.

Lemma rsum_perm a b : Permutation a b -> rsum a = rsum b.
Proof. induction 1; cbn; lra. Qed.

(** Pairs with exact values: the list carries the float pair and its exact real pair. *)
Definition good_pair (j1 j2 : nat) (q : (f64 * f64) * (R * R)) : Prop :=
  approx j1 (fst (fst q)) (fst (snd q)) /\ approx j2 (snd (fst q)) (snd (snd q)).
Definition exact_prod (q : (f64 * f64) * (R * R)) : R := fst (snd q) * snd (snd q).

Lemma perm_lift {A B} (l l' : list A) (m' : list (A * B)) :
  Permutation l l' -> map fst m' = l' -> exists m, map fst m = l /\ Permutation m m'.
Proof.
  intros H. revert m'. induction H as [|x l l' H IH|x y l|l l1 l2 H1 IH1 H2 IH2]; intros m' E.
  - destruct m'; [|discriminate]. exists []. split; auto.
  - destruct m' as [|[a b] m']; [discriminate|]. injection E as -> E.
    destruct (IH m' E) as (m & E' & P). exists ((x, b) :: m). split; [cbn; congruence|]. now constructor.
  - destruct m' as [|[a b] [|[a' b'] m']]; try discriminate. injection E as -> -> E.
    exists ((y, b') :: (x, b) :: m'). split; [cbn; congruence|]. apply perm_swap.
  - destruct (IH2 m' E) as (m1 & E1 & P1). destruct (IH1 m1 E1) as (m & E0 & P0).
    exists m. split; [assumption|]. eapply perm_trans; eauto.
Qed.

(** Every sub-sum of the exact products is moderate. *)
Definition sums_moderate (T : R) (l : list R) : Prop :=
  0 < T /\ Forall (fun p => p = 0 \/ T <= p) l.

Lemma rsum_lower T l : sums_moderate T l -> 0 <= rsum l /\ (rsum l = 0 \/ T <= rsum l).
Proof.
  intros [HT H]. induction H as [|x l Hx Hl IH]; cbn; [split; [lra|auto]|].
  destruct Hx as [->|Hx], IH as [? [E|E]]; (split; [lra|]); try (left; lra); right; lra.
Qed.

Lemma sums_moderate_app T a b : sums_moderate T (a ++ b) -> sums_moderate T a /\ sums_moderate T b.
Proof. intros [HT H]. apply Forall_app in H as [H1 H2]. split; split; assumption. Qed.

Lemma sumprod_approx j1 j2 T H :
  bpow radix2 (-800) <= T -> H <= bpow radix2 800 ->
  forall l v, sumprod l v ->
  forall m, map fst m = l -> Forall (good_pair j1 j2) m -> sums_moderate T (map exact_prod m) ->
    rsum (map exact_prod m) <= H -> kok (j1 + j2 + 1 + length l) ->
    approx (j1 + j2 + 1 + length l) v (rsum (map exact_prod m)) /\ (l = [] -> B2R v = 0).
Proof.
  intros HT HH l v S. induction S as [|a b|l1 l2 v1 v2 S1 IH1 S2 IH2|a b l v S IH|l l' v P S IH]; intros m E G SM U K.
  - destruct m; [|discriminate]. cbn [map rsum]. split; [|reflexivity].
    split; [reflexivity|]. change (B2R f0) with 0. rewrite !Rmult_0_l. lra.
  - destruct m as [|[[a' b'] [ra rb]] [|]]; try discriminate. injection E as -> ->.
    inversion G as [|? ? [G1 G2] _]; subst.
    destruct (rsum_lower T _ SM) as [Pz Lz]. unfold exact_prod in *. cbn [map rsum length fst snd] in *.
    split; [|discriminate]. rewrite Rplus_0_r in *.
    assert (M : moderate' (ra * rb)) by (destruct Lz; [left|right]; lra).
    eapply approx_weaken; [|apply (approx_mul j1 j2); [|exact M|exact G1|exact G2]].
    + lia.
    + eapply kok_le; [|exact K]. lia.
  - apply map_eq_app in E as (m1 & m2 & -> & E1 & E2).
    apply Forall_app in G as [G1 G2]. rewrite map_app in *. rewrite rsum_app in *.
    apply sums_moderate_app in SM as [SM1 SM2].
    destruct (rsum_lower T _ SM1) as [P1 L1]. destruct (rsum_lower T _ SM2) as [P2 L2].
    rewrite app_length in K.
    destruct (IH1 m1 E1 G1 SM1 ltac:(lra) ltac:(eapply kok_le; [|exact K]; lia)) as [A1 Z1].
    destruct (IH2 m2 E2 G2 SM2 ltac:(lra) ltac:(eapply kok_le; [|exact K]; lia)) as [A2 Z2].
    rewrite app_length.
    destruct l1 as [|p1 l1]; [|destruct l2 as [|p2 l2]].
    + destruct m1; [|discriminate]. cbn [map rsum app length] in *.
      destruct (fadd_zero_l v2 v1) as (F & B); [apply A2|apply A1|now apply Z1|].
      split.
      * rewrite Rplus_0_l. split; [exact F|]. rewrite B. apply A2.
      * intros ->. rewrite B. now apply Z2.
    + destruct m2; [|discriminate]. cbn [map rsum app length] in *.
      destruct (fadd_zero_r v1 v2) as (F & B); [apply A1|apply A2|now apply Z2|].
      split; [|discriminate]. rewrite Rplus_0_r. split; [exact F|]. rewrite B.
      eapply approx_weaken; [|exact A1]. cbn [length]. lia.
    + split; [|discriminate].
      assert (M : moderate' (rsum (map exact_prod m1) + rsum (map exact_prod m2))).
      { destruct L1, L2; try (left; lra); right; lra. }
      set (k := (j1 + j2 + length (p1 :: l1) + length (p2 :: l2))%nat).
      assert (Kk : kok k) by (eapply kok_le; [|exact K]; unfold k; lia).
      eapply approx_weaken; [|apply (approx_add k); [exact Kk|exact M| |]].
      * unfold k. lia.
      * eapply approx_weaken; [|exact A1]. unfold k. cbn [length]. lia.
      * eapply approx_weaken; [|exact A2]. unfold k. cbn [length]. lia.
  - destruct m as [|[[a' b'] [ra rb]] m]; [discriminate|]. injection E as -> -> E.
    inversion G as [|? ? [G1 G2] Gm]; subst. cbn [map rsum fst snd length] in *.
    destruct SM as [ST SF]. inversion SF as [|? ? S1 S2]; subst.
    assert (SMm : sums_moderate T (map exact_prod m)) by (split; assumption).
    destruct (rsum_lower T _ SMm) as [Pm Lm].
    assert (Pq : 0 <= exact_prod (a, b, (ra, rb))) by (destruct S1 as [->|]; lra).
    destruct (IH m eq_refl Gm SMm ltac:(lra) ltac:(eapply kok_le; [|exact K]; lia)) as [A _].
    split; [|discriminate].
    assert (M : moderate' (exact_prod (a, b, (ra, rb)) + rsum (map exact_prod m))).
    { destruct S1, Lm; try (left; lra); right; lra. }
    unfold exact_prod in M |- * at 1. cbn [fst snd] in *.
    eapply approx_weaken; [|eapply (approx_fma j1 j2); [| |exact M|exact G1|exact G2|exact A]].
    + lia.
    + eapply kok_le; [|exact K]. lia.
    + lia.
  - destruct (perm_lift l l' m P E) as (m0 & E0 & P0).
    assert (Pm : Permutation (map exact_prod m0) (map exact_prod m)) by (now apply Permutation_map).
    rewrite <- (rsum_perm _ _ Pm) in *. rewrite <- (Permutation_length P) in *.
    destruct (IH m0 E0) as [A Z]; try assumption.
    + rewrite Forall_forall in *. intros q Hq. apply G. eapply Permutation_in; eauto.
    + destruct SM as [ST SF]. split; [assumption|]. rewrite Forall_forall in *. intros q Hq. apply SF.
      eapply Permutation_in; eauto.
    + split; [exact A|]. intros ->. apply Z. apply Permutation_sym, Permutation_nil in P. assumption.
Qed.
