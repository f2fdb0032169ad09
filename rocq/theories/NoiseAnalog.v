(** Error analysis of the analog path with additive noise: cells may become negative, sums may cancel. *)
From Verif Require Import PyBase PyLemmas FloatModel AnalogProofs DataConvert ConfigModel MemoryModel MvmuModel FloatProofs AnalogChain.
From Flocq Require Import IEEE754.BinarySingleNaN Core Relative.
From Coq Require Import Permutation Reals Lra Psatz ZifyNat ZifyBool.
Open Scope R_scope.

(** Underflow error of one operation. *)
Definition t64 : R := bpow radix2 (-1000).
Lemma t64_pos : 0 < t64. Proof. apply bpow_gt_0. Qed.

Lemma rnd64_err y : Rabs (rnd64 y - y) <= u64 * Rabs y + t64.
Proof.
  destruct (error_N_FLT radix2 (-1074) 53 eq_refl (fun x => negb (Z.even x)) y) as (e & h & He & Hh & _ & Hr).
  change (rnd64 y) with (round radix2 (FLT_exp (-1074) 53) (Znearest (fun x => negb (Z.even x))) y). rewrite Hr.
  replace (y * (1 + e) + h - y) with (e * y + h) by ring.
  eapply Rle_trans; [apply Rabs_triang|]. rewrite Rabs_mult. apply Rplus_le_compat.
  - apply Rmult_le_compat_r; [apply Rabs_pos|]. eapply Rle_trans; [exact He|]. unfold u64.
    change (/ 2) with (bpow radix2 (-1)). rewrite <- bpow_plus. apply bpow_le. lia.
  - eapply Rle_trans; [exact Hh|]. unfold t64. change (/ 2) with (bpow radix2 (-1)). rewrite <- bpow_plus. apply bpow_le. lia.
Qed.

Lemma u64_tiny : u64 <= / 1048576.
Proof. unfold u64. change (/ 1048576) with (bpow radix2 (-20)). apply bpow_le. lia. Qed.
Lemma t64_tiny : t64 <= / 1048576.
Proof. unfold t64. change (/ 1048576) with (bpow radix2 (-20)). apply bpow_le. lia. Qed.

(** No overflow below 2^900. *)
Lemma rnd64_fits y : Rabs y <= bpow radix2 900 -> Rlt_bool (Rabs (rnd64 y)) (bpow radix2 emax64) = true.
Proof.
  intros H. apply Rlt_bool_true. pose proof (rnd64_err y) as E.
  assert (Rabs (rnd64 y) <= 2 * Rabs y + 1).
  { pose proof u64_tiny. pose proof t64_tiny. pose proof u64_pos. pose proof (Rabs_pos y).
    replace (rnd64 y) with ((rnd64 y - y) + y) by ring. eapply Rle_trans; [apply Rabs_triang|]. nra. }
  apply Rle_lt_trans with (2 * bpow radix2 900 + 1); [lra|].
  assert (1 <= bpow radix2 900) by (change 1 with (bpow radix2 0); apply bpow_le; lia).
  apply Rlt_le_trans with (bpow radix2 2 * bpow radix2 900).
  - change (bpow radix2 2) with 4. lra.
  - rewrite <- bpow_plus. apply bpow_le. unfold emax64. lia.
Qed.

Lemma fadd_err x y : fin x -> fin y -> Rabs (B2R x + B2R y) <= bpow radix2 900 ->
  fin (fadd x y) /\ Rabs (B2R (fadd x y) - (B2R x + B2R y)) <= u64 * Rabs (B2R x + B2R y) + t64.
Proof.
  intros Fx Fy B. pose proof (Bplus_correct prec64 emax64 _ _ mode_NE x y Fx Fy) as C. cbn [round_mode] in C.
  rewrite rnd64_fits in C by exact B. destruct C as (E & F & _). split; [exact F|]. unfold fadd. rewrite E. apply rnd64_err.
Qed.
Lemma fmul_err x y : fin x -> fin y -> Rabs (B2R x * B2R y) <= bpow radix2 900 ->
  fin (fmul x y) /\ Rabs (B2R (fmul x y) - (B2R x * B2R y)) <= u64 * Rabs (B2R x * B2R y) + t64.
Proof.
  intros Fx Fy B. pose proof (Bmult_correct prec64 emax64 _ _ mode_NE x y) as C. cbn [round_mode] in C.
  rewrite rnd64_fits in C by exact B. destruct C as (E & F & _). split; [|unfold fmul; rewrite E; apply rnd64_err].
  unfold fin, fmul in *. now rewrite F, Fx, Fy.
Qed.
Lemma ffma_err x y z : fin x -> fin y -> fin z -> Rabs (B2R x * B2R y + B2R z) <= bpow radix2 900 ->
  fin (ffma x y z) /\ Rabs (B2R (ffma x y z) - (B2R x * B2R y + B2R z)) <= u64 * Rabs (B2R x * B2R y + B2R z) + t64.
Proof.
  intros Fx Fy Fz B. pose proof (Bfma_correct prec64 emax64 _ _ mode_NE x y z Fx Fy Fz) as C. cbn [round_mode] in C. cbv zeta in C.
  rewrite rnd64_fits in C by exact B. destruct C as (E & F & _). split; [exact F|]. unfold ffma. rewrite E. apply rnd64_err.
Qed.
Lemma fdiv_err x y : fin x -> B2R y <> 0 -> Rabs (B2R x / B2R y) <= bpow radix2 900 ->
  fin (fdiv x y) /\ Rabs (B2R (fdiv x y) - (B2R x / B2R y)) <= u64 * Rabs (B2R x / B2R y) + t64.
Proof.
  intros Fx Ny B. pose proof (Bdiv_correct prec64 emax64 _ _ mode_NE x y Ny) as C. cbn [round_mode] in C.
  rewrite rnd64_fits in C by exact B. destruct C as (E & F & _). split; [|unfold fdiv; rewrite E; apply rnd64_err].
  unfold fin, fdiv in *. now rewrite F.
Qed.

(** ** Sums of products in any order *)
Definition prods (l : list (f64 * f64)) : R := rsum (map (fun p => B2R (fst p) * B2R (snd p)) l).
Definition aprods (l : list (f64 * f64)) : R := rsum (map (fun p => Rabs (B2R (fst p) * B2R (snd p))) l).
Definition tau (k : nat) : R := match k with O => 0 | S j => 4 * INR j + 2 end.

Lemma prods_app a b : prods (a ++ b) = prods a + prods b.
Proof. unfold prods. now rewrite map_app, rsum_app. Qed.
Lemma aprods_app a b : aprods (a ++ b) = aprods a + aprods b.
Proof. unfold aprods. now rewrite map_app, rsum_app. Qed.
Lemma aprods_nonneg l : 0 <= aprods l.
Proof. unfold aprods. induction l as [|p l IH]; cbn [map rsum]; [lra|]. apply Rplus_le_le_0_compat; [apply Rabs_pos|exact IH]. Qed.
Lemma prods_le l : Rabs (prods l) <= aprods l.
Proof.
  unfold prods, aprods. induction l as [|p l IH]; cbn [map rsum]; [rewrite Rabs_R0; lra|]. eapply Rle_trans; [apply Rabs_triang|]. apply Rplus_le_compat; [lra|exact IH].
Qed.
Lemma tau_nonneg k : 0 <= tau k.
Proof. destruct k as [|j]; cbn [tau]; [lra|]. pose proof (pos_INR j). lra. Qed.
Lemma tau_le k : tau k <= 4 * INR k.
Proof. destruct k as [|j]; cbn [tau]; [cbn; lra|]. rewrite S_INR. lra. Qed.

Lemma Rabs_le_add x y e : Rabs (x - y) <= e -> Rabs x <= Rabs y + e.
Proof. intros H. replace x with ((x - y) + y) by ring. eapply Rle_trans; [apply Rabs_triang|]. lra. Qed.

Lemma grow_step u k : 0 <= u -> (1 + u) ^ S k - 1 = ((1 + u) ^ k - 1) + u * (1 + u) ^ k.
Proof. cbn [pow]. intros; ring. Qed.

(** The error of a sum of [k] products is at most ((1 + u)^k - 1) times the sum of their magnitudes, and underflow. *)
Lemma sumprod_err H : H <= bpow radix2 800 ->
  forall l v, sumprod l v ->
  Forall (fun p => fin (fst p) /\ fin (snd p)) l -> aprods l <= H -> kok (length l) ->
  fin v /\ Rabs (B2R v - prods l) <= ((1 + u64) ^ length l - 1) * aprods l + tau (length l) * t64 /\ (l = [] -> B2R v = 0).
Proof.
  intros HH.
  assert (H800 : 8 * bpow radix2 800 + 8 <= bpow radix2 900).
  { assert (1 <= bpow radix2 800) by (change 1 with (bpow radix2 0); apply bpow_le; lia).
    apply Rle_trans with (bpow radix2 4 * bpow radix2 800); [change (bpow radix2 4) with 16; lra|]. rewrite <- bpow_plus. apply bpow_le. lia. }
  assert (P800 : 1 <= bpow radix2 800) by (change 1 with (bpow radix2 0); apply bpow_le; lia).
  pose proof u64_pos as UP. pose proof u64_tiny as UT. pose proof t64_pos as TP. pose proof t64_tiny as TT.
  assert (KT : forall k, kok k -> tau k * t64 <= 1 /\ tau k * u64 <= 1 /\ 1 <= (1 + u64) ^ k <= 2).
  { intros k Kk. unfold kok in Kk. pose proof (tau_le k). pose proof (tau_nonneg k). pose proof (pow_hi_ge1 k).
    pose proof (bernoulli_hi k ltac:(lra)). assert (t64 <= u64) by (unfold t64, u64; apply bpow_le; lia). pose proof (pos_INR k).
    assert (tau k * u64 <= 4 * INR k * u64) by (apply Rmult_le_compat_r; lra).
    assert (tau k * t64 <= tau k * u64) by (apply Rmult_le_compat_l; lra).
    repeat split; try lra. }
  induction 1 as [|a b|l1 l2 v1 v2 S1 IH1 S2 IH2|a b l v S IH|l l' v P S IH]; intros F L K.
  - split; [reflexivity|]. unfold prods, aprods. cbn [length map rsum pow tau]. change (B2R f0) with 0. split; [|reflexivity].
    replace (0 - 0) with 0 by ring. rewrite Rabs_R0. lra.
  - inversion_clear F as [|? ? (Fa & Fb) _]. unfold prods, aprods in *. cbn [length map rsum pow tau fst snd INR] in *. rewrite Rplus_0_r in *.
    destruct (fmul_err a b Fa Fb) as (F1 & E1); [lra|]. split; [exact F1|]. split; [|discriminate]. lra.
  - apply Forall_app in F as (F1 & F2). rewrite aprods_app in L. pose proof (aprods_nonneg l1). pose proof (aprods_nonneg l2).
    rewrite app_length in K.
    destruct (IH1 F1 ltac:(lra) ltac:(eapply kok_le; [|exact K]; lia)) as (G1 & E1 & Z1).
    destruct (IH2 F2 ltac:(lra) ltac:(eapply kok_le; [|exact K]; lia)) as (G2 & E2 & Z2).
    rewrite prods_app, aprods_app, app_length.
    destruct l1 as [|p1 l1].
    { destruct (fadd_zero_l v2 v1 G2 G1 (Z1 eq_refl)) as (Fa & Ba). split; [exact Fa|]. rewrite Ba. cbn [app length]. unfold prods at 1, aprods at 1. cbn [map rsum].
      split; [|exact Z2]. rewrite !Rplus_0_l. exact E2. }
    destruct l2 as [|p2 l2].
    { destruct (fadd_zero_r v1 v2 G1 G2 (Z2 eq_refl)) as (Fa & Ba). split; [exact Fa|]. rewrite Ba. rewrite Nat.add_0_r. unfold prods at 2, aprods at 2. cbn [map rsum].
      split; [|discriminate]. rewrite !Rplus_0_r. exact E1. }
    set (k1 := length (p1 :: l1)) in *. set (k2 := length (p2 :: l2)) in *.
    destruct (KT k1 ltac:(eapply kok_le; [|exact K]; lia)) as (T1 & T1' & Q1). destruct (KT k2 ltac:(eapply kok_le; [|exact K]; lia)) as (T2 & T2' & Q2).
    destruct (KT (k1 + k2)%nat K) as (T3 & T3' & Q3).
    set (A1 := aprods (p1 :: l1)) in *. set (A2 := aprods (p2 :: l2)) in *. set (P1 := prods (p1 :: l1)) in *. set (P2 := prods (p2 :: l2)) in *.
    assert (B1 : Rabs (B2R v1) <= (1 + u64) ^ k1 * A1 + tau k1 * t64).
    { apply Rabs_le_add in E1. pose proof (prods_le (p1 :: l1)). fold A1 P1 in H2. lra. }
    assert (B2 : Rabs (B2R v2) <= (1 + u64) ^ k2 * A2 + tau k2 * t64).
    { apply Rabs_le_add in E2. pose proof (prods_le (p2 :: l2)). fold A2 P2 in H2. lra. }
    assert (BS : Rabs (B2R v1 + B2R v2) <= (1 + u64) ^ k1 * A1 + (1 + u64) ^ k2 * A2 + (tau k1 + tau k2) * t64).
    { eapply Rle_trans; [apply Rabs_triang|]. lra. }
    assert (BB : Rabs (B2R v1 + B2R v2) <= bpow radix2 900).
    { eapply Rle_trans; [exact BS|]. assert ((1 + u64) ^ k1 * A1 <= 2 * A1) by (apply Rmult_le_compat_r; lra).
      assert ((1 + u64) ^ k2 * A2 <= 2 * A2) by (apply Rmult_le_compat_r; lra). lra. }
    destruct (fadd_err v1 v2 G1 G2 BB) as (Fa & Ea). split; [exact Fa|]. split; [|discriminate].
    replace (B2R (fadd v1 v2) - (P1 + P2)) with ((B2R (fadd v1 v2) - (B2R v1 + B2R v2)) + (B2R v1 - P1) + (B2R v2 - P2)) by ring.
    eapply Rle_trans; [apply Rabs_triang|]. eapply Rle_trans; [apply Rplus_le_compat_r, Rabs_triang|].
    assert (U1 : u64 * Rabs (B2R v1 + B2R v2) <= u64 * ((1 + u64) ^ k1 * A1 + (1 + u64) ^ k2 * A2 + (tau k1 + tau k2) * t64)) by (apply Rmult_le_compat_l; lra).
    assert (M1 : (1 + u64) ^ S k1 <= (1 + u64) ^ (k1 + k2)) by (apply pow_hi_mono; unfold k2; cbn [length]; lia).
    assert (M2 : (1 + u64) ^ S k2 <= (1 + u64) ^ (k1 + k2)) by (apply pow_hi_mono; unfold k1; cbn [length]; lia).
    pose proof (grow_step u64 k1 ltac:(lra)) as W1. pose proof (grow_step u64 k2 ltac:(lra)) as W2.
    assert (X1 : ((1 + u64) ^ S k1 - 1) * A1 <= ((1 + u64) ^ (k1 + k2) - 1) * A1) by (apply Rmult_le_compat_r; lra).
    assert (X2 : ((1 + u64) ^ S k2 - 1) * A2 <= ((1 + u64) ^ (k1 + k2) - 1) * A2) by (apply Rmult_le_compat_r; lra).
    assert (X3 : u64 * ((tau k1 + tau k2) * t64) + (tau k1 + tau k2) * t64 + t64 <= tau (k1 + k2) * t64).
    { replace (u64 * ((tau k1 + tau k2) * t64)) with ((tau k1 * u64 + tau k2 * u64) * t64) by ring.
      replace ((tau k1 * u64 + tau k2 * u64) * t64 + (tau k1 + tau k2) * t64 + t64)
        with ((tau k1 * u64 + tau k2 * u64 + (tau k1 + tau k2) + 1) * t64) by ring.
      apply Rmult_le_compat_r; [lra|].
      assert (TS : tau k1 + tau k2 + 2 = tau (k1 + k2)).
      { unfold k1, k2. cbn [length]. rewrite Nat.add_succ_r. cbn [tau Nat.add]. rewrite S_INR, plus_INR. lra. }
      assert ((tau k1 + tau k2) * u64 <= 1); [|lra].
      eapply Rle_trans; [|exact T3']. apply Rmult_le_compat_r; lra. }
    rewrite W1 in X1. rewrite W2 in X2. lra.
  - inversion_clear F as [|? ? (Fa & Fb) F1]. cbn [fst snd] in *. unfold aprods in L. cbn [map rsum fst snd] in L. fold (aprods l) in L.
    pose proof (aprods_nonneg l). pose proof (Rabs_pos (B2R a * B2R b)).
    destruct (IH F1 ltac:(lra) ltac:(eapply kok_le; [|exact K]; cbn [length]; lia)) as (G1 & E1 & Z1).
    change (prods ((a, b) :: l)) with (B2R a * B2R b + prods l). change (aprods ((a, b) :: l)) with (Rabs (B2R a * B2R b) + aprods l).
    cbn [length] in *. set (k := length l) in *. destruct (KT k ltac:(eapply kok_le; [|exact K]; lia)) as (T1 & T1' & Q1). destruct (KT (Datatypes.S k) K) as (T3 & T3' & Q3).
    assert (B1 : Rabs (B2R v) <= (1 + u64) ^ k * aprods l + tau k * t64).
    { apply Rabs_le_add in E1. pose proof (prods_le l). lra. }
    assert (BS : Rabs (B2R a * B2R b + B2R v) <= Rabs (B2R a * B2R b) + (1 + u64) ^ k * aprods l + tau k * t64).
    { eapply Rle_trans; [apply Rabs_triang|]. lra. }
    assert (BB : Rabs (B2R a * B2R b + B2R v) <= bpow radix2 900).
    { eapply Rle_trans; [exact BS|]. assert ((1 + u64) ^ k * aprods l <= 2 * aprods l) by (apply Rmult_le_compat_r; lra). lra. }
    destruct (ffma_err a b v Fa Fb G1 BB) as (Ff & Ef). split; [exact Ff|]. split; [|discriminate].
    replace (B2R (ffma a b v) - (B2R a * B2R b + prods l)) with ((B2R (ffma a b v) - (B2R a * B2R b + B2R v)) + (B2R v - prods l)) by ring.
    eapply Rle_trans; [apply Rabs_triang|].
    assert (U1 : u64 * Rabs (B2R a * B2R b + B2R v) <= u64 * (Rabs (B2R a * B2R b) + (1 + u64) ^ k * aprods l + tau k * t64)) by (apply Rmult_le_compat_l; lra).
    pose proof (grow_step u64 k ltac:(lra)) as W1.
    assert (X1 : u64 * Rabs (B2R a * B2R b) <= ((1 + u64) ^ Datatypes.S k - 1) * Rabs (B2R a * B2R b)).
    { apply Rmult_le_compat_r; [lra|]. rewrite W1. assert (u64 * 1 <= u64 * (1 + u64) ^ k) by (apply Rmult_le_compat_l; lra). lra. }
    assert (X3 : u64 * (tau k * t64) + tau k * t64 + t64 <= tau (Datatypes.S k) * t64).
    { replace (u64 * (tau k * t64) + tau k * t64 + t64) with ((tau k * u64 + tau k + 1) * t64) by ring. apply Rmult_le_compat_r; [lra|].
      destruct k as [|j]; cbn [tau]; [change (INR 0) with 0; lra|]. cbn [tau] in T1'. rewrite S_INR. lra. }
    rewrite W1 in *. lra.
  - assert (PA : aprods l = aprods l') by (unfold aprods; apply rsum_perm, Permutation_map, P).
    assert (PP : prods l = prods l') by (unfold prods; apply rsum_perm, Permutation_map, P).
    rewrite <- PA, <- PP, <- (Permutation_length P) in *.
    destruct IH as (G & E & Z); auto.
    + rewrite Forall_forall in *. intros q Q. apply F. eapply Permutation_in; eauto.
    + split; [exact G|]. split; [exact E|]. intros ->. apply Z. apply Permutation_sym, Permutation_nil in P. assumption.
Qed.

(** ** One cell *)
Lemma approx2_err x r : approx 2 x r -> fin x /\ 0 <= r /\ Rabs (B2R x - r) <= 3 * u64 * r.
Proof.
  intros (F & P & L & U). split; [exact F|]. split; [exact P|]. pose proof u64_pos. pose proof u64_tiny. cbn [pow] in *.
  apply Rabs_le. assert (u64 * u64 <= u64) by nra. assert (0 <= r * (u64 * u64)) by nra. assert (r * (u64 * u64) <= r * u64) by nra. lra.
Qed.
Lemma approx3_err x r : approx 3 x r -> fin x /\ 0 <= r /\ Rabs (B2R x - r) <= 4 * u64 * r.
Proof.
  intros (F & P & L & U). split; [exact F|]. split; [exact P|]. pose proof u64_pos. pose proof u64_tiny. cbn [pow] in *.
  assert (A : u64 * u64 <= / 1048576 * u64) by nra. assert (B : 0 <= u64 * u64) by nra.
  assert (C3 : 0 <= u64 * u64 * u64 <= u64 * u64) by nra.
  assert (E1 : (1 + u64) * ((1 + u64) * ((1 + u64) * 1)) - 1 <= 4 * u64) by nra.
  assert (E2 : - (4 * u64) <= (1 - u64) * ((1 - u64) * ((1 - u64) * 1)) - 1) by nra.
  apply Rabs_le. split; nra.
Qed.

Lemma noisy_cell g e x g0 x0 :
  fin e -> approx 2 g g0 -> approx 2 x x0 -> g0 <= bpow radix2 400 -> Rabs (B2R e) <= bpow radix2 400 -> x0 <= bpow radix2 400 ->
  let m := g0 + Rabs (B2R e) in
  fin (fadd g e) /\ fin x /\ Rabs (B2R (fadd g e) * B2R x - (g0 + B2R e) * x0) <= 13 * u64 * (m * x0) + 2 * t64 * x0 /\
  Rabs (B2R (fadd g e) * B2R x) <= 2 * (m * x0) + 2 * t64 * x0.
Proof.
  intros Fe Ag Ax Bg Be Bx m. destruct (approx2_err _ _ Ag) as (Fg & Pg & Eg). destruct (approx2_err _ _ Ax) as (Fx & Px & Ex).
  pose proof u64_pos as UP. pose proof u64_tiny as UT. pose proof t64_pos as TP. pose proof t64_tiny as TT.
  pose proof (Rabs_pos (B2R e)) as Pe. assert (Pm : 0 <= m) by (unfold m; lra).
  assert (Gg : Rabs (B2R g) <= (1 + 3 * u64) * g0).
  { apply Rabs_le_add in Eg. rewrite (Rabs_pos_eq g0) in Eg by lra. lra. }
  assert (Sge : Rabs (B2R g + B2R e) <= (1 + 3 * u64) * m).
  { eapply Rle_trans; [apply Rabs_triang|]. unfold m. nra. }
  assert (Fit : Rabs (B2R g + B2R e) <= bpow radix2 900).
  { eapply Rle_trans; [exact Sge|]. apply Rle_trans with (bpow radix2 2 * bpow radix2 400).
    - change (bpow radix2 2) with 4. pose proof (bpow_gt_0 radix2 400). unfold m. nra.
    - rewrite <- bpow_plus. apply bpow_le. lia. }
  destruct (fadd_err g e Fg Fe Fit) as (Fa & Ea). set (a := B2R (fadd g e)) in *.
  assert (Aerr : Rabs (a - (g0 + B2R e)) <= 5 * u64 * m + t64).
  { replace (a - (g0 + B2R e)) with ((a - (B2R g + B2R e)) + (B2R g - g0)) by ring. eapply Rle_trans; [apply Rabs_triang|].
    assert (u64 * Rabs (B2R g + B2R e) <= u64 * ((1 + 3 * u64) * m)) by (apply Rmult_le_compat_l; lra).
    assert (W0 : 0 <= u64 * m) by nra. assert (u64 * ((1 + 3 * u64) * m) <= 2 * (u64 * m)).
    { replace (u64 * ((1 + 3 * u64) * m)) with ((1 + 3 * u64) * (u64 * m)) by ring. apply Rmult_le_compat_r; lra. }
    assert (u64 * g0 <= u64 * m) by (apply Rmult_le_compat_l; unfold m; lra). lra. }
  assert (Xa : Rabs (B2R x) <= 2 * x0).
  { apply Rabs_le_add in Ex. rewrite (Rabs_pos_eq x0) in Ex by lra. nra. }
  assert (Ge : Rabs (g0 + B2R e) <= m).
  { eapply Rle_trans; [apply Rabs_triang|]. rewrite (Rabs_pos_eq g0) by lra. unfold m. lra. }
  assert (Err : Rabs (a * B2R x - (g0 + B2R e) * x0) <= 13 * u64 * (m * x0) + 2 * t64 * x0).
  { replace (a * B2R x - (g0 + B2R e) * x0) with ((a - (g0 + B2R e)) * B2R x + (g0 + B2R e) * (B2R x - x0)) by ring.
    eapply Rle_trans; [apply Rabs_triang|]. rewrite !Rabs_mult.
    assert (Rabs (a - (g0 + B2R e)) * Rabs (B2R x) <= (5 * u64 * m + t64) * (2 * x0)) by (apply Rmult_le_compat; try apply Rabs_pos; lra).
    assert (Rabs (g0 + B2R e) * Rabs (B2R x - x0) <= m * (3 * u64 * x0)) by (apply Rmult_le_compat; try apply Rabs_pos; lra). lra. }
  split; [exact Fa|]. split; [exact Fx|]. split; [exact Err|].
  apply Rabs_le_add in Err. rewrite (Rabs_mult (g0 + B2R e) x0), (Rabs_pos_eq x0) in Err by lra.
  assert (Rabs (g0 + B2R e) * x0 <= m * x0) by (apply Rmult_le_compat_r; lra).
  assert (0 <= m * x0) by nra. assert (13 * u64 * (m * x0) <= m * x0) by nra. lra.
Qed.

(** ** The whole chain *)
Section Chain.
Context (c : mvmu_cfg) (b : Z).
Context (MV : mid (c_vdd c)) (MG : mid (c_gmax c)) (Fm : fin (c_gmin c)) (Em : B2R (c_gmin c) = 0).
Context (Hr : (1 <= c_dac_res c <= 31)%Z) (Hb : (1 <= b <= 31)%Z).
Let vs := B2R (c_vdd c) / IZR (2 ^ c_dac_res c - 1).
Let gs := B2R (c_gmax c) / IZR (2 ^ b - 1).

Definition noise_ok (e : f64) : Prop := fin e /\ Rabs (B2R e) <= B2R (c_gmax c).
(** Noise of the cells, weighted with the input codes. *)
Definition disturb (ls : list (lane * f64)) : R := rsum (map (fun q => Rabs (B2R (snd q)) * IZR (l_d (fst q))) ls).
Definition pairs (ls : list (lane * f64)) : list (f64 * f64) := map (fun q => (fadd (l_g (fst q)) (snd q), l_x (fst q))) ls.
Definition total (ls : list (lane * f64)) : Z := zsum (map (fun q => lane_prod (fst q)) ls).

Lemma vs_pos : 0 < vs.
Proof. pose proof (div_range _ _ _ _ (proj2 MV) (IZR_code _ Hr)) as RV. fold vs in RV. pose proof (bpow_gt_0 radix2 (-200 - 31)). lra. Qed.
Lemma gs_pos : 0 < gs.
Proof. pose proof (div_range _ _ _ _ (proj2 MG) (IZR_code _ Hb)) as RG. fold gs in RG. pose proof (bpow_gt_0 radix2 (-200 - 31)). lra. Qed.

Lemma sums_ok ls : Forall (fun q => lane_ok c b (fst q) /\ noise_ok (snd q)) ls ->
  let M := IZR (total ls) * (vs * gs) + disturb ls * vs in
  Forall (fun p => fin (fst p) /\ fin (snd p)) (pairs ls) /\
  0 <= disturb ls <= INR (length ls) * (IZR (2 ^ b - 1) * IZR (2 ^ c_dac_res c - 1)) * gs /\ 0 <= IZR (total ls) /\
  exists P Q, Rabs (P - IZR (total ls) * (vs * gs)) <= disturb ls * vs /\ 0 <= Q <= INR (length ls) * bpow radix2 200 /\
    Rabs (prods (pairs ls) - P) <= 13 * u64 * M + 2 * t64 * Q /\ aprods (pairs ls) <= 2 * M + 2 * t64 * Q.
Proof.
  pose proof vs_pos as VP. pose proof gs_pos as GP. pose proof t64_pos as TP. pose proof u64_pos as UP.
  pose proof (IZR_code _ Hb) as CB. pose proof (IZR_code _ Hr) as CR.
  assert (GM : B2R (c_gmax c) = IZR (2 ^ b - 1) * gs) by (unfold gs; field; lra).
  assert (VM : B2R (c_vdd c) = IZR (2 ^ c_dac_res c - 1) * vs) by (unfold vs; field; lra).
  assert (B24 : bpow radix2 200 <= bpow radix2 400) by (apply bpow_le; lia).
  destruct MV as (_ & _ & UV). destruct MG as (_ & _ & UG).
  induction 1 as [|(l & e) ls (LO & NO) _ IH]; cbn zeta in *.
  - unfold total, disturb, pairs, prods, aprods. cbn [map length rsum INR]. change (zsum []) with 0%Z. split; [constructor|]. split; [lra|]. split; [lra|].
    exists 0, 0. rewrite ?Rmult_0_l, ?Rminus_0_r, ?Rabs_R0. lra.
  - destruct IH as (F & (D0 & D1) & N0 & P & Q & EP & EQ & E1 & E2).
    cbn [fst snd] in *. destruct LO as ((V0 & V1) & (C0 & C1) & AG & AX). destruct NO as (Fe & Be). fold gs in AG.
    set (v := IZR (l_v l)) in *. set (d := IZR (l_d l)) in *.
    assert (v0 : 0 <= v) by (apply IZR_le; lia). assert (v1 : v <= IZR (2 ^ b - 1)) by (apply IZR_le; lia).
    assert (d0 : 0 <= d) by (apply IZR_le; lia). assert (d1 : d <= IZR (2 ^ c_dac_res c - 1)) by (apply IZR_le; lia).
    replace (d / IZR (2 ^ c_dac_res c - 1) * B2R (c_vdd c)) with (d * vs) in AX by (unfold vs, Rdiv; ring).
    assert (gb : v * gs <= bpow radix2 200) by (eapply Rle_trans; [|exact UG]; rewrite GM; apply Rmult_le_compat_r; lra).
    assert (xb : d * vs <= bpow radix2 200) by (eapply Rle_trans; [|exact UV]; rewrite VM; apply Rmult_le_compat_r; lra).
    destruct (noisy_cell (l_g l) e (l_x l) (v * gs) (d * vs) Fe AG AX) as (Fa & Fx & X1 & X2); try lra.
    set (ee := Rabs (B2R e)) in *. assert (ee0 : 0 <= ee) by apply Rabs_pos.
    change (pairs ((l, e) :: ls)) with ((fadd (l_g l) e, l_x l) :: pairs ls).
    change (prods ((fadd (l_g l) e, l_x l) :: pairs ls)) with (B2R (fadd (l_g l) e) * B2R (l_x l) + prods (pairs ls)).
    change (aprods ((fadd (l_g l) e, l_x l) :: pairs ls)) with (Rabs (B2R (fadd (l_g l) e) * B2R (l_x l)) + aprods (pairs ls)).
    assert (ET : IZR (total ((l, e) :: ls)) = v * d + IZR (total ls)).
    { change (total ((l, e) :: ls)) with (l_v l * l_d l + total ls)%Z. rewrite plus_IZR, mult_IZR. reflexivity. }
    change (disturb ((l, e) :: ls)) with (ee * d + disturb ls). rewrite ET. cbn [length]. rewrite S_INR.
    split; [constructor; [split; assumption|exact F]|].
    assert (ed0 : 0 <= ee * d) by nra.
    assert (ed1 : ee * d <= IZR (2 ^ b - 1) * IZR (2 ^ c_dac_res c - 1) * gs).
    { replace (IZR (2 ^ b - 1) * IZR (2 ^ c_dac_res c - 1) * gs) with (B2R (c_gmax c) * IZR (2 ^ c_dac_res c - 1)) by (rewrite GM; ring).
      apply Rmult_le_compat; lra. }
    split; [split; [lra|]; lra|]. assert (vd0 : 0 <= v * d) by nra. split; [lra|].
    exists ((v * gs + B2R e) * (d * vs) + P), (d * vs + Q). split; [|split; [|split]].
    + replace ((v * gs + B2R e) * (d * vs) + P - (v * d + IZR (total ls)) * (vs * gs)) with (B2R e * (d * vs) + (P - IZR (total ls) * (vs * gs))) by ring.
      eapply Rle_trans; [apply Rabs_triang|]. rewrite Rabs_mult, (Rabs_pos_eq (d * vs)) by nra. fold ee. lra.
    + assert (0 <= d * vs) by nra. lra.
    + replace (B2R (fadd (l_g l) e) * B2R (l_x l) + prods (pairs ls) - ((v * gs + B2R e) * (d * vs) + P))
        with ((B2R (fadd (l_g l) e) * B2R (l_x l) - (v * gs + B2R e) * (d * vs)) + (prods (pairs ls) - P)) by ring.
      eapply Rle_trans; [apply Rabs_triang|]. lra.
    + lra.
Qed.

Lemma Znearest_half x : Rabs (IZR (ZnearestE x) - x) <= / 2.
Proof. rewrite Rabs_minus_sym. apply (Znearest_half (fun x => negb (Z.even x))). Qed.

(** The converted integer is off by at most the weighted noise, in units of a conductance step, a half and 1/1024. *)
Lemma noisy_chain ls I :
  Forall (fun q => lane_ok c b (fst q) /\ noise_ok (snd q)) ls -> sumprod (pairs ls) I ->
  (zlen ls * ((2 ^ b - 1) * (2 ^ c_dac_res c - 1)) * (zlen ls + 16) < 2 ^ 40)%Z ->
  Rabs (IZR (np_rint (fdiv I (adc_step c b))) - IZR (total ls)) <= disturb ls / gs + / 2 + / 1024.
Proof.
  intros F SP SZ. pose proof vs_pos as VP. pose proof gs_pos as GP. pose proof t64_pos as TP. pose proof t64_tiny as TT. pose proof u64_pos as UP. pose proof u64_tiny as UT.
  pose proof (IZR_code _ Hb) as CB. pose proof (IZR_code _ Hr) as CR.
  destruct (sums_ok ls F) as (FP & (D0 & D1) & N0 & P & Q & EP & (Q0 & Q1) & E1 & E2).
  set (N := IZR (total ls)) in *. set (h := disturb ls / gs). set (T := vs * gs) in *. set (nn := INR (length ls)) in *.
  assert (TP0 : 0 < T) by (apply Rmult_lt_0_compat; lra).
  assert (HD : disturb ls * vs = h * T) by (unfold h, T; field; lra). rewrite HD in *.
  assert (n0 : 0 <= nn) by apply pos_INR.
  set (X := nn * (IZR (2 ^ b - 1) * IZR (2 ^ c_dac_res c - 1))) in *.
  assert (X0 : 0 <= X) by (unfold X; repeat apply Rmult_le_pos; lra).
  assert (h0 : 0 <= h) by (unfold h; apply Rmult_le_pos; [lra|left; now apply Rinv_0_lt_compat]).
  assert (h1 : h <= X).
  { unfold h. apply (Rmult_le_reg_r gs); [lra|]. unfold Rdiv. rewrite Rmult_assoc, Rinv_l, Rmult_1_r by lra. exact D1. }
  assert (N1 : N <= X).
  { unfold N, X, nn, total. rewrite INR_IZR_INZ, <- !mult_IZR. apply IZR_le.
    assert (FL : Forall (lane_ok c b) (map fst ls)) by (apply Forall_map; eapply Forall_impl; [|exact F]; intros q (? & _); assumption).
    pose proof (lanes_bound c b (map fst ls) ltac:(lia) ltac:(lia) FL) as [_ LB]. unfold zlen in LB. rewrite map_length, map_map in LB. exact LB. }
  assert (SZR : X * (nn + 16) <= bpow radix2 40).
  { unfold X, nn. change (bpow radix2 40) with (IZR (2 ^ 40)). rewrite INR_IZR_INZ. change 16 with (IZR 16). rewrite <- plus_IZR, <- !mult_IZR.
    apply IZR_le. unfold zlen in SZ. lia. }
  assert (XN : nn = 0 \/ 1 <= nn).
  { unfold nn. destruct (length ls) as [|k]; [left; reflexivity|right]. rewrite S_INR. pose proof (pos_INR k). lra. }
  assert (n47 : nn <= bpow radix2 40).
  { destruct XN as [->|X1]; [apply bpow_ge_0|]. assert (nn <= X).
    { unfold X. rewrite <- (Rmult_1_r nn) at 1. apply Rmult_le_compat_l; [lra|]. rewrite <- (Rmult_1_r 1). apply Rmult_le_compat; lra. }
    eapply Rle_trans; [|exact SZR]. rewrite <- (Rmult_1_r nn). apply Rmult_le_compat; lra. }
  assert (KN : kok (length ls)).
  { unfold kok. fold nn. apply Rle_trans with (bpow radix2 40 * u64); [apply Rmult_le_compat_r; lra|]. unfold u64. rewrite <- bpow_plus.
    change (/ 4) with (bpow radix2 (-2)). apply bpow_le. lia. }
  assert (TL : bpow radix2 (-462) <= T).
  { replace (-462)%Z with ((-200 - 31) + (-200 - 31))%Z by lia. rewrite bpow_plus. unfold T.
    pose proof (div_range _ _ _ _ (proj2 MV) (IZR_code _ Hr)) as [RV _]. pose proof (div_range _ _ _ _ (proj2 MG) (IZR_code _ Hb)) as [RG _].
    apply Rmult_le_compat; try apply bpow_ge_0; assumption. }
  assert (TU : T <= bpow radix2 400).
  { replace 400%Z with (200 + 200)%Z by lia. rewrite bpow_plus. unfold T.
    pose proof (div_range _ _ _ _ (proj2 MV) (IZR_code _ Hr)) as [_ RV]. pose proof (div_range _ _ _ _ (proj2 MG) (IZR_code _ Hb)) as [_ RG].
    apply Rmult_le_compat; try lra; assumption. }
  (* underflow is negligible *)
  assert (SM : 8 * (t64 * Q) + 8 * (nn * t64) <= u64 * T).
  { assert (A1 : t64 * Q <= bpow radix2 (-753)).
    { apply Rle_trans with (bpow radix2 (-1000) * (bpow radix2 40 * bpow radix2 200)).
      - apply Rmult_le_compat; try lra. + unfold t64; lra. + eapply Rle_trans; [exact Q1|]. apply Rmult_le_compat_r; [apply bpow_ge_0|lra].
      - rewrite <- !bpow_plus. apply bpow_le. lia. }
    assert (A2 : nn * t64 <= bpow radix2 (-753)).
    { apply Rle_trans with (bpow radix2 40 * bpow radix2 (-1000)); [apply Rmult_le_compat; try lra; unfold t64; lra|]. rewrite <- bpow_plus. apply bpow_le. lia. }
    apply Rle_trans with (bpow radix2 4 * bpow radix2 (-753)); [change (bpow radix2 4) with 16; lra|].
    apply Rle_trans with (bpow radix2 (-53) * bpow radix2 (-462)); [rewrite <- !bpow_plus; apply bpow_le; lia|].
    apply Rmult_le_compat; try apply bpow_ge_0; [unfold u64; lra|exact TL]. }
  assert (NH : N * T + h * T = (N + h) * T) by ring. rewrite NH in *.
  assert (X800 : 2 * ((N + h) * T) + 2 * t64 * Q <= bpow radix2 800).
  { assert (0 <= nn * t64) by nra. assert (X <= bpow radix2 40).
    { eapply Rle_trans; [|exact SZR]. rewrite <- (Rmult_1_r X) at 1. apply Rmult_le_compat_l; lra. }
    assert ((N + h) * T <= (2 * bpow radix2 40) * bpow radix2 400) by (apply Rmult_le_compat; lra).
    assert (UT1 : u64 * T <= T) by nra.
    assert (P47 : 1 <= bpow radix2 40) by (change 1 with (bpow radix2 0); apply bpow_le; lia).
    apply Rle_trans with (bpow radix2 3 * (bpow radix2 40 * bpow radix2 400)).
    - change (bpow radix2 3) with 8. pose proof (bpow_gt_0 radix2 400). nra.
    - rewrite <- !bpow_plus. apply bpow_le. lia. }
  assert (LP : length (pairs ls) = length ls) by (unfold pairs; apply map_length).
  destruct (sumprod_err _ X800 _ _ SP FP E2 ltac:(now rewrite LP)) as (FI & EI & _). rewrite LP in EI.
  pose proof (tau_le (length ls)) as TLE. fold nn in TLE.
  pose proof (bernoulli_hi (length ls) ltac:(unfold kok in KN; lra)) as BH. fold nn in BH. pose proof (pow_hi_ge1 (length ls)) as PH.
  set (A := (N + h) * T) in *. assert (A0 : 0 <= A) by (unfold A; apply Rmult_le_pos; lra).
  pose proof (aprods_nonneg (pairs ls)) as AP0.
  assert (KN' : nn * u64 <= / 4) by exact KN.
  assert (EI' : Rabs (B2R I - prods (pairs ls)) <= 4 * nn * u64 * A + (t64 * Q) + 4 * (nn * t64)).
  { eapply Rle_trans; [exact EI|].
    assert (((1 + u64) ^ length ls - 1) * aprods (pairs ls) <= 2 * (nn * u64) * (2 * A + 2 * t64 * Q)) by (apply Rmult_le_compat; lra).
    assert (tau (length ls) * t64 <= 4 * nn * t64) by (apply Rmult_le_compat_r; lra).
    assert (2 * (nn * u64) * (2 * t64 * Q) <= 2 * / 4 * (2 * t64 * Q)).
    { apply Rmult_le_compat_r; [|lra]. assert (0 <= t64 * Q) by nra. lra. }
    lra. }
  assert (EN : Rabs (B2R I - N * T) <= h * T + u64 * ((4 * nn + 13) * A + T)).
  { replace (B2R I - N * T) with ((B2R I - prods (pairs ls)) + (prods (pairs ls) - P) + (P - N * T)) by ring.
    eapply Rle_trans; [apply Rabs_triang|]. eapply Rle_trans; [apply Rplus_le_compat_r, Rabs_triang|]. assert (0 <= t64 * Q) by nra. assert (0 <= nn * t64) by nra. lra. }
  set (z := B2R I / T).
  assert (EZ : Rabs (z - N) <= h + u64 * ((4 * nn + 13) * (N + h) + 1)).
  { unfold z. replace (B2R I / T - N) with ((B2R I - N * T) * / T) by (field; lra). rewrite Rabs_mult, (Rabs_pos_eq (/ T)) by (left; now apply Rinv_0_lt_compat).
    apply (Rmult_le_reg_r T); [lra|]. rewrite Rmult_assoc, Rinv_l, Rmult_1_r by lra. eapply Rle_trans; [exact EN|]. unfold A. right. ring. }
  destruct (approx3_err _ _ (step_approx c b MV MG Fm Em Hr Hb)) as (FS & _ & ES). fold vs gs T in ES. set (s := B2R (adc_step c b)) in *.
  assert (S0 : T * (1 - 4 * u64) <= s <= T * (1 + 4 * u64)) by (apply Rabs_le_inv in ES; lra).
  assert (SP0 : 0 < s) by nra.
  (* total magnitude *)
  assert (BIG : u64 * ((4 * nn + 13) * (N + h) + 1) <= / 1024 - 40 * u64 - 24 * u64 * (N + h)).
  { assert (H8 : u64 * (8 * (X * (nn + 16))) <= u64 * (8 * bpow radix2 40)) by (apply Rmult_le_compat_l; lra).
    assert (H9 : u64 * (8 * bpow radix2 40) = / 1024).
    { replace (8 * bpow radix2 40) with (bpow radix2 43) by (replace 43%Z with (3 + 40)%Z by lia; rewrite bpow_plus; reflexivity).
      unfold u64. rewrite <- bpow_plus. reflexivity. }
    destruct XN as [XN|XN].
    - assert (XE : X = 0) by (unfold X; rewrite XN; ring). assert (NE : N = 0) by lra. assert (hE : h = 0) by lra. rewrite NE, hE. clear - UT UP. nra.
    - assert (N + h <= 2 * X) by lra. assert (1 <= X).
      { unfold X. rewrite <- (Rmult_1_r 1). apply Rmult_le_compat; try lra. rewrite <- (Rmult_1_r 1). apply Rmult_le_compat; lra. }
      assert (H37 : (4 * nn + 37) * (N + h) <= (4 * nn + 37) * (2 * X)) by (apply Rmult_le_compat_l; lra).
      assert (HH : (4 * nn + 37) * (N + h) + 41 <= 8 * (X * (nn + 16))).
      { eapply Rle_trans; [apply Rplus_le_compat_r, H37|]. ring_simplify. nra. }
      assert (u64 * ((4 * nn + 37) * (N + h) + 41) <= / 1024) by (rewrite <- H9; eapply Rle_trans; [|exact H8]; apply Rmult_le_compat_l; lra).
      lra. }
  assert (Nh0 : 0 <= N + h) by lra.
  assert (U0 : 0 <= u64 * (N + h)) by nra.
  assert (ZB : Rabs z <= N + h + 1).
  { apply Rabs_le_add in EZ. rewrite (Rabs_pos_eq N) in EZ by lra. lra. }
  assert (ZS : Rabs (B2R I / s - z) <= 5 * u64 * (N + h + 1)).
  { assert (EQ : B2R I / s - z = z * ((T - s) * / s)) by (unfold z; field; lra). rewrite EQ, Rabs_mult, Rabs_mult.
    rewrite (Rabs_pos_eq (/ s)) by (left; now apply Rinv_0_lt_compat).
    assert (Rabs (T - s) * / s <= 5 * u64).
    { apply (Rmult_le_reg_r s); [lra|]. rewrite Rmult_assoc, Rinv_l, Rmult_1_r by lra. rewrite Rabs_minus_sym. eapply Rle_trans; [exact ES|].
      apply Rle_trans with (5 * u64 * (T * (1 - 4 * u64))); [|apply Rmult_le_compat_l; lra]. assert (0 <= u64 * T) by nra. nra. }
    rewrite Rmult_comm. apply Rmult_le_compat; try apply Rabs_pos; try assumption. apply Rmult_le_pos; [apply Rabs_pos|left; now apply Rinv_0_lt_compat]. }
  assert (IS : Rabs (B2R I / s) <= 2 * (N + h + 1)).
  { apply Rabs_le_add in ZS. assert (5 * u64 * (N + h + 1) <= N + h + 1) by nra. lra. }
  assert (F900 : Rabs (B2R I / s) <= bpow radix2 900).
  { eapply Rle_trans; [exact IS|]. assert (X <= bpow radix2 40).
    { eapply Rle_trans; [|exact SZR]. rewrite <- (Rmult_1_r X) at 1. apply Rmult_le_compat_l; lra. }
    assert (P47 : 1 <= bpow radix2 40) by (change 1 with (bpow radix2 0); apply bpow_le; lia).
    apply Rle_trans with (bpow radix2 3 * bpow radix2 40); [change (bpow radix2 3) with 8; lra|]. rewrite <- bpow_plus. apply bpow_le. lia. }
  destruct (fdiv_err I (adc_step c b) FI ltac:(fold s; lra) F900) as (FQ & EQ). fold s in EQ. set (q := fdiv I (adc_step c b)) in *.
  assert (EQ' : Rabs (B2R q - N) <= h + / 1024).
  { replace (B2R q - N) with ((B2R q - B2R I / s) + (B2R I / s - z) + (z - N)) by ring.
    eapply Rle_trans; [apply Rabs_triang|]. eapply Rle_trans; [apply Rplus_le_compat_r, Rabs_triang|].
    assert (u64 * Rabs (B2R I / s) <= u64 * (2 * (N + h + 1))) by (apply Rmult_le_compat_l; lra).
    assert (t64 <= u64) by (unfold t64, u64; apply bpow_le; lia). lra. }
  unfold np_rint. rewrite fnearest_R.
  replace (IZR (ZnearestE (B2R q)) - N) with ((IZR (ZnearestE (B2R q)) - B2R q) + (B2R q - N)) by ring.
  eapply Rle_trans; [apply Rabs_triang|]. pose proof (Znearest_half (B2R q)). lra.
Qed.
End Chain.
