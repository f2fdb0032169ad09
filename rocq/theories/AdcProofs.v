(** Conversion errors. *)
From Verif Require Import PyBase PyLemmas FloatModel AnalogProofs DataConvert ConfigModel MemoryModel MvmuModel FloatProofs AnalogChain NoiseAnalog AdcModel AdcSpec.
From Flocq Require Import IEEE754.BinarySingleNaN Core Relative.
From Coq Require Import Permutation Reals Lra Psatz ZifyNat ZifyBool.
Open Scope R_scope.

Lemma fsub_err x y : fin x -> fin y -> Rabs (B2R x - B2R y) <= bpow radix2 900 ->
  fin (fsub x y) /\ Rabs (B2R (fsub x y) - (B2R x - B2R y)) <= u64 * Rabs (B2R x - B2R y) + t64.
Proof.
  intros Fx Fy B. pose proof (Bminus_correct prec64 emax64 _ _ mode_NE x y Fx Fy) as C. cbn [round_mode] in C.
  rewrite rnd64_fits in C by exact B. destruct C as (E & F & _). split; [exact F|]. unfold fsub. rewrite E. apply rnd64_err.
Qed.
Lemma t64_small : t64 <= / 65536 / 65536.
Proof. unfold t64. replace (/ 65536 / 65536) with (bpow radix2 (-32)) by (change (bpow radix2 (-32)) with (/ IZR (2 ^ 32)); change (2 ^ 32)%Z with (65536 * 65536)%Z; rewrite mult_IZR; field). apply bpow_le. lia. Qed.
Lemma p40 : bpow radix2 40 = 1099511627776. Proof. cbn. reflexivity. Qed.
Lemma p900 y : y <= 1099511627776 * 8 -> y <= bpow radix2 900.
Proof. intros H. eapply Rle_trans; [exact H|]. replace (1099511627776 * 8) with (bpow radix2 43) by (cbn; lra). apply bpow_le. lia. Qed.
Lemma u64_at y : Rabs y <= 1099511627776 * 4 -> u64 * Rabs y <= / 2048.
Proof.
  intros H. replace (/ 2048) with (u64 * (1099511627776 * 4)).
  - apply Rmult_le_compat_l; [left; apply u64_pos|exact H].
  - unfold u64. replace (1099511627776 * 4) with (bpow radix2 42) by (cbn; lra). rewrite <- bpow_plus. cbn. lra.
Qed.
Lemma fabs_R x : fin x -> fin (fabs x) /\ B2R (fabs x) = Rabs (B2R x).
Proof. intros F. split; [unfold fin, fabs; now rewrite is_finite_Babs|apply B2R_Babs]. Qed.

(** One element: the reported error is right up to 1/512, and it is at most 1 + 1/512. *)
Lemma element_error x : sampled x -> let z := adc_int (a_step x) (a_pos x) (a_neg x) in
  fin (adc_error x) /\ 0 <= B2R (adc_error x) /\ Rabs (B2R (adc_error x) - distance x z) <= / 256 /\ distance x z <= 1 + / 512.
Proof.
  intros [S (Fp & Bp) (Fn & Bn)] z. rewrite p40 in *. unfold adc_error, adc_ideal, distance. fold z.
  destruct (fdiv_err (a_pos x) (a_step x) Fp ltac:(lra)) as (Fa & Ea); [apply p900; lra|].
  destruct (fdiv_err (a_neg x) (a_step x) Fn ltac:(lra)) as (Fb & Eb); [apply p900; lra|].
  set (a := fdiv (a_pos x) (a_step x)) in *. set (b := fdiv (a_neg x) (a_step x)) in *.
  set (p := B2R (a_pos x) / B2R (a_step x)) in *. set (n := B2R (a_neg x) / B2R (a_step x)) in *.
  replace ((B2R (a_pos x) - B2R (a_neg x)) / B2R (a_step x)) with (p - n) by (unfold p, n; field; lra).
  assert (U1 : u64 * Rabs p <= / 8192).
  { replace (/ 8192) with (u64 * 1099511627776); [apply Rmult_le_compat_l; [left; apply u64_pos|exact Bp]|]. unfold u64. rewrite <- p40, <- bpow_plus. cbn. lra. }
  assert (U2 : u64 * Rabs n <= / 8192).
  { replace (/ 8192) with (u64 * 1099511627776); [apply Rmult_le_compat_l; [left; apply u64_pos|exact Bn]|]. unfold u64. rewrite <- p40, <- bpow_plus. cbn. lra. }
  pose proof t64_small as TS. pose proof t64_pos as TP.
  assert (Da : Rabs (B2R a - p) <= / 4096) by lra. assert (Db : Rabs (B2R b - n) <= / 4096) by lra. clear Ea Eb.
  assert (Z1 : z = (ZnearestE (B2R a) - ZnearestE (B2R b))%Z) by (unfold z, adc_int, np_rint; rewrite !fnearest_R; reflexivity).
  pose proof (Znearest_half (fun x => negb (Z.even x)) (B2R a)) as Ha. pose proof (Znearest_half (fun x => negb (Z.even x)) (B2R b)) as Hb.
  assert (IZ : IZR z = IZR (ZnearestE (B2R a)) - IZR (ZnearestE (B2R b))) by (rewrite Z1; apply minus_IZR).
  apply Rabs_le_inv in Bp, Bn, Da, Db, Ha, Hb.
  assert (BZ : Rabs (IZR z) <= 1099511627776 * 3) by (apply Rabs_le; lra).
  assert (FZ : (Z.abs z <= 2 ^ 53)%Z).
  { apply le_IZR. rewrite abs_IZR. eapply Rle_trans; [exact BZ|]. change (2 ^ 53)%Z with 9007199254740992%Z. lra. }
  destruct (f_of_Z_correct z FZ) as (Fz & Ez).
  assert (B1 : Rabs (B2R a - B2R b) <= 1099511627776 * 4) by (apply Rabs_le; lra).
  destruct (fsub_err a b Fa Fb) as (Fi & Ei); [apply p900; lra|]. set (i := fsub a b) in *.
  pose proof (u64_at _ B1) as U3. assert (Di : Rabs (B2R i - (B2R a - B2R b)) <= / 1024) by lra. apply Rabs_le_inv in Di, B1. clear Ei U3.
  assert (B2 : Rabs (B2R i - B2R (f_of_Z z)) <= 2) by (rewrite Ez; apply Rabs_le; lra).
  destruct (fsub_err i (f_of_Z z) Fi Fz) as (Fe & Ee); [apply p900; lra|]. pose proof (u64_at (B2R i - B2R (f_of_Z z)) ltac:(lra)) as U4.
  destruct (fabs_R _ Fe) as (Ff & Ef). rewrite Ef. split; [exact Ff|]. split; [apply Rabs_pos|]. rewrite Ez in *.
  assert (De : Rabs (B2R (fsub i (f_of_Z z)) - (B2R i - IZR z)) <= / 1024) by lra. apply Rabs_le_inv in De. split.
  - eapply Rle_trans; [apply Rabs_triang_inv2|]. apply Rabs_le. lra.
  - apply Rabs_le. lra.
Qed.

(** ** Sums in any order *)
Definition reals (l : list f64) : R := rsum (map (@B2R prec64 emax64) l).
Lemma reals_app a b : reals (a ++ b) = reals a + reals b.
Proof. unfold reals. now rewrite map_app, rsum_app. Qed.
Lemma reals_perm a b : Permutation a b -> reals a = reals b.
Proof. intros H. unfold reals. now apply rsum_perm, Permutation_map. Qed.
Lemma u64_at30 y : Rabs y <= 2147483648 * 2 -> u64 * Rabs y <= / 2097152.
Proof.
  intros H. replace (/ 2097152) with (u64 * (2147483648 * 2)).
  - apply Rmult_le_compat_l; [left; apply u64_pos|exact H].
  - unfold u64. replace (2147483648 * 2) with (bpow radix2 32) by (cbn; lra). rewrite <- bpow_plus. cbn. lra.
Qed.
(** [n] elements: at most [n - 1] additions that round. *)
Definition adds (l : list f64) : R := match l with [] => 0 | _ => IZR (zlen l) - 1 end.
Lemma adds_bound l : 0 <= adds l <= IZR (zlen l).
Proof. destruct l as [|x l]; cbn [adds]; unfold zlen; cbn [length]; [change (Z.of_nat 0) with 0%Z; lra|]. assert (1 <= IZR (Z.of_nat (S (length l)))) by (apply IZR_le; lia). lra. Qed.
Lemma reals_nonneg l : Forall (fun x => fin x /\ 0 <= B2R x <= 2) l -> 0 <= reals l <= 2 * IZR (zlen l).
Proof.
  unfold reals, zlen. induction 1 as [|x l (_ & H) _ IH]; cbn [map rsum length]; [change (Z.of_nat 0) with 0%Z; lra|]. rewrite Nat2Z.inj_succ, succ_IZR. lra.
Qed.
Lemma sums_err l v : sums l v -> Forall (fun x => fin x /\ 0 <= B2R x <= 2) l -> (zlen l <= 2 ^ 30)%Z ->
  fin v /\ 0 <= B2R v /\ Rabs (B2R v - reals l) <= adds l / 1048576.
Proof.
  induction 1 as [|x|l1 l2 v1 v2 H1 IH1 H2 IH2|l l' v P H IH]; intros F N.
  - split; [reflexivity|]. change (B2R f0) with 0. unfold reals. cbn. rewrite Rminus_0_r, Rabs_R0. lra.
  - inversion F as [|? ? (F1 & B1) _]; subst. split; [exact F1|]. split; [lra|]. unfold reals, adds, zlen. cbn [map rsum length]. change (Z.of_nat 1) with 1%Z.
    replace (B2R x - (B2R x + 0)) with 0 by ring. rewrite Rabs_R0. lra.
  - apply Forall_app in F as [G1 G2]. assert (ZL : zlen (l1 ++ l2) = (zlen l1 + zlen l2)%Z) by (unfold zlen; rewrite app_length; lia). rewrite ZL in N.
    assert (0 <= zlen l1)%Z by (unfold zlen; lia). assert (0 <= zlen l2)%Z by (unfold zlen; lia).
    destruct (IH1 G1 ltac:(lia)) as (F1 & P1 & E1). destruct (IH2 G2 ltac:(lia)) as (F2 & P2 & E2).
    destruct l1 as [|x1 l1].
    { unfold reals in E1. cbn [map rsum adds] in E1. assert (Z1 : B2R v1 = 0).
      { unfold Rdiv in E1. rewrite Rmult_0_l, Rminus_0_r in E1. pose proof (Rabs_pos (B2R v1)). assert (Rabs (B2R v1) = 0) by lra. destruct (Req_dec (B2R v1) 0) as [K|K]; [exact K|]. apply Rabs_no_R0 in K. lra. }
      destruct (fadd_zero_l v2 v1 F2 F1 Z1) as (F3 & E3). split; [exact F3|]. rewrite E3. split; [exact P2|]. exact E2. }
    destruct l2 as [|x2 l2].
    { unfold reals in E2. cbn [map rsum adds] in E2. assert (Z2 : B2R v2 = 0).
      { unfold Rdiv in E2. rewrite Rmult_0_l, Rminus_0_r in E2. pose proof (Rabs_pos (B2R v2)). assert (Rabs (B2R v2) = 0) by lra. destruct (Req_dec (B2R v2) 0) as [K|K]; [exact K|]. apply Rabs_no_R0 in K. lra. }
      destruct (fadd_zero_r v1 v2 F1 F2 Z2) as (F3 & E3). split; [exact F3|]. rewrite E3, app_nil_r. split; [exact P1|]. exact E1. }
    pose proof (reals_nonneg _ G1) as R1. pose proof (reals_nonneg _ G2) as R2. pose proof (adds_bound (x1 :: l1)) as A1. pose proof (adds_bound (x2 :: l2)) as A2.
    rewrite reals_app. assert (AD : adds ((x1 :: l1) ++ x2 :: l2) = adds (x1 :: l1) + adds (x2 :: l2) + 1).
    { cbn [adds app]. change (x1 :: l1 ++ x2 :: l2) with ((x1 :: l1) ++ x2 :: l2). rewrite ZL, plus_IZR. lra. }
    rewrite AD. apply Rabs_le_inv in E1, E2.
    assert (NN : IZR (zlen (x1 :: l1)) + IZR (zlen (x2 :: l2)) <= 1073741824) by (rewrite <- plus_IZR; apply IZR_le; lia).
    assert (BB : Rabs (B2R v1 + B2R v2) <= 2147483648 * 2) by (rewrite Rabs_pos_eq; lra).
    destruct (fadd_err v1 v2 F1 F2) as (F3 & E3); [eapply Rle_trans; [exact BB|apply p900; lra]|]. pose proof (u64_at30 _ BB) as U. pose proof t64_small. pose proof t64_pos.
    assert (E4 : Rabs (B2R (fadd v1 v2) - (B2R v1 + B2R v2)) <= / 1048576) by lra. clear E3. split; [exact F3|]. split.
    + pose proof (Bplus_correct prec64 emax64 _ _ mode_NE v1 v2 F1 F2) as C. cbn [round_mode] in C. rewrite rnd64_fits in C by (eapply Rle_trans; [exact BB|apply p900; lra]).
      destruct C as (E & _ & _). unfold fadd. rewrite E. apply round_ge_generic; [apply (fexp_correct prec64 emax64); exact eq_refl|apply valid_rnd_N|apply generic_format_0|lra].
    + apply Rabs_le_inv in E4. apply Rabs_le. lra.
  - assert (LE : zlen l = zlen l') by (unfold zlen; now rewrite (Permutation_length P)). assert (AE : adds l = adds l').
    { destruct l, l'; cbn [adds]; rewrite ?LE; try reflexivity; unfold zlen in LE; cbn [length] in LE; lia. }
    rewrite <- (reals_perm _ _ P), <- AE. apply IH; [|lia]. eapply Permutation_Forall; [apply Permutation_sym; exact P|exact F].
Qed.
Lemma fadd_grows x y : fin x -> fin (fadd x y) -> fin y -> 0 <= B2R y -> Rabs (B2R x + B2R y) <= bpow radix2 900 -> B2R x <= B2R (fadd x y).
Proof.
  intros Fx _ Fy H B. pose proof (Bplus_correct prec64 emax64 _ _ mode_NE x y Fx Fy) as C. cbn [round_mode] in C. rewrite rnd64_fits in C by exact B.
  destruct C as (E & _ & _). unfold fadd. rewrite E. apply round_ge_generic; [apply (fexp_correct prec64 emax64); exact eq_refl|apply valid_rnd_N|apply generic_format_B2R|lra].
Qed.

(** ** All conversions *)
Definition digit (x : element) : Z := adc_int (a_step x) (a_pos x) (a_neg x).
Lemma errors_ok l : Forall sampled l -> Forall (fun x => fin x /\ 0 <= B2R x <= 2) (map adc_error l) /\
  Rabs (reals (map adc_error l) - total_distance l (map digit l)) <= IZR (zlen l) / 256 /\ 0 <= total_distance l (map digit l) <= IZR (zlen l) * (1 + / 512).
Proof.
  unfold reals, zlen. induction 1 as [|x l S _ (F & E & B)]; cbn [map rsum total_distance length]; [change (Z.of_nat 0) with 0%Z; split; [constructor|]; rewrite Rminus_0_r, Rabs_R0; lra|].
  destruct (element_error x S) as (F1 & P1 & E1 & B1). cbv zeta in *. fold (digit x) in *. rewrite Nat2Z.inj_succ, succ_IZR. apply Rabs_le_inv in E, E1.
  assert (0 <= distance x (digit x)) by apply Rabs_pos. split; [constructor; [|exact F]; split; [exact F1|lra]|]. split; [apply Rabs_le|]; lra.
Qed.
Theorem errors_total l v : sums (map adc_error l) v -> Forall sampled l -> (zlen l <= 2 ^ 30)%Z ->
  is_finite v = true /\ Rabs (B2R v - total_distance l (map digit l)) <= IZR (zlen l) / 128 /\ 0 <= B2R v <= IZR (zlen l) * (1 + / 64).
Proof.
  intros S F N. destruct (errors_ok l F) as (G & E & B). destruct (sums_err _ _ S G) as (Fv & Pv & Ev); [unfold zlen in *; rewrite map_length; exact N|].
  pose proof (adds_bound (map adc_error l)) as A. replace (zlen (map adc_error l)) with (zlen l) in A by (unfold zlen; now rewrite map_length).
  apply Rabs_le_inv in E, Ev. split; [exact Fv|]. split; [apply Rabs_le|]; lra.
Qed.
