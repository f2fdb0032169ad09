(** The analog path from cells and slices to the converted integer, in float64. *)
From Verif Require Import PyBase PyLemmas FloatModel AnalogProofs DataConvert ConfigModel MemoryModel MvmuModel FloatProofs.
From Flocq Require Import IEEE754.BinarySingleNaN Core.
From Coq Require Import Permutation Reals Lra Psatz ZifyNat ZifyBool.
Open Scope R_scope.

(** A positive float64 of moderate magnitude. *)
Definition mid (x : f64) : Prop := fin x /\ bpow radix2 (-200) <= B2R x <= bpow radix2 200.

Lemma mid_pos x : mid x -> 0 < B2R x.
Proof. intros (_ & H & _). pose proof (bpow_gt_0 radix2 (-200)). lra. Qed.

Lemma approx_wk j k x r : (j <= k)%nat -> approx j x r -> approx k x r.
Proof. apply approx_weaken. Qed.

Lemma kok_small k : (k <= 1000)%nat -> kok k.
Proof.
  intros H. unfold kok. apply Rle_trans with (INR 1000 * u64).
  - apply Rmult_le_compat_r; [left; apply u64_pos|now apply le_INR].
  - unfold u64. replace (INR 1000) with 1000 by (cbn; lra).
    apply Rle_trans with (bpow radix2 10 * bpow radix2 (-53)).
    + apply Rmult_le_compat_r; [apply bpow_ge_0|]. cbn. lra.
    + rewrite <- bpow_plus. change (/4) with (bpow radix2 (-2)). apply bpow_le. lia.
Qed.

Lemma moderate_range r a b :
  (-800 <= a)%Z -> (b <= 800)%Z -> bpow radix2 a <= r <= bpow radix2 b -> moderate' r.
Proof.
  intros Ha Hb [L U]. right. split.
  - eapply Rle_trans; [|exact L]. now apply bpow_le.
  - eapply Rle_trans; [exact U|]. now apply bpow_le.
Qed.

(** The largest code of b bits, between 1 and 2^31. *)
Lemma code_bounds b : (1 <= b <= 31)%Z -> (1 <= 2 ^ b - 1 < 2 ^ 31)%Z.
Proof.
  intros H. assert (2 ^ 1 <= 2 ^ b)%Z by (apply Z.pow_le_mono_r; lia).
  assert (2 ^ b <= 2 ^ 31)%Z by (apply Z.pow_le_mono_r; lia). lia.
Qed.

Lemma IZR_code b : (1 <= b <= 31)%Z -> 1 <= IZR (2 ^ b - 1) <= bpow radix2 31.
Proof.
  intros H. pose proof (code_bounds b H) as [L U]. split; [now apply IZR_le|].
  change (bpow radix2 31) with (IZR (2 ^ 31)). apply IZR_le. lia.
Qed.

Lemma div_range x y a b :
  bpow radix2 a <= x <= bpow radix2 b -> 1 <= y <= bpow radix2 31 ->
  bpow radix2 (a - 31) <= x / y <= bpow radix2 b.
Proof.
  intros [L U] [Ly Uy]. pose proof (bpow_gt_0 radix2 a). pose proof (bpow_gt_0 radix2 31).
  unfold Rdiv. split.
  - unfold Z.sub. rewrite bpow_plus. apply Rmult_le_compat; [apply bpow_ge_0|apply bpow_ge_0|exact L|].
    rewrite bpow_opp. apply Rinv_le_contravar; lra.
  - rewrite <- (Rmult_1_r (bpow radix2 b)). apply Rmult_le_compat; [lra| |exact U|].
    + left. apply Rinv_0_lt_compat. lra.
    + rewrite <- Rinv_1. apply Rinv_le_contravar; lra.
Qed.

(** A moderate float over the largest code: one rounding. *)
Lemma step1_approx x b : mid x -> (1 <= b <= 31)%Z ->
  approx 1 (fdiv x (f_of_Z (2 ^ b - 1))) (B2R x / IZR (2 ^ b - 1)).
Proof.
  intros M H. destruct M as (F & R1). pose proof (code_bounds b H). pose proof (IZR_code b H).
  apply (approx_div 0 0).
  - apply kok_small. lia.
  - apply (moderate_range _ (-200 - 31) 200); try lia. now apply div_range.
  - lra.
  - apply approx_exact; [exact F|]. pose proof (bpow_gt_0 radix2 (-200)). lra.
  - apply approx_f_of_Z. lia.
Qed.

(** ** Conductances *)
Lemma conductance_approx v b gmin gmax g :
  mid gmax -> fin gmin -> B2R gmin = 0 -> (1 <= b <= 31)%Z -> (0 <= v)%Z ->
  int_to_conductance v b gmin gmax = Ok g ->
  approx 2 g (IZR v * (B2R gmax / IZR (2 ^ b - 1))) /\ (v < 2 ^ b)%Z.
Proof.
  intros M Fm Em Hb Hv. unfold int_to_conductance. destruct (v <? 2 ^ b)%Z eqn:Lv; [|discriminate]. cbn [negb].
  intros [= <-]. split; [|lia]. pose proof (code_bounds b Hb). pose proof (IZR_code b Hb).
  destruct (fsub_zero gmax gmin (proj1 M) Fm Em) as (Fs & Es).
  assert (Ms : mid (fsub gmax gmin)) by (split; [exact Fs|]; rewrite Es; apply M).
  pose proof (step1_approx _ b Ms Hb) as S1. rewrite Es in S1.
  assert (A : approx 2 (fmul (f_of_Z v) (fdiv (fsub gmax gmin) (f_of_Z (2 ^ b - 1))))
                (IZR v * (B2R gmax / IZR (2 ^ b - 1)))).
  { apply (approx_mul 0 1).
    - apply kok_small. lia.
    - destruct (Z.eq_dec v 0) as [->|Nz]; [left; ring|].
      pose proof (div_range _ _ _ _ (proj2 M) H0) as [L U].
      apply (moderate_range _ (-200 - 31) (31 + 200)); try lia.
      assert (V1 : 1 <= IZR v) by (apply IZR_le; lia).
      assert (V2 : IZR v <= bpow radix2 31).
      { change (bpow radix2 31) with (IZR (2 ^ 31)). apply IZR_le. lia. }
      pose proof (bpow_gt_0 radix2 (-200 - 31)). split.
      + rewrite <- (Rmult_1_l (bpow _ _)). apply Rmult_le_compat; lra.
      + rewrite bpow_plus. apply Rmult_le_compat; lra.
    - apply approx_f_of_Z. lia.
    - exact S1. }
  destruct (fadd_zero_l _ _ (proj1 A) Fm Em) as (Fa & Ea).
  split; [exact Fa|]. rewrite Ea. apply A.
Qed.

Lemma conductance_fin v b gmin gmax : (v < 2 ^ b)%Z -> exists g, int_to_conductance v b gmin gmax = Ok g.
Proof. intros H. unfold int_to_conductance. replace (v <? 2 ^ b)%Z with true by lia. eexists; reflexivity. Qed.

(** ** DAC *)
Lemma dac_approx c d : mid (c_vdd c) -> (1 <= c_dac_res c <= 31)%Z -> (0 <= d < 2 ^ c_dac_res c)%Z ->
  approx 2 (dac_convert c d) (IZR d / IZR (2 ^ c_dac_res c - 1) * B2R (c_vdd c)).
Proof.
  intros M Hr Hd. unfold dac_convert. rewrite pow2_shiftl by lia.
  set (b := c_dac_res c) in *. pose proof (code_bounds b Hr). pose proof (IZR_code b Hr) as HC.
  assert (D0 : 0 <= IZR d) by (apply IZR_le; lia).
  assert (D1 : IZR d <= IZR (2 ^ b - 1)) by (apply IZR_le; lia).
  assert (Q : IZR d / IZR (2 ^ b - 1) <= 1).
  { apply (Rmult_le_reg_r (IZR (2 ^ b - 1))); [lra|]. unfold Rdiv. rewrite Rmult_assoc, Rinv_l, Rmult_1_l, Rmult_1_r; lra. }
  assert (R1 : d <> 0%Z -> bpow radix2 (0 - 31) <= IZR d / IZR (2 ^ b - 1) <= bpow radix2 31).
  { intros Nz. apply div_range; [|exact HC]. split; [change (bpow radix2 0) with 1; apply IZR_le; lia|].
    change (bpow radix2 31) with (IZR (2 ^ 31)). apply IZR_le. lia. }
  assert (A1 : approx 1 (fdiv (f_of_Z d) (f_of_Z (2 ^ b - 1))) (IZR d / IZR (2 ^ b - 1))).
  { apply (approx_div 0 0).
    - apply kok_small; lia.
    - destruct (Z.eq_dec d 0) as [->|Nz]; [left; unfold Rdiv; ring|].
      apply (moderate_range _ (0 - 31) 31); try lia. now apply R1.
    - lra.
    - apply approx_f_of_Z. lia.
    - apply approx_f_of_Z. lia. }
  apply (approx_mul 1 0).
  - apply kok_small. lia.
  - destruct (Z.eq_dec d 0) as [->|Nz]; [left; unfold Rdiv; ring|].
    destruct (R1 Nz) as [L _]. destruct M as (_ & LV & UV).
    apply (moderate_range _ (-31 + -200) 200); try lia.
    pose proof (bpow_gt_0 radix2 (-200)). pose proof (bpow_gt_0 radix2 (-31)). split.
    + rewrite bpow_plus. apply Rmult_le_compat; try lra. exact L.
    + rewrite <- (Rmult_1_l (bpow radix2 200)). apply Rmult_le_compat; lra || (pose proof (bpow_gt_0 radix2 (0 - 31)); lra).
  - apply fclip01_approx; [exact Q|exact A1].
  - apply approx_exact; [apply M|]. left. now apply mid_pos.
Qed.

(** ** Current step of the ADC *)
Lemma step_approx c b : mid (c_vdd c) -> mid (c_gmax c) -> fin (c_gmin c) -> B2R (c_gmin c) = 0 ->
  (1 <= c_dac_res c <= 31)%Z -> (1 <= b <= 31)%Z ->
  approx 3 (adc_step c b) (B2R (c_vdd c) / IZR (2 ^ c_dac_res c - 1) * (B2R (c_gmax c) / IZR (2 ^ b - 1))).
Proof.
  intros MV MG Fm Em Hr Hb. unfold adc_step.
  destruct (fsub_zero _ _ (proj1 MG) Fm Em) as (Fs & Es).
  assert (Ms : mid (fsub (c_gmax c) (c_gmin c))) by (split; [exact Fs|]; rewrite Es; apply MG).
  pose proof (step1_approx _ b Ms Hb) as S1. rewrite Es in S1.
  pose proof (step1_approx _ (c_dac_res c) MV Hr) as S2.
  apply (approx_mul 1 1); [apply kok_small; lia| |exact S2|exact S1].
  pose proof (div_range _ _ _ _ (proj2 MV) (IZR_code _ Hr)) as [L1 U1].
  pose proof (div_range _ _ _ _ (proj2 MG) (IZR_code _ Hb)) as [L2 U2].
  apply (moderate_range _ ((-200 - 31) + (-200 - 31)) (200 + 200)); try lia.
  pose proof (bpow_gt_0 radix2 (-200 - 31)). rewrite !bpow_plus.
  split; apply Rmult_le_compat; lra.
Qed.

(** ** The whole chain *)

(** Cells and input codes with their float values. *)
Record lane := MkLane { l_v : Z; l_d : Z; l_g : f64; l_x : f64 }.
Definition lane_ok (c : mvmu_cfg) (b : Z) (l : lane) : Prop :=
  (0 <= l_v l < 2 ^ b)%Z /\ (0 <= l_d l < 2 ^ c_dac_res c)%Z /\
  approx 2 (l_g l) (IZR (l_v l) * (B2R (c_gmax c) / IZR (2 ^ b - 1))) /\
  approx 2 (l_x l) (IZR (l_d l) / IZR (2 ^ c_dac_res c - 1) * B2R (c_vdd c)).
Definition lane_prod (l : lane) : Z := (l_v l * l_d l)%Z.

Lemma rsum_lanes c b (ls : list lane) :
  rsum (map (fun l => (IZR (l_v l) * (B2R (c_gmax c) / IZR (2 ^ b - 1))) *
                      (IZR (l_d l) / IZR (2 ^ c_dac_res c - 1) * B2R (c_vdd c))) ls)
  = IZR (zsum (map lane_prod ls)) *
    (B2R (c_vdd c) / IZR (2 ^ c_dac_res c - 1) * (B2R (c_gmax c) / IZR (2 ^ b - 1))).
Proof.
  induction ls as [|l ls IH]; [cbn; ring|]. cbn [map rsum]. rewrite IH.
  change (zsum (lane_prod l :: map lane_prod ls)) with (lane_prod l + zsum (map lane_prod ls))%Z.
  rewrite plus_IZR. unfold lane_prod at 2. rewrite mult_IZR. unfold Rdiv. ring.
Qed.

Lemma lanes_bound c b ls : (0 <= b)%Z -> (0 <= c_dac_res c)%Z -> Forall (lane_ok c b) ls ->
  (0 <= zsum (map lane_prod ls) <= zlen ls * ((2 ^ b - 1) * (2 ^ c_dac_res c - 1)))%Z.
Proof.
  intros Hb Hr H. assert (0 < 2 ^ b)%Z by (apply Z.pow_pos_nonneg; lia).
  assert (0 < 2 ^ c_dac_res c)%Z by (apply Z.pow_pos_nonneg; lia).
  induction H as [|l ls (V & D & _) _ IH].
  - cbn. lia.
  - cbn [map]. change (zsum (lane_prod l :: map lane_prod ls)) with (lane_prod l + zsum (map lane_prod ls))%Z.
    unfold zlen in *. cbn [length]. unfold lane_prod at 1 3.
    assert (0 <= l_v l * l_d l <= (2 ^ b - 1) * (2 ^ c_dac_res c - 1))%Z by nia. nia.
Qed.

Lemma chain_exact c b (ls : list lane) I :
  mid (c_vdd c) -> mid (c_gmax c) -> fin (c_gmin c) -> B2R (c_gmin c) = 0 ->
  (1 <= c_dac_res c <= 31)%Z -> (1 <= b <= 31)%Z ->
  Forall (lane_ok c b) ls ->
  sumprod (map (fun l => (l_g l, l_x l)) ls) I ->
  (zsum (map lane_prod ls) * (zlen ls + 12) < 2 ^ 51)%Z -> (zlen ls + 12 <= 2 ^ 51)%Z ->
  np_rint (fdiv I (adc_step c b)) = zsum (map lane_prod ls).
Proof.
  intros MV MG Fm Em Hr Hb Hl HI HN Hn.
  pose proof (step_approx c b MV MG Fm Em Hr Hb) as AS.
  set (vs := B2R (c_vdd c) / IZR (2 ^ c_dac_res c - 1)) in *.
  set (gs := B2R (c_gmax c) / IZR (2 ^ b - 1)) in *.
  pose proof (div_range _ _ _ _ (proj2 MV) (IZR_code _ Hr)) as RV. fold vs in RV.
  pose proof (div_range _ _ _ _ (proj2 MG) (IZR_code _ Hb)) as RG. fold gs in RG.
  pose proof (lanes_bound c b ls ltac:(lia) ltac:(lia) Hl) as [N0 _].
  set (N := zsum (map lane_prod ls)) in *.
  assert (Kn : kok (length ls + 12)).
  { unfold kok. rewrite INR_IZR_INZ. apply Rle_trans with (bpow radix2 51 * u64).
    - apply Rmult_le_compat_r; [left; apply u64_pos|].
      change (bpow radix2 51) with (IZR (2 ^ 51)). apply IZR_le. unfold zlen in *. lia.
    - unfold u64. rewrite <- bpow_plus. change (/4) with (bpow radix2 (-2)). apply bpow_le. lia. }
  set (ex := fun l => (IZR (l_v l) * gs, IZR (l_d l) / IZR (2 ^ c_dac_res c - 1) * B2R (c_vdd c))).
  assert (T0 : 0 < vs * gs).
  { pose proof (bpow_gt_0 radix2 (-200 - 31)). apply Rmult_lt_0_compat; lra. }
  assert (TL : bpow radix2 (-462) <= vs * gs).
  { replace (-462)%Z with ((-200 - 31) + (-200 - 31))%Z by lia. rewrite bpow_plus.
    pose proof (bpow_gt_0 radix2 (-200 - 31)). apply Rmult_le_compat; lra. }
  assert (TU : vs * gs <= bpow radix2 400).
  { replace 400%Z with (200 + 200)%Z by lia. rewrite bpow_plus.
    pose proof (bpow_gt_0 radix2 (-200 - 31)). apply Rmult_le_compat; lra. }
  assert (NU : IZR N <= bpow radix2 51).
  { change (bpow radix2 51) with (IZR (2 ^ 51)). apply IZR_le. unfold zlen in *. nia. }
  assert (N0' : 0 <= IZR N) by (now apply IZR_le).
  pose (m := map (fun l => ((l_g l, l_x l), ex l)) ls).
  assert (ER : rsum (map exact_prod m) = IZR N * (vs * gs)).
  { unfold m. rewrite map_map. apply (rsum_lanes c b ls). }
  destruct (sumprod_approx 2 2 (vs * gs) (bpow radix2 51 * bpow radix2 400)
              ltac:(eapply Rle_trans; [|exact TL]; apply bpow_le; lia)
              ltac:(rewrite <- bpow_plus; apply bpow_le; lia)
              _ _ HI m) as [AI _].
  - unfold m. rewrite map_map. apply map_ext. intros; reflexivity.
  - unfold m. apply Forall_map. eapply Forall_impl; [|exact Hl]. intros l (_ & _ & G & X). split; assumption.
  - split; [exact T0|]. unfold m. rewrite map_map. apply Forall_map.
    eapply Forall_impl; [|exact Hl]. intros l (V & D & _). unfold exact_prod, ex; cbn [fst snd].
    replace (IZR (l_v l) * gs * (IZR (l_d l) / IZR (2 ^ c_dac_res c - 1) * B2R (c_vdd c)))
      with (IZR (l_v l * l_d l) * (vs * gs)) by (rewrite mult_IZR; unfold vs, Rdiv; ring).
    destruct (Z.eq_dec (l_v l * l_d l) 0) as [->|Nz]; [left; ring|right].
    assert (1 <= IZR (l_v l * l_d l)) by (apply IZR_le; nia). nra.
  - rewrite ER. apply Rmult_le_compat; lra.
  - rewrite map_length. eapply kok_le; [|exact Kn]. lia.
  - rewrite ER, map_length in AI. unfold np_rint.
    apply (fnearest_approx (length ls + 12)).
    + assert (Q : IZR N * (vs * gs) / (vs * gs) = IZR N).
      { unfold Rdiv. rewrite Rmult_assoc, Rinv_r, Rmult_1_r; lra. }
      rewrite <- Q.
      eapply approx_weaken; [|apply (approx_div (2 + 2 + 1 + length ls) 3); [| |exact T0|exact AI|exact AS]].
      * lia.
      * eapply kok_le; [|exact Kn]. lia.
      * rewrite Q.
        destruct (Z.eq_dec N 0) as [->|Nz]; [now left|].
        apply (moderate_range _ 0 51); try lia. split; [change (bpow radix2 0) with 1; apply IZR_le; lia|exact NU].
    + exact N0.
    + rewrite INR_IZR_INZ, <- mult_IZR. change (bpow radix2 51) with (IZR (2 ^ 51)). apply IZR_lt.
      unfold zlen in HN. lia.
    + exact Kn.
Qed.
