(** Conversions with a step of one. *)
From Verif Require Import PyBase PyLemmas FloatModel AnalogProofs ConfigModel MvmuModel FloatProofs MvmuExamples AdcModel AdcSpec AdcProofs AdcRun.
From Flocq Require Import IEEE754.BinarySingleNaN Core.
From Coq Require Import Permutation Reals Lra Psatz ZifyNat ZifyBool.
Open Scope R_scope.

Definition halves (n : Z) : f64 := fdiv (f_of_Z n) (f_of_Z 2).
Lemma f1_R : B2R f1 = 1. Proof. apply (proj2 (f_of_Z_correct 1 ltac:(lia))). Qed.
(** Converters of three bits. *)
Definition three : mvmu_cfg := unit_cfg [QLC] 1 1 1 3 4 0 f0 f1.
Definition at_halves (p n : Z) : element := MkElement f1 (halves p) (halves n).
Lemma B2R_halves n : (Z.abs n <= 1000)%Z -> is_finite (halves n) = true /\ B2R (halves n) = IZR n / 2.
Proof.
  intros H. destruct (f_of_Z_correct n ltac:(lia)) as (Fn & En). destruct (f_of_Z_correct 2 ltac:(lia)) as (F2 & E2).
  assert (NZ : B2R (f_of_Z 2) <> 0) by (rewrite E2; lra). pose proof (Bdiv_correct prec64 emax64 _ _ mode_NE (f_of_Z n) (f_of_Z 2) NZ) as C. rewrite En, E2 in C. cbn [round_mode] in C.
  assert (G : generic_format radix2 (SpecFloat.fexp prec64 emax64) (IZR n / 2)).
  { apply generic_format_FLT. exists (Float radix2 n (-1)); [unfold F2R; cbn; lra| |cbn; lia]. cbn. lia. }
  rewrite round_generic in C by (apply valid_rnd_N || exact G). rewrite Rlt_bool_true in C.
  - destruct C as (E & F & _). unfold halves, fdiv. rewrite E, F. split; [exact Fn|reflexivity].
  - apply Rle_lt_trans with (bpow radix2 10); [|apply bpow_lt; reflexivity]. cbn. apply Rabs_le. assert (-1000 <= IZR n <= 1000) by (split; apply IZR_le; lia). lra.
Qed.
Lemma at_halves_sampled p n : (Z.abs p <= 1000)%Z -> (Z.abs n <= 1000)%Z -> sampled (at_halves p n).
Proof.
  intros Hp Hn. assert (A : forall k, (Z.abs k <= 1000)%Z -> is_finite (halves k) = true /\ Rabs (B2R (halves k) / B2R f1) <= bpow radix2 40).
  { intros k K. destruct (B2R_halves k K) as (F & E). split; [exact F|]. rewrite E, f1_R. apply Rle_trans with (bpow radix2 10); [|apply bpow_le; lia].
    cbn. apply Rabs_le. assert (-1000 <= IZR k <= 1000) by (split; apply IZR_le; lia). lra. }
  constructor; cbn [at_halves a_step a_pos a_neg]; [rewrite f1_R; lra| |]; now apply A.
Qed.
Lemma at_halves_distance p n z : (Z.abs p <= 1000)%Z -> (Z.abs n <= 1000)%Z -> distance (at_halves p n) z = Rabs (IZR (p - n) / 2 - IZR z).
Proof.
  intros Hp Hn. unfold distance. cbn [at_halves a_step a_pos a_neg]. rewrite f1_R, (proj2 (B2R_halves p Hp)), (proj2 (B2R_halves n Hn)), minus_IZR. f_equal. field.
Qed.
Ltac sampled_all := repeat (apply Forall_cons; [apply at_halves_sampled; lia|]); apply Forall_nil.
Definition quiet_stats : mv_stats := mv_stat (mvmu_init three).

(** 2.5 and 0 are converted to 2, off by a half; 6 and 1 to 5, exactly. *)
Lemma two_conversions :
  conversions three quiet_stats [at_halves 12 2; at_halves 5 0] [5; 2]%Z
    (snd (adc_convert three [f1] [[halves 12]] [[halves 2]] (snd (adc_convert three [f1] [[halves 5]] [[halves 0]] quiet_stats))))
    (errors_add (errors_add errors_init (adc_error (at_halves 5 0))) (adc_error (at_halves 12 2))).
Proof.
  change [at_halves 12 2; at_halves 5 0] with (elements [f1] [[halves 12]] [[halves 2]] ++ elements [f1] [[halves 5]] [[halves 0]] ++ []).
  change [5; 2]%Z with (concat [[5]] ++ concat [[2]] ++ [])%Z.
  apply cv_more with (st1 := snd (adc_convert three [f1] [[halves 5]] [[halves 0]] quiet_stats)); [|vm_compute; reflexivity|constructor].
  apply cv_more with (st1 := quiet_stats); [constructor|vm_compute; reflexivity|constructor].
Qed.
Lemma two_conversions_case :
  Forall sampled [at_halves 12 2; at_halves 5 0] /\ total_distance [at_halves 12 2; at_halves 5 0] [5; 2]%Z = / 2 /\
  adc_overflow_times (snd (adc_convert three [f1] [[halves 12]] [[halves 2]] (snd (adc_convert three [f1] [[halves 5]] [[halves 0]] quiet_stats)))) = adc_overflow_times quiet_stats /\
  errors_add (errors_add errors_init (adc_error (at_halves 5 0))) (adc_error (at_halves 12 2)) = halves 1.
Proof.
  split; [sampled_all|]. split.
  - cbn [total_distance]. rewrite !at_halves_distance by lia. change (12 - 2)%Z with 10%Z. change (5 - 0)%Z with 5%Z. rewrite !Rabs_pos_eq; lra.
  - split; [vm_compute; reflexivity|]. apply B2SF_inj. vm_compute. reflexivity.
Qed.
(** 0.5 and 1.5 are rounded to 0 and 2: the result is -2, although the difference is exactly -1. *)
Lemma half_apart : exists c st l zs st' e x z z', (0 <= c_adc_res c)%Z /\ conversions c st l zs st' e /\ Forall sampled l /\
  adc_overflow_times st' = adc_overflow_times st /\ l = [x] /\ zs = [z] /\ distance x z = 1 /\ distance x z' = 0.
Proof.
  exists three, quiet_stats, [at_halves 1 3], [-2]%Z, (snd (adc_convert three [f1] [[halves 1]] [[halves 3]] quiet_stats)), (errors_add errors_init (adc_error (at_halves 1 3))), (at_halves 1 3), (-2)%Z, (-1)%Z.
  split; [cbn; lia|]. split.
  { change [at_halves 1 3] with (elements [f1] [[halves 1]] [[halves 3]] ++ []). change [-2]%Z with (concat [[-2]] ++ [])%Z. apply cv_more with (st1 := quiet_stats); [constructor|vm_compute; reflexivity|constructor]. }
  split; [sampled_all|]. split; [vm_compute; reflexivity|]. split; [reflexivity|]. split; [reflexivity|].
  rewrite !at_halves_distance by lia. change (1 - 3)%Z with (-2)%Z. split; [rewrite Rabs_pos_eq; lra|]. replace (-2 / 2 - -1) with 0 by lra. apply Rabs_R0.
Qed.
(** 20 is clamped to 7: 13 steps away, and no error is counted. *)
Lemma clamped_unseen : exists c st l zs st' e, (0 <= c_adc_res c)%Z /\ conversions c st l zs st' e /\ Forall sampled l /\ (zlen l <= 2 ^ 30)%Z /\
  B2R e = 0 /\ total_distance l zs = 13.
Proof.
  exists three, quiet_stats, [at_halves 40 0], [7]%Z, (snd (adc_convert three [f1] [[halves 40]] [[halves 0]] quiet_stats)), (errors_add errors_init (adc_error (at_halves 40 0))).
  split; [cbn; lia|]. split.
  { change [at_halves 40 0] with (elements [f1] [[halves 40]] [[halves 0]] ++ []). change [7]%Z with (concat [[7]] ++ [])%Z. apply cv_more with (st1 := quiet_stats); [constructor|vm_compute; reflexivity|constructor]. }
  split; [sampled_all|]. split; [unfold zlen; cbn [length]; lia|]. split; [replace (errors_add errors_init (adc_error (at_halves 40 0))) with f0 by (vm_compute; reflexivity); reflexivity|].
  cbn [total_distance]. rewrite at_halves_distance by lia. change (40 - 0)%Z with 40%Z. rewrite Rabs_pos_eq; lra.
Qed.
