(** C99: the conversion errors of the converters. *)
From Verif Require Import PyBase FloatModel MvmuModel AdcModel AdcSpec AdcProofs AdcRun AdcExamples.
From Flocq Require Import IEEE754.BinarySingleNaN Core.
From Coq Require Import Reals.
Open Scope R_scope.

(** C99. conversion_errors is the total distance, in steps, between the differences of the currents and the integers returned, up to
    1/128 of a step for each conversion, as long as nothing was clamped; clamped or not it is finite, not negative, and at most about one
    step for each conversion. The sums may be taken in any order. *)
Theorem C99_reported : forall c st l zs st' e, (0 <= c_adc_res c)%Z -> conversions c st l zs st' e -> Forall sampled l -> (zlen l <= 2 ^ 30)%Z ->
  is_finite e = true /\ 0 <= B2R e <= IZR (zlen l) * (1 + / 64) /\ length zs = length l /\
  (adc_overflow_times st' = adc_overflow_times st -> Rabs (B2R e - total_distance l zs) <= IZR (zlen l) / 128).
Proof. exact conversions_reported. Qed.
Print Assumptions C99_reported.

Example C99_reported_case :
  Forall sampled [at_halves 12 2; at_halves 5 0] /\ total_distance [at_halves 12 2; at_halves 5 0] [5; 2]%Z = / 2 /\
  adc_overflow_times (snd (adc_convert three [f1] [[halves 12]] [[halves 2]] (snd (adc_convert three [f1] [[halves 5]] [[halves 0]] quiet_stats)))) = adc_overflow_times quiet_stats /\
  errors_add (errors_add errors_init (adc_error (at_halves 5 0))) (adc_error (at_halves 12 2)) = halves 1.
Proof. exact two_conversions_case. Qed.

(** C99. It never falls. *)
Theorem C99_grows : forall c st l zs st1 e steps pos neg v, (0 <= c_adc_res c)%Z -> conversions c st l zs st1 e -> sums (map adc_error (elements steps pos neg)) v ->
  Forall sampled (elements steps pos neg ++ l) -> (zlen (elements steps pos neg ++ l) <= 2 ^ 30)%Z -> B2R e <= B2R (errors_add e v).
Proof. exact conversions_grow. Qed.
Print Assumptions C99_grows.

Example C99_grows_case :
  conversions three quiet_stats [at_halves 12 2; at_halves 5 0] [5; 2]%Z
    (snd (adc_convert three [f1] [[halves 12]] [[halves 2]] (snd (adc_convert three [f1] [[halves 5]] [[halves 0]] quiet_stats))))
    (errors_add (errors_add errors_init (adc_error (at_halves 5 0))) (adc_error (at_halves 12 2))).
Proof. exact two_conversions. Qed.

(** C99. A value that was not clamped is within about one step of the difference of the currents. *)
Theorem C99_each : forall c st l zs st' e, (0 <= c_adc_res c)%Z -> conversions c st l zs st' e -> Forall sampled l ->
  adc_overflow_times st' = adc_overflow_times st -> Forall2 (fun x z => distance x z <= 1 + / 512) l zs.
Proof. exact conversions_each. Qed.
Print Assumptions C99_each.

(** C99. One step, not half of one: the two currents are rounded apart, so the value returned need not be the nearest. *)
Theorem C99_nearest_refuted : exists c st l zs st' e x z z', (0 <= c_adc_res c)%Z /\ conversions c st l zs st' e /\ Forall sampled l /\
  adc_overflow_times st' = adc_overflow_times st /\ l = [x] /\ zs = [z] /\ distance x z = 1 /\ distance x z' = 0.
Proof. exact half_apart. Qed.
Print Assumptions C99_nearest_refuted.

(** C99. What clamping loses is not counted. *)
Theorem C99_clamped_refuted : exists c st l zs st' e, (0 <= c_adc_res c)%Z /\ conversions c st l zs st' e /\ Forall sampled l /\ (zlen l <= 2 ^ 30)%Z /\
  B2R e = 0 /\ total_distance l zs = 13.
Proof. exact clamped_unseen. Qed.
Print Assumptions C99_clamped_refuted.
