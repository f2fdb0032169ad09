(** Independent specification of conversion errors. *)
From Verif Require Import PyBase FloatModel MvmuModel AdcModel.
From Flocq Require Import IEEE754.BinarySingleNaN Core.
From Coq Require Import Reals.
Open Scope R_scope.

(** How far the integer [z] is from the difference of the currents, in steps. *)
Definition distance (x : element) (z : Z) : R := Rabs ((B2R (a_pos x) - B2R (a_neg x)) / B2R (a_step x) - IZR z).
(** Currents of at most 2^40 steps. *)
Record sampled (x : element) : Prop := {
  sm_step : 0 < B2R (a_step x);
  sm_pos : is_finite (a_pos x) = true /\ Rabs (B2R (a_pos x) / B2R (a_step x)) <= bpow radix2 40;
  sm_neg : is_finite (a_neg x) = true /\ Rabs (B2R (a_neg x) / B2R (a_step x)) <= bpow radix2 40 }.
Fixpoint total_distance (l : list element) (zs : list Z) : R :=
  match l, zs with x :: l', z :: zs' => distance x z + total_distance l' zs' | _, _ => 0 end.
(** Conversions one after the other from [st]: all elements and all values returned (the latest first), the statistics
    after them, and the conversion errors accumulated; between conversions other statistics may change. *)
Inductive conversions (c : mvmu_cfg) (st : mv_stats) : list element -> list Z -> mv_stats -> f64 -> Prop :=
| cv_none : conversions c st [] [] st errors_init
| cv_other l zs st1 st2 e : conversions c st l zs st1 e -> adc_overflow_times st2 = adc_overflow_times st1 -> conversions c st l zs st2 e
| cv_more l zs st1 e steps pos neg out st2 v : conversions c st l zs st1 e ->
    adc_convert c steps pos neg st1 = (out, st2) -> sums (map adc_error (elements steps pos neg)) v ->
    conversions c st (elements steps pos neg ++ l) (concat out ++ zs) st2 (errors_add e v).
