(** Independent specification: how far sums of float64 numbers are from the exact ones. *)
From Verif Require Import PyBase FloatModel StatsModel ReportSpec.
From Flocq Require Import IEEE754.BinarySingleNaN Core.
From Coq Require Import Reals.

Definition exact_total (l : list f64) : R := fold_right Rplus 0%R (map (fun x => B2R x) l).
(** Amounts that are finite, not negative, and far from the largest float64; at most 2^50 of them. *)
Definition proper_amounts (l : list f64) : Prop :=
  Forall (fun x => is_finite x = true /\ (0 <= B2R x)%R) l /\ (exact_total l <= bpow radix2 800)%R /\ (Z.of_nat (length l) <= 2 ^ 50)%Z.
(** [y] is their sum, up to a relative error of 2^-52 for each of [n] additions. *)
Definition near_total (n : Z) (l : list f64) (y : f64) : Prop :=
  is_finite y = true /\ (Rabs (B2R y - exact_total l) <= IZR n * bpow radix2 (-52) * exact_total l)%R.
(** Dynamic energy, leakage energy and area. *)
Definition amounts : list (stats float_num -> f64) := [s_dyn; s_leak; s_area].
