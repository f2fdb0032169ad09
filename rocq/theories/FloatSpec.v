(** Independent specification of rounding to an integer. *)
From Verif Require Import PyBase FloatModel.
From Flocq Require Import IEEE754.BinarySingleNaN Core.
From Coq Require Import Reals.
Open Scope R_scope.

(** z is the integer nearest to r, the even one if two are equally near. *)
Definition nearest_even (r : R) (z : Z) : Prop :=
  Rabs (r - IZR z) < / 2 \/ (Rabs (r - IZR z) = / 2 /\ Z.even z = true).
