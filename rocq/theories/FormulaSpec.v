(** Independent specification: the formulas by which the numbers of the report are computed, and how far float64 is from them. *)
From Flocq Require Import IEEE754.BinarySingleNaN.
From Coq Require Import QArith Qcanon Reals Qreals String.
From Verif Require Import PyBase FloatModel MvmuModel CoreModel SystemModel NodeModel StatsModel PrintModel ReportModel ReportSpec.
Open Scope Z_scope.

(** Formulas over the parameters of the configuration. *)
Inductive formula := XPar (p : param) | XInt (z : Z) | XSum (a b : formula) | XProd (a b : formula) | XQuot (a b : formula).
Definition formula_num : arith := Arith formula XSum XProd XQuot XInt.
Fixpoint value {A : arith} (v : param -> num A) (f : formula) : num A :=
  match f with
  | XPar p => v p
  | XInt z => nint A z
  | XSum a b => nadd A (value v a) (value v b)
  | XProd a b => nmul A (value v a) (value v b)
  | XQuot a b => ndiv A (value v a) (value v b)
  end.
Definition valued {A : arith} (v : param -> num A) (s : stats formula_num) : stats A :=
  MkStats (s_count s) (value v (s_dyn s)) (value v (s_leak s)) (value v (s_area s)).
(** The same configuration, each parameter given by its name. *)
Definition named {A : arith} (g : rcfg A) : rcfg formula_num :=
  MkRcfg (A := formula_num) (fun p => option_map (fun _ => XPar p) (g_param g p)) (g_calc_cols g) (g_port g) (g_sys g).
Definition gives {A : arith} (g : rcfg A) (v : param -> num A) : Prop := forall p x, g_param g p = Some x -> v p = x.

(** The roundings in the computation of a formula: a sum is as good as the worse of its terms. *)
Fixpoint roundings (f : formula) : nat :=
  match f with
  | XPar _ | XInt _ => 0
  | XSum a b => S (Nat.max (roundings a) (roundings b))
  | XProd a b => S (roundings a + roundings b)
  | XQuot a b => S (roundings a + 2 * roundings b)
  end.
(** Zero, or neither too small nor too large. *)
Definition moderate_q (q : Qc) : Prop := (q == 0)%Q \/ (/ inject_Z (2 ^ 800) <= q /\ q <= inject_Z (2 ^ 800))%Q.
(** No number is negative, counts are at most 2^53, all results are moderate, no division by zero. *)
Fixpoint ordinary (v : param -> Qc) (f : formula) : Prop :=
  match f with
  | XPar p => (0 <= v p)%Q
  | XInt z => 0 <= z <= 2 ^ 53
  | XSum a b | XProd a b => ordinary v a /\ ordinary v b /\ moderate_q (value (A := exact_num) v f)
  | XQuot a b => ordinary v a /\ ordinary v b /\ moderate_q (value (A := exact_num) v f) /\ (0 < value (A := exact_num) v b)%Q
  end.
(** [y] is [q] up to a relative error of 2^-52 for each of [n] roundings. *)
Definition within (n : nat) (y : f64) (q : Qc) : Prop :=
  is_finite y = true /\ (Rabs (B2R y - Q2R q) <= INR n * / IZR (2 ^ 52) * Q2R q)%R.
(** The same configuration in float64 and exactly. *)
Definition same_config (g : rcfg float_num) (x : rcfg exact_num) : Prop :=
  (forall p, match g_param g p, g_param x p with Some a, Some q => is_finite (a : f64) = true /\ B2R (a : f64) = Q2R (q : Qc) | None, None => True | _, _ => False end) /\
  g_calc_cols g = g_calc_cols x /\ g_port g = g_port x /\ g_sys g = g_sys x.
(** The values of the parameters. *)
Definition worth (x : rcfg exact_num) (p : param) : Qc := match g_param x p with Some q => q | None => rational 0 end.
(** At most [c] cores in each of [t] tiles and [m] units for matrices in each core. *)
Definition at_most (t m c : nat) (nodes : list (job * node)) : Prop :=
  Forall (fun x => forall i, 0 <= i < Z.of_nat t -> let l := t_cores (s_tile (nd_sys (snd x)) i) in (List.length l <= c)%nat /\ Forall (fun k => (List.length (co_mvmus (cp_core k)) <= m)%nat) l) nodes.
(** The statistics [s] in float64 are the exact ones [x], computed by the formulas [f], up to [n] roundings in each number; counts are the same. *)
Definition rounded_to (n : nat) (v : param -> Qc) (f : stats formula_num) (x : stats exact_num) (s : stats float_num) : Prop :=
  s_count s = s_count x /\ (ordinary v (s_dyn f) -> within n (s_dyn s) (s_dyn x)) /\ (ordinary v (s_leak f) -> within n (s_leak s) (s_leak x)) /\
  (ordinary v (s_area f) -> within n (s_area s) (s_area x)).
(** The totals printed in float64 are the exact ones up to [n] roundings. *)
Definition printed_to (n : nat) (v : param -> Qc) (f : printout formula_num) (x : printout exact_num) (s : printout float_num) : Prop :=
  (ordinary v (pr_dyn f) -> within n (pr_dyn s) (pr_dyn x)) /\ (ordinary v (pr_leak f) -> within n (pr_leak s) (pr_leak x)) /\ (ordinary v (pr_area f) -> within n (pr_area s) (pr_area x)).
(** A total in J: the sum of [f] over the entries, divided by 10^12. *)
Definition in_joule (f : stats exact_num -> Qc) (l : list (string * stats exact_num)) : Qc := (fold_right Qcplus (rational 0) (map (fun e => f (snd e)) l) / rational (10 ^ 12))%Qc.
(** The value of a float64, and the exact configuration with the values of the parameters. *)
Definition rational_of (x : f64) : Qc :=
  match x with
  | B754_finite s m e _ => let z := if s then Z.neg m else Z.pos m in if 0 <=? e then rational (z * 2 ^ e) else (rational z / rational (2 ^ (- e)))%Qc
  | _ => rational 0
  end.
Definition exact_config (g : rcfg float_num) : rcfg exact_num := MkRcfg (A := exact_num) (fun p => option_map rational_of (g_param g p)) (g_calc_cols g) (g_port g) (g_sys g).
(** A parameter that is zero, or neither too small nor too large. *)
Definition usual (q : Qc) : Prop := (q == 0)%Q \/ (/ inject_Z (2 ^ 100) <= q /\ q <= inject_Z (2 ^ 100))%Q.
(** No count in the formula is negative or above 2^53, and divisors are positive counts. *)
Fixpoint countable (f : formula) : Prop :=
  match f with
  | XPar _ => True
  | XInt z => 0 <= z <= 2 ^ 53
  | XSum a b | XProd a b => countable a /\ countable b
  | XQuot a b => countable a /\ match b with XInt z => 0 < z <= 2 ^ 53 | _ => False end
  end.
(** As [rounded_to], whatever the parameters: if the counts in the formulas are not too large. *)
Definition near_to (n : nat) (f : stats formula_num) (x : stats exact_num) (s : stats float_num) : Prop :=
  s_count s = s_count x /\ (countable (s_dyn f) -> within n (s_dyn s) (s_dyn x)) /\ (countable (s_leak f) -> within n (s_leak s) (s_leak x)) /\
  (countable (s_area f) -> within n (s_area s) (s_area x)).
Definition printed_near (n : nat) (f : printout formula_num) (x : printout exact_num) (s : printout float_num) : Prop :=
  (countable (pr_dyn f) -> within n (pr_dyn s) (pr_dyn x)) /\ (countable (pr_leak f) -> within n (pr_leak s) (pr_leak x)) /\ (countable (pr_area f) -> within n (pr_area s) (pr_area x)).
