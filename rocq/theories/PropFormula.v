(** Property C101: the numbers of the report, in float64 and exactly. *)
From Flocq Require Import IEEE754.BinarySingleNaN.
From Coq Require Import QArith Qcanon Reals Qreals String.
From Verif Require Import PyBase FloatModel MvmuModel CoreModel RouterModel SystemModel SystemExamples NodeModel NodeExamples StatsModel PrintModel ReportModel ReportSpec ReportExamples FormulaSpec FormulaHom FormulaBound FormulaRound FormulaPrint FormulaExact FormulaUsual FormulaExamples.
Open Scope Z_scope.

(** ** C101: the numbers of the report *)
(** Each number of the report is the value of a formula over the parameters that does not depend on them: neither the names, their order, the counts nor the
    exceptions do. *)
Theorem C101_formula : forall (A : arith) (g : rcfg A) v nodes, gives g v ->
  sim_report g nodes [] = let '(r, h) := sim_report (named g) nodes [] in (r, map (valued v) h).
Proof. exact @report_formula. Qed.
Print Assumptions C101_formula.
Example C101_case_formula : match sim_report (named (sampled three)) [(mvm_job, mvm_end)] [] with
  | (Ok d, f) => let s := summary f (firstn 1 (skipn 19 d)) in
      (map fst (firstn 1 (skipn 19 d)), s_count s, s_dyn s, value (A := exact_num) (worth (sampled three)) (s_dyn s)) =
      (["DAC"%string], 6, XSum (XInt 0) (XSum (XProd (XPar DacDyn) (XInt 0)) (XProd (XPar DacDyn) (XInt 6))), rational 12)
  | _ => False end.
Proof. vm_compute. reflexivity. Qed.
(** In float64 the report has the same names and order, and raises the same exceptions, as with exact numbers. *)
Theorem C101_outcome : forall (g : rcfg float_num) (x : rcfg exact_num) nodes, same_config g x -> fst (sim_report g nodes []) = fst (sim_report x nodes []).
Proof. exact report_outcome. Qed.
Print Assumptions C101_outcome.
(** Its counts are the same, and its energies and areas are the exact ones up to a relative error of 2^-52 for each of 20 roundings and one more for each
    matrix unit of a core, core of a tile, tile of a node, and node; if no number on the way to them is negative, too large or too small. *)
Theorem C101_close : forall (g : rcfg float_num) (x : rcfg exact_num) nodes m c d h, same_config g x -> let t := Z.to_nat (w_tiles (y_net (g_sys x))) in at_most t m c nodes ->
  let n := (20 + m + c + t + List.length nodes)%nat in Z.of_nat n <= 2 ^ 50 ->
  sim_report g nodes [] = (Ok d, h) ->
  exists h' f, sim_report x nodes [] = (Ok d, h') /\ sim_report (named x) nodes [] = (Ok d, f) /\
    forall k i, In (k, i) d -> rounded_to n (worth x) (deref f i) (deref h' i) (deref h i).
Proof. exact report_close. Qed.
Print Assumptions C101_close.
Example C101_case : same_config sampled_float (sampled three) /\ at_most 3 2 1 [(mvm_job, mvm_end)] /\
  all_ordinary (worth (sampled three)) (sim_report (named (sampled three)) [(mvm_job, mvm_end)] []) = true /\
  match sim_report sampled_float [(mvm_job, mvm_end)] [], sim_report (sampled three) [(mvm_job, mvm_end)] [] with
  | (Ok d, h), (Ok d', h') => (map (fun e : string * stats float_num => (fst e, s_count (snd e), fnearest (s_dyn (snd e)))) (firstn 3 (skipn 18 (entries h d))),
       map (fun e : string * stats exact_num => s_dyn (snd e)) (firstn 3 (skipn 18 (entries h' d'))))
      = ([("RRAM Xbar"%string, 12, 24); ("DAC"%string, 6, 12); ("ADC"%string, 12, 24)], map rational [24; 12; 24])
  | _, _ => False end.
Proof. split; [exact sampled_same|]. split; [exact mvm_at_most|]. split; [exact report_ordinary|]. vm_compute. reflexivity. Qed.
(** To every configuration with finite parameters there is an exact one. *)
Theorem C101_exact : forall g : rcfg float_num, (forall p (a : f64), g_param g p = Some a -> is_finite a = true) -> same_config g (exact_config g).
Proof. exact exact_same. Qed.
Print Assumptions C101_exact.
Example C101_case_exact : map (fun x => this (rational_of x)) [fdiv (f_of_Z (-3)) (f_of_Z 8); f_of_Z (2 ^ 60); f0] = [(-3 # 8)%Q; inject_Z (2 ^ 60); 0%Q].
Proof. vm_compute. reflexivity. Qed.
(** If the parameters are zero or between 2^-100 and 2^100, and n is at most 490, nothing more is needed than that no count in a formula is above 2^53
    and no divisor zero. *)
Theorem C101_usual : forall (g : rcfg float_num) (x : rcfg exact_num) nodes m c d h, same_config g x -> (forall p, usual (worth x p)) -> let t := Z.to_nat (w_tiles (y_net (g_sys x))) in at_most t m c nodes ->
  let n := (20 + m + c + t + List.length nodes)%nat in (n <= 490)%nat ->
  sim_report g nodes [] = (Ok d, h) ->
  exists h' f, sim_report x nodes [] = (Ok d, h') /\ sim_report (named x) nodes [] = (Ok d, f) /\
    forall k i, In (k, i) d -> near_to n (deref f i) (deref h' i) (deref h i).
Proof. exact report_usual. Qed.
Print Assumptions C101_usual.
Example C101_case_usual : (forall p, usual (worth (sampled three) p)) /\ (forall e, countable_b e = true <-> countable e) /\
  uncountable (sim_report (named (sampled three)) [(mvm_job, mvm_end)] []) = [].
Proof. split; [exact sampled_usual|]. split; [exact countable_true|]. vm_compute. reflexivity. Qed.
(** The totals that StatsDict.print prints are, with exact numbers, the sums over the entries, in J and mm^2. *)
Theorem C101_totals : forall (h : heap exact_num) d, let o := print_stats h d in
  pr_dyn o = in_joule s_dyn (pr_lines o) /\ pr_leak o = in_joule s_leak (pr_lines o) /\ pr_area o = fold_right Qcplus (rational 0) (map (fun e => s_area (snd e)) (pr_lines o)) /\ pr_lines o = entries h d.
Proof. exact print_exact. Qed.
Print Assumptions C101_totals.
(** In float64 they are those up to a relative error of 2^-52 for each rounding: as many as before, one more for each entry, and two. *)
Theorem C101_printed : forall (g : rcfg float_num) (x : rcfg exact_num) nodes m c d h, same_config g x -> let t := Z.to_nat (w_tiles (y_net (g_sys x))) in at_most t m c nodes ->
  let n := (22 + m + c + t + List.length nodes + List.length d)%nat in Z.of_nat n <= 2 ^ 50 ->
  sim_report g nodes [] = (Ok d, h) ->
  exists h' f, sim_report x nodes [] = (Ok d, h') /\ sim_report (named x) nodes [] = (Ok d, f) /\
    printed_to n (worth x) (print_stats f d) (print_stats h' d) (print_stats h d).
Proof. exact report_printed. Qed.
Print Assumptions C101_printed.
(** With usual parameters it suffices again that no count in a formula is above 2^53. *)
Theorem C101_printed_usual : forall (g : rcfg float_num) (x : rcfg exact_num) nodes m c d h, same_config g x -> (forall p, usual (worth x p)) -> let t := Z.to_nat (w_tiles (y_net (g_sys x))) in at_most t m c nodes ->
  let n := (22 + m + c + t + List.length nodes + List.length d)%nat in (n <= 440)%nat ->
  sim_report g nodes [] = (Ok d, h) ->
  exists h' f, sim_report x nodes [] = (Ok d, h') /\ sim_report (named x) nodes [] = (Ok d, f) /\ printed_near n (print_stats f d) (print_stats h' d) (print_stats h d).
Proof. exact printed_usual. Qed.
Print Assumptions C101_printed_usual.
Example C101_case_printed : match sim_report (named (sampled three)) [(mvm_job, mvm_end)] [], sim_report (sampled three) [(mvm_job, mvm_end)] [] with
  | (Ok d, f), (Ok d', h') => (let o := print_stats f d in forallb (fun e => ordinary_b (worth (sampled three)) e && countable_b e) [pr_dyn o; pr_leak o; pr_area o], List.length d, pr_dyn (print_stats h' d'), pr_area (print_stats h' d')) = (true, 27%nat, (rational 531 / rational (10 ^ 12))%Qc, (rational 595 / rational 2)%Qc)
  | _, _ => False end.
Proof. vm_compute. reflexivity. Qed.
