(** The printed totals. *)
From Flocq Require Import IEEE754.BinarySingleNaN Core.
From Coq Require Import QArith Qcanon Reals Qreals Lra ZifyNat.
From Verif Require Import PyBase PyLemmas FloatModel MvmuModel CoreModel RouterModel SystemModel NodeModel StatsModel PrintModel ReportModel ReportSpec StatsProofs FormulaSpec FormulaHom FormulaBound FormulaRound.
Open Scope Z_scope.

Lemma summary_valued {A : arith} (v : param -> num A) h d : summary (map (valued v) h) d = valued v (summary h d).
Proof.
  unfold summary. change (stats0 (A := A)) with (valued v (stats0 (A := formula_num))). generalize (stats0 (A := formula_num)). induction d as [|kv d IH]; intros s; [reflexivity|]. cbn [fold_left]. rewrite <- IH, valued_deref. reflexivity.
Qed.
Lemma summary_shallow n f d : (forall k i, In (k, i) d -> shallow 303 n (deref f i)) -> shallow 303 (n + List.length d) (summary f d).
Proof.
  intros H. unfold summary. assert (S0 : shallow 303 n (stats0 (A := formula_num))) by (unfold shallow, flat; cbn [stats0 s_dyn s_leak s_area nint formula_num roundings top low]; lia). revert n H S0. generalize (stats0 (A := formula_num)). induction d as [|[k i] d IH]; intros s n H S0; cbn [fold_left List.length].
  - now rewrite Nat.add_0_r.
  - replace (n + S (List.length d))%nat with (S n + List.length d)%nat by lia. apply IH.
    + intros k' i' I. eapply shallow_le; [| |apply (H k'); now right]; lia.
    + apply shallow_merge; [exact S0|]. cbn [snd]. apply (H k). now left.
Qed.
Theorem report_printed (g : rcfg float_num) (x : rcfg exact_num) nodes m c d h : same_config g x -> let t := Z.to_nat (w_tiles (y_net (g_sys x))) in at_most t m c nodes ->
  let n := (22 + m + c + t + List.length nodes + List.length d)%nat in (Z.of_nat n <= 2 ^ 50)%Z ->
  sim_report g nodes [] = (Ok d, h) ->
  exists h' f, sim_report x nodes [] = (Ok d, h') /\ sim_report (named x) nodes [] = (Ok d, f) /\
    printed_to n (worth x) (print_stats f d) (print_stats h' d) (print_stats h d).
Proof.
  intros S t M n N E. destruct (report_same g x nodes S) as (w & HW & H). destruct (sim_report (named x) nodes []) as [r f] eqn:EF. destruct H as (H1 & H2). rewrite E in H1. injection H1 as HR HH. subst r h.
  eexists _, f. split; [exact H2|]. split; [reflexivity|]. pose proof (summary_shallow _ f d (fun k i I => report_depth x nodes m c d f k i M EF I)) as ((D1 & _) & (D2 & _) & (D3 & _)).
  assert (L : forall e, (roundings e <= 20 + m + c + t + List.length nodes + List.length d)%nat -> (roundings (XProd e (pico (A := formula_num))) <= n)%nat) by (intros e HE; unfold n; cbn [roundings pico nint ndiv formula_num]; lia).
  unfold printed_to, print_stats. cbn [pr_dyn pr_leak pr_area]. rewrite !summary_valued. cbn [valued s_dyn s_leak s_area]. split; [|split]; intros OR.
  - exact (formula_near w (worth x) HW (XProd (s_dyn (summary f d)) (pico (A := formula_num))) n OR (L _ D1) N).
  - exact (formula_near w (worth x) HW (XProd (s_leak (summary f d)) (pico (A := formula_num))) n OR (L _ D2) N).
  - apply (formula_near w (worth x) HW); [exact OR|unfold n; lia|exact N].
Qed.
Lemma summary_sum (h : heap exact_num) d (p : stats exact_num -> Qc) : (forall a b, p (smerge a b) = p a + p b)%Qc -> p (stats0 (A := exact_num)) = rational 0 ->
  p (summary h d) = fold_right Qcplus (rational 0) (map (fun e => p (snd e)) (entries h d)).
Proof.
  intros PM P0. unfold summary, entries. rewrite map_map. cbn [snd]. assert (G : forall s, p (fold_left (fun acc kv => smerge acc (deref h (snd kv))) d s) = (p s + fold_right Qcplus (rational 0) (map (fun kv => p (deref h (snd kv))) d))%Qc).
  { induction d as [|kv d IH]; intros s; cbn [fold_left map fold_right].
    - change (rational 0) with 0%Qc. ring.
    - rewrite IH, PM. ring. }
  rewrite G, P0. change (rational 0) with 0%Qc. ring.
Qed.
Lemma times_pico (a b : Qc) : (a * (rational 1 / b))%Qc = (a / b)%Qc.
Proof. unfold Qcdiv. change (rational 1) with 1%Qc. ring. Qed.
(** With exact numbers the totals are those of the entries. *)
Theorem print_exact (h : heap exact_num) d : let o := print_stats h d in
  pr_dyn o = in_joule s_dyn (pr_lines o) /\ pr_leak o = in_joule s_leak (pr_lines o) /\ pr_area o = fold_right Qcplus (rational 0) (map (fun e => s_area (snd e)) (pr_lines o)) /\ pr_lines o = entries h d.
Proof.
  cbv zeta. unfold print_stats. cbn [pr_dyn pr_leak pr_area pr_lines]. fold (entries h d). unfold in_joule. repeat split.
  - rewrite <- (summary_sum h d s_dyn) by reflexivity. apply times_pico.
  - rewrite <- (summary_sum h d s_leak) by reflexivity. apply times_pico.
  - exact (summary_sum h d s_area (fun _ _ => eq_refl) eq_refl).
Qed.
