(** The numbers of the report in float64 and exactly. *)
From Flocq Require Import IEEE754.BinarySingleNaN Core.
From Coq Require Import QArith Qcanon Reals Qreals Lra Psatz ZifyNat.
From Verif Require Import PyBase PyLemmas FloatModel MvmuModel CoreModel RouterModel SystemModel NodeModel AnalogProofs StatsModel ReportModel ReportSpec FormulaSpec FormulaHom FormulaBound.
Open Scope R_scope.

Notation exactly v e := (value (A := exact_num) v e).
Lemma red_real q : Q2R (Q2Qc q) = Q2R q.
Proof. apply Qeq_eqR. cbn. apply Qred_correct. Qed.
Lemma real_int z : Q2R (rational z) = IZR z.
Proof. unfold rational. rewrite red_real. unfold Q2R, inject_Z. cbn. lra. Qed.
Lemma real_add (a b : Qc) : Q2R (a + b)%Qc = Q2R a + Q2R b.
Proof. unfold Qcplus. rewrite red_real. apply Q2R_plus. Qed.
Lemma real_mul (a b : Qc) : Q2R (a * b)%Qc = Q2R a * Q2R b.
Proof. unfold Qcmult. rewrite red_real. apply Q2R_mult. Qed.
Lemma real_div (a b : Qc) : (0 < b)%Q -> Q2R (a / b)%Qc = Q2R a / Q2R b.
Proof.
  intros P. unfold Qcdiv, Qcinv. rewrite real_mul, red_real, Q2R_inv; [reflexivity|]. intros E. rewrite E in P. now apply Qlt_irrefl in P.
Qed.
Lemma real_power : Q2R (inject_Z (2 ^ 800)) = bpow radix2 800.
Proof. unfold Q2R, inject_Z. cbn [Qnum Qden]. rewrite Rinv_1, Rmult_1_r. change (2 ^ 800)%Z with (Zpower radix2 800). apply IZR_Zpower. lia. Qed.
Lemma moderate_real q : moderate_q q -> moderate' (Q2R q).
Proof.
  intros [E|(L & U)]; [left; rewrite (Qeq_eqR _ _ E); unfold Q2R; cbn; lra|right]. apply Qle_Rle in L, U. rewrite real_power in U. rewrite Q2R_inv in L by (intros E; vm_compute in E; discriminate E). rewrite real_power in L.
  split; [|exact U]. change (-800)%Z with (Z.opp 800). rewrite bpow_opp. exact L.
Qed.
Lemma kok_count n : (Z.of_nat n <= 2 ^ 50)%Z -> kok n.
Proof.
  intros H. unfold kok, u64. rewrite INR_IZR_INZ. apply Rle_trans with (bpow radix2 50 * bpow radix2 (-53)); [apply Rmult_le_compat_r; [apply bpow_ge_0|]; change (bpow radix2 50) with (IZR (2 ^ 50)); now apply IZR_le|].
  rewrite <- bpow_plus. change (/ 4) with (bpow radix2 (-2)). apply bpow_le. lia.
Qed.
Section Same.
Context (w : param -> f64) (v : param -> Qc).
Hypothesis HW : forall p, is_finite (w p) = true /\ B2R (w p) = Q2R (v p).
Lemma formula_approx e : ordinary v e -> (Z.of_nat (roundings e) <= 2 ^ 50)%Z -> approx (roundings e) (value (A := float_num) w e) (Q2R (exactly v e)).
Proof.
  induction e as [p|z|a IHa b IHb|a IHa b IHb|a IHa b IHb]; cbn [ordinary roundings].
  - intros O _. cbn [value]. destruct (HW p) as (F & E). rewrite <- E. apply approx_exact; [exact F|]. rewrite E. apply Qle_Rle in O. unfold Q2R in O at 1. cbn in O. lra.
  - intros O _. cbn [value nint exact_num float_num]. rewrite real_int. now apply approx_f_of_Z.
  - intros (Oa & Ob & M) K. apply moderate_real in M. cbn [value nadd exact_num float_num] in M |- *. rewrite real_add in M |- *. apply approx_add; [apply kok_count; lia|exact M| |].
    + eapply approx_weaken; [|apply IHa; [exact Oa|lia]]. lia.
    + eapply approx_weaken; [|apply IHb; [exact Ob|lia]]. lia.
  - intros (Oa & Ob & M) K. apply moderate_real in M. cbn [value nmul exact_num float_num] in M |- *. rewrite real_mul in M |- *. apply approx_mul; [apply kok_count; lia|exact M|apply IHa; [exact Oa|lia]|apply IHb; [exact Ob|lia]].
  - intros (Oa & Ob & M & P) K. apply moderate_real in M. cbn [value ndiv exact_num float_num] in M, P |- *. rewrite real_div in M |- * by exact P.
    assert (P' : 0 < Q2R (exactly v b)) by (apply Qlt_Rlt in P; unfold Q2R in P at 1; cbn [Qnum Qden] in P; lra).
    apply approx_div; [apply kok_count; lia|exact M|exact P'|apply IHa; [exact Oa|lia]|apply IHb; [exact Ob|lia]].
Qed.
Lemma formula_near e k : ordinary v e -> (roundings e <= k)%nat -> (Z.of_nat k <= 2 ^ 50)%Z -> within k (value (A := float_num) w e) (exactly v e).
Proof.
  intros O LE K. destruct (approx_weaken _ k _ _ LE (formula_approx e O ltac:(lia))) as (F & P & L & U). split; [exact F|]. set (q := Q2R (exactly v e)) in *. pose proof (kok_count _ K) as KO. unfold kok in KO.
  pose proof (bernoulli_lo k) as BL. pose proof (bernoulli_hi k ltac:(lra)) as BU. pose proof u64_pos as UP. pose proof (pos_INR k) as KP.
  assert (T : / IZR (2 ^ 52) = 2 * u64) by (unfold u64; change (-53)%Z with (-52 + -1)%Z; rewrite bpow_plus; change (bpow radix2 (-52)) with (/ IZR (2 ^ 52)); change (bpow radix2 (-1)) with (/ 2); field; apply IZR_neq; discriminate).
  rewrite T. assert (0 <= INR k * u64) by (apply Rmult_le_pos; lra). apply Rabs_le. split; nra.
Qed.
End Same.

Lemma report_same (g : rcfg float_num) (x : rcfg exact_num) nodes : same_config g x -> exists w, (forall p, is_finite (w p) = true /\ B2R (w p) = Q2R (worth x p)) /\
  let '(r, f) := sim_report (named x) nodes [] in
  sim_report g nodes [] = (r, map (valued (A := float_num) w) f) /\ sim_report x nodes [] = (r, map (valued (A := exact_num) (worth x)) f).
Proof.
  intros (P & C & O & S). set (w := fun p => match g_param g p with Some a => a : f64 | None => f0 end). exists w. split.
  { intros p. specialize (P p). unfold w, worth. destruct (g_param g p) as [a|], (g_param x p) as [q|]; try contradiction; [exact P|]. rewrite real_int. apply (f_of_Z_correct 0). lia. }
  pose proof (hom_sim (A := formula_num) (B := float_num) (value (A := float_num) w) ltac:(reflexivity) ltac:(reflexivity) ltac:(reflexivity) ltac:(reflexivity) (named x) g) as H.
  specialize (H ltac:(intros q; specialize (P q); unfold w; cbn; destruct (g_param g q) as [a|] eqn:E, (g_param x q); try contradiction; cbn; now rewrite ?E) C O S nodes []).
  pose proof (report_formula x (worth x) nodes ltac:(intros p q E; unfold worth; now rewrite E)) as H'. cbn [map] in H. rewrite H, H'. destruct (sim_report (named x) nodes []) as [r f]. split; reflexivity.
Qed.
Lemma valued_deref {A : arith} (v : param -> num A) h i : deref (map (valued v) h) i = valued v (deref h i).
Proof. exact (shift_deref (A := formula_num) (B := A) (value v) ltac:(reflexivity) h i). Qed.
(** The two reports have the same outcome, and every number is near the exact one. *)
Theorem report_outcome (g : rcfg float_num) (x : rcfg exact_num) nodes : same_config g x -> fst (sim_report g nodes []) = fst (sim_report x nodes []).
Proof. intros S. destruct (report_same g x nodes S) as (w & _ & H). destruct (sim_report (named x) nodes []) as [r f]. destruct H as (-> & ->). reflexivity. Qed.
Theorem report_close (g : rcfg float_num) (x : rcfg exact_num) nodes m c d h : same_config g x -> let t := Z.to_nat (w_tiles (y_net (g_sys x))) in at_most t m c nodes ->
  let n := (20 + m + c + t + List.length nodes)%nat in (Z.of_nat n <= 2 ^ 50)%Z ->
  sim_report g nodes [] = (Ok d, h) ->
  exists h' f, sim_report x nodes [] = (Ok d, h') /\ sim_report (named x) nodes [] = (Ok d, f) /\
    forall k i, In (k, i) d -> rounded_to n (worth x) (deref f i) (deref h' i) (deref h i).
Proof.
  intros S t M n N E. destruct (report_same g x nodes S) as (w & HW & H). destruct (sim_report (named x) nodes []) as [r f] eqn:EF. destruct H as (H1 & H2). rewrite E in H1. injection H1 as HR HH. subst r h.
  eexists _, f. split; [exact H2|]. split; [reflexivity|]. intros k i I. pose proof (report_depth x nodes m c d f k i M EF I) as ((D1 & _) & (D2 & _) & (D3 & _)). rewrite !valued_deref. split; [reflexivity|].
  cbn [valued s_dyn s_leak s_area]. split; [|split]; intros OR; now apply (formula_near w (worth x) HW).
Qed.
