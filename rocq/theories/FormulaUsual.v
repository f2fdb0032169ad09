(** With usual parameters and counts the numbers of the report are ordinary. *)
From Flocq Require Import IEEE754.BinarySingleNaN Core.
From Coq Require Import QArith Qcanon Reals Qreals Lra Psatz ZifyNat.
From Verif Require Import PyBase PyLemmas FloatModel MvmuModel CoreModel RouterModel SystemModel NodeModel AnalogProofs StatsModel PrintModel ReportModel ReportSpec FormulaSpec FormulaHom FormulaBound FormulaRound FormulaPrint.
Open Scope R_scope.

Notation pow2 n := (bpow radix2 n).
Lemma real_pow n : (0 <= n)%Z -> Q2R (inject_Z (2 ^ n)) = pow2 n.
Proof. intros N. unfold Q2R, inject_Z. cbn [Qnum Qden]. rewrite Rinv_1, Rmult_1_r. change 2%Z with (radix_val radix2). now apply IZR_Zpower. Qed.
Definition ranged (l t : nat) (r : R) : Prop := r = 0 \/ pow2 (- Z.of_nat l) <= r <= pow2 (Z.of_nat t).
Lemma ranged_nonneg l t r : ranged l t r -> 0 <= r.
Proof. intros [->|(L & _)]; [lra|]. pose proof (bpow_gt_0 radix2 (- Z.of_nat l)). lra. Qed.
Lemma pow_up a b : (a <= b)%nat -> pow2 (Z.of_nat a) <= pow2 (Z.of_nat b). Proof. intros. apply bpow_le. lia. Qed.
Lemma pow_down a b : (a <= b)%nat -> pow2 (- Z.of_nat b) <= pow2 (- Z.of_nat a). Proof. intros. apply bpow_le. lia. Qed.
Lemma ranged_sum la ta lb tb a b : ranged la ta a -> ranged lb tb b -> ranged (Nat.max la lb) (S (Nat.max ta tb)) (a + b).
Proof.
  intros A B. pose proof (ranged_nonneg _ _ _ A) as PA. pose proof (ranged_nonneg _ _ _ B) as PB. pose proof (pow_up ta (Nat.max ta tb) ltac:(lia)). pose proof (pow_up tb (Nat.max ta tb) ltac:(lia)).
  pose proof (pow_down la (Nat.max la lb) ltac:(lia)). pose proof (pow_down lb (Nat.max la lb) ltac:(lia)).
  assert (T : pow2 (Z.of_nat (S (Nat.max ta tb))) = 2 * pow2 (Z.of_nat (Nat.max ta tb))) by (replace (Z.of_nat (S (Nat.max ta tb))) with (1 + Z.of_nat (Nat.max ta tb))%Z by lia; rewrite bpow_plus; reflexivity).
  pose proof (bpow_gt_0 radix2 (Z.of_nat (Nat.max ta tb))). unfold ranged. rewrite T. destruct A as [->|A], B as [->|B]; [left; lra|right; lra..].
Qed.
Lemma ranged_prod la ta lb tb a b : ranged la ta a -> ranged lb tb b -> ranged (la + lb) (ta + tb) (a * b).
Proof.
  intros [->|(A1 & A2)]; [intros _; left; ring|]. intros [->|(B1 & B2)]; [left; ring|right]. replace (- Z.of_nat (la + lb))%Z with (- Z.of_nat la + - Z.of_nat lb)%Z by lia. rewrite Nat2Z.inj_add, !bpow_plus.
  pose proof (bpow_gt_0 radix2 (- Z.of_nat la)). pose proof (bpow_gt_0 radix2 (- Z.of_nat lb)). split; apply Rmult_le_compat; lra.
Qed.
Lemma ranged_quot la ta a z : (0 < z <= 2 ^ 53)%Z -> ranged la ta a -> ranged (la + 53) ta (a / IZR z).
Proof.
  intros (Z1 & Z2) [->|(A1 & A2)]; [left; unfold Rdiv; ring|right]. assert (Z1' : 1 <= IZR z) by (apply IZR_le; lia). assert (Z2' : IZR z <= pow2 53) by (change (pow2 53) with (IZR (2 ^ 53)); now apply IZR_le).
  pose proof (bpow_gt_0 radix2 (- Z.of_nat la)) as P. split.
  - replace (- Z.of_nat (la + 53))%Z with (- Z.of_nat la + - (53))%Z by lia. rewrite bpow_plus. unfold Rdiv. apply Rmult_le_compat; [lra|apply bpow_ge_0|exact A1|]. rewrite bpow_opp. apply Rinv_le; lra.
  - apply Rle_trans with a; [|exact A2]. unfold Rdiv. rewrite <- (Rmult_1_r a) at 2. apply Rmult_le_compat_l; [lra|]. rewrite <- Rinv_1. apply Rinv_le; lra.
Qed.
Lemma ranged_moderate l t (q : Qc) : (l <= 800)%nat -> (t <= 800)%nat -> ranged l t (Q2R q) -> moderate_q q.
Proof.
  intros L T [E|(A & B)]; [left; apply eqR_Qeq; rewrite E; unfold Q2R; cbn [Qnum Qden]; lra|right]. split; apply Rle_Qle.
  - rewrite Q2R_inv by (intros E; vm_compute in E; discriminate E). rewrite real_pow by lia. eapply Rle_trans; [|exact A]. rewrite <- bpow_opp. apply bpow_le. lia.
  - rewrite real_pow by lia. eapply Rle_trans; [exact B|]. apply bpow_le. lia.
Qed.
Section Usual.
Context (v : param -> Qc) (U : forall p, usual (v p)).
Lemma usual_ranged p : ranged 100 100 (Q2R (v p)).
Proof.
  destruct (U p) as [E|(A & B)]; [left; rewrite (Qeq_eqR _ _ E); unfold Q2R; cbn; lra|right]. apply Qle_Rle in A, B. rewrite Q2R_inv in A by (intros E; vm_compute in E; discriminate E). rewrite real_pow in A, B by lia.
  split; [|exact B]. change (- Z.of_nat 100)%Z with (- (100))%Z. now rewrite bpow_opp.
Qed.
Lemma formula_ranged e : countable e -> ranged (low e) (top e) (Q2R (exactly v e)).
Proof.
  induction e as [p|z|a IHa b IHb|a IHa b IHb|a IHa b IHb]; cbn [countable value low top exact_num nint nadd nmul ndiv].
  - intros _. apply usual_ranged.
  - intros (Z1 & Z2). rewrite real_int. destruct (Z.eq_dec z 0) as [->|N]; [now left|right]. split; [change (pow2 (- Z.of_nat 0)) with 1; apply IZR_le; lia|]. change (pow2 (Z.of_nat 53)) with (IZR (2 ^ 53)). now apply IZR_le.
  - intros (A & B). rewrite real_add. apply ranged_sum; auto.
  - intros (A & B). rewrite real_mul. apply ranged_prod; auto.
  - intros (A & B). destruct b as [|z| | |]; try contradiction. cbn [value exact_num nint]. rewrite real_div, real_int; [apply ranged_quot; auto|]. apply Rlt_Qlt. rewrite real_int. unfold Q2R. cbn [Qnum Qden]. rewrite Rmult_0_l. apply IZR_lt. lia.
Qed.
Lemma usual_ordinary e : countable e -> (low e <= 800)%nat -> (top e <= 800)%nat -> ordinary v e.
Proof.
  induction e as [p|z|a IHa b IHb|a IHa b IHb|a IHa b IHb]; intros C L T; pose proof (formula_ranged _ C) as R; cbn [ordinary].
  - apply Rle_Qle. unfold Q2R at 1. cbn [Qnum Qden]. rewrite Rmult_0_l. eapply ranged_nonneg. exact (usual_ranged p).
  - exact C.
  - destruct C as (A & B). cbn [low top] in L, T. split; [apply IHa; [exact A|lia|lia]|]. split; [apply IHb; [exact B|lia|lia]|]. eapply ranged_moderate; [| |exact R]; cbn [low top]; lia.
  - destruct C as (A & B). cbn [low top] in L, T. split; [apply IHa; [exact A|lia|lia]|]. split; [apply IHb; [exact B|lia|lia]|]. eapply ranged_moderate; [| |exact R]; cbn [low top]; lia.
  - destruct C as (A & B). cbn [low top] in L, T. split; [apply IHa; [exact A|lia|lia]|]. destruct b as [|z| | |]; try contradiction. split; [cbn [ordinary]; lia|]. split; [eapply ranged_moderate; [| |exact R]; cbn [low top]; lia|].
    cbn [value exact_num nint]. apply Rlt_Qlt. rewrite real_int. unfold Q2R. cbn [Qnum Qden]. rewrite Rmult_0_l. apply IZR_lt. lia.
Qed.
Lemma flat_ordinary n e : flat 303 n e -> (n <= 490)%nat -> countable e -> ordinary v e.
Proof. intros (_ & T & L) N C. apply usual_ordinary; [exact C|lia|lia]. Qed.
End Usual.
Theorem report_usual (g : rcfg float_num) (x : rcfg exact_num) nodes m c d h : same_config g x -> (forall p, usual (worth x p)) -> let t := Z.to_nat (w_tiles (y_net (g_sys x))) in at_most t m c nodes ->
  let n := (20 + m + c + t + List.length nodes)%nat in (n <= 490)%nat ->
  sim_report g nodes [] = (Ok d, h) ->
  exists h' f, sim_report x nodes [] = (Ok d, h') /\ sim_report (named x) nodes [] = (Ok d, f) /\
    forall k i, In (k, i) d -> near_to n (deref f i) (deref h' i) (deref h i).
Proof.
  intros S U t M n N E. destruct (report_close g x nodes m c d h S M ltac:(fold t; fold n; lia) E) as (h' & f & E1 & E2 & H). exists h', f. split; [exact E1|]. split; [exact E2|]. intros k i I. destruct (H k i I) as (C & H1 & H2 & H3).
  destruct (report_depth x nodes m c d f k i M E2 I) as (D1 & D2 & D3). split; [exact C|]. split; [|split]; intros CO; [apply H1|apply H2|apply H3]; eapply flat_ordinary; eassumption.
Qed.
Theorem printed_usual (g : rcfg float_num) (x : rcfg exact_num) nodes m c d h : same_config g x -> (forall p, usual (worth x p)) -> let t := Z.to_nat (w_tiles (y_net (g_sys x))) in at_most t m c nodes ->
  let n := (22 + m + c + t + List.length nodes + List.length d)%nat in (n <= 440)%nat ->
  sim_report g nodes [] = (Ok d, h) ->
  exists h' f, sim_report x nodes [] = (Ok d, h') /\ sim_report (named x) nodes [] = (Ok d, f) /\ printed_near n (print_stats f d) (print_stats h' d) (print_stats h d).
Proof.
  intros S U t M n N E. destruct (report_printed g x nodes m c d h S M ltac:(fold t; fold n; lia) E) as (h' & f & E1 & E2 & (H1 & H2 & H3)). exists h', f. split; [exact E1|]. split; [exact E2|].
  destruct (summary_shallow _ f d (fun k i I => report_depth x nodes m c d f k i M E2 I)) as ((_ & T1 & L1) & (_ & T2 & L2) & (_ & T3 & L3)). fold t in T1, T2, T3.
  unfold printed_near, print_stats. cbn [pr_dyn pr_leak pr_area]. unfold print_stats in H1, H2, H3. cbn [pr_dyn pr_leak pr_area] in H1, H2, H3.
  split; [|split]; intros CO; [apply H1|apply H2|apply H3]; (apply usual_ordinary; [exact U|exact CO| |]); cbn [low top nmul formula_num pico ndiv nint]; unfold n in N; lia.
Qed.
