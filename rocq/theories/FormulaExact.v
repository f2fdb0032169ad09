(** Every finite float64 is rational. *)
From Flocq Require Import IEEE754.BinarySingleNaN Core.
From Coq Require Import QArith Qcanon Reals Qreals Lra.
From Verif Require Import PyBase FloatModel StatsModel ReportModel ReportSpec FormulaSpec FormulaRound.
Open Scope Z_scope.

Lemma rational_value (x : f64) : Q2R (rational_of x) = B2R x.
Proof.
  destruct x as [s|s| |s m e B]; cbn [rational_of B2R]; try apply real_int. replace (cond_Zopp s (Z.pos m)) with (if s then Z.neg m else Z.pos m) by now destruct s. set (z := if s then Z.neg m else Z.pos m). unfold F2R. cbn [Fnum Fexp].
  destruct (Z.leb_spec 0 e) as [L|L].
  - rewrite real_int, mult_IZR. f_equal. change 2 with (radix_val radix2). now apply IZR_Zpower.
  - rewrite real_div.
    + rewrite !real_int. unfold Rdiv. f_equal. change 2 with (radix_val radix2). rewrite IZR_Zpower by lia. rewrite <- bpow_opp. f_equal. lia.
    + apply Rlt_Qlt. rewrite real_int. unfold Q2R. cbn [Qnum Qden]. rewrite Rmult_0_l. apply IZR_lt. apply Z.pow_pos_nonneg; lia.
Qed.
Theorem exact_same (g : rcfg float_num) : (forall p (a : f64), g_param g p = Some a -> is_finite a = true) -> same_config g (exact_config g).
Proof.
  intros F. split; [|repeat split]. intros p. cbn [exact_config g_param]. destruct (g_param g p) as [a|] eqn:E; cbn [option_map]; [|exact I]. split; [exact (F p a E)|]. symmetry. apply rational_value.
Qed.
