(** Fixed-point conversion on binary64. *)
From Verif Require Import PyBase PyLemmas FloatModel FloatSpec AnalogProofs.
From Flocq Require Import IEEE754.BinarySingleNaN Core.
From Coq Require Import Reals Lra Psatz.
Open Scope R_scope.

Lemma nearest_even_ZnearestE r : nearest_even r (ZnearestE r).
Proof.
  unfold nearest_even. pose proof (Znearest_half (fun x => negb (Z.even x)) r) as H.
  destruct (Rle_lt_or_eq_dec _ _ H) as [L|E]; [now left|right]. split; [exact E|].
  unfold Znearest in *. destruct (Rcompare_spec (r - IZR (Zfloor r)) (/ 2)) as [C|C|C].
  - exfalso. pose proof (Zfloor_lb r). rewrite Rabs_pos_eq in E by lra. lra.
  - destruct (Z.even (Zfloor r)) eqn:Ev; cbn [negb] in *; [exact Ev|].
    rewrite Zceil_floor_neq by lra. rewrite Z.even_add, Ev. reflexivity.
  - exfalso. assert (N : IZR (Zfloor r) <> r) by lra. pose proof (Zfloor_lb r).
    pose proof (Zfloor_ub r). rewrite Zceil_floor_neq in E by exact N. rewrite plus_IZR in E.
    rewrite Rabs_left1 in E; lra.
Qed.

Lemma nearest_even_unique r a b : nearest_even r a -> nearest_even r b -> a = b.
Proof.
  assert (K : forall a b, (a < b)%Z -> nearest_even r a -> nearest_even r b -> False).
  { clear. intros a b L Ha Hb. assert (L' : IZR a + 1 <= IZR b).
    { rewrite <- (plus_IZR a 1). apply IZR_le. lia. }
    assert (Ua : r <= IZR a + / 2 ).
    { destruct Ha as [H|[H _]]; [apply Rabs_lt_inv in H|assert (H' := Rle_abs (r - IZR a))]; lra. }
    assert (Ub : IZR b - / 2 <= r).
    { destruct Hb as [H|[H _]]; [apply Rabs_lt_inv in H|assert (H' := Rle_abs (- (r - IZR b))); rewrite Rabs_Ropp in H']; lra. }
    assert (E : IZR b = IZR (a + 1)) by (rewrite plus_IZR; lra). apply eq_IZR in E. subst b.
    rewrite plus_IZR in *.
    assert (Er : r = IZR a + / 2) by lra.
    destruct Ha as [H|[_ Ea]]; [rewrite Er in H; replace (IZR a + / 2 - IZR a) with (/2) in H by ring;
      rewrite Rabs_pos_eq in H; lra|].
    destruct Hb as [H|[_ Eb]]; [rewrite Er, plus_IZR in H; replace (IZR a + / 2 - (IZR a + 1)) with (-(/2)) in H by lra;
      rewrite Rabs_Ropp, Rabs_pos_eq in H; lra|].
    rewrite Z.even_add, Ea in Eb. discriminate. }
  intros Ha Hb. destruct (Z.lt_trichotomy a b) as [L|[E|L]]; [|exact E|]; exfalso; eauto.
Qed.

Lemma format_scale (x : f64) e : (0 <= e)%Z -> rnd64 (B2R x * bpow radix2 e) = B2R x * bpow radix2 e.
Proof.
  intros He. apply round_generic; [apply valid_rnd_N|].
  pose proof (generic_format_B2R prec64 emax64 x) as G.
  change (generic_format radix2 (FLT_exp (-1074) 53) (B2R x)) in G.
  change (generic_format radix2 (FLT_exp (-1074) 53) (B2R x * bpow radix2 e)).
  apply FLT_format_generic in G; [|reflexivity]. destruct G as [[m ex] E1 E2 E3]. cbn [Fnum Fexp] in *.
  apply generic_format_FLT. exists (Float radix2 m (ex + e)); cbn [Fnum Fexp]; [|exact E2|lia].
  rewrite E1. unfold F2R; cbn [Fnum Fexp]. rewrite bpow_plus. ring.
Qed.

Lemma f_of_Z_pow2 f : (0 <= f <= 1023)%Z -> fin (f_of_Z (2 ^ f)) /\ B2R (f_of_Z (2 ^ f)) = bpow radix2 f.
Proof.
  intros H. unfold f_of_Z.
  pose proof (binary_normalize_correct prec64 emax64 _ _ mode_NE (2 ^ f) 0 false) as C. cbv zeta in C.
  assert (E : F2R (Float radix2 (2 ^ f) 0) = bpow radix2 f).
  { unfold F2R; cbn [Fnum Fexp]. rewrite Rmult_1_r. change 2%Z with (radix_val radix2). apply IZR_Zpower. lia. }
  cbn [round_mode] in C. rewrite E in C.
  rewrite round_generic in C; [|apply valid_rnd_N|].
  2:{ change (generic_format radix2 (FLT_exp (-1074) 53) (bpow radix2 f)). apply generic_format_bpow.
      unfold FLT_exp. lia. }
  rewrite Rlt_bool_true in C.
  - destruct C as (C1 & C2 & _). split; assumption.
  - rewrite Rabs_pos_eq by apply bpow_ge_0. apply bpow_lt. unfold emax64. lia.
Qed.

Lemma pow2_shiftl f : (0 <= f)%Z -> Z.shiftl 1 f = (2 ^ f)%Z.
Proof. intros. rewrite Z.shiftl_1_l. reflexivity. Qed.

(** Scaling by a power of two. *)
Lemma fmul_pow2 x f : fin x -> (0 <= f <= 1023)%Z ->
  if Rlt_bool (Rabs (B2R x * bpow radix2 f)) (bpow radix2 1024)
  then fin (fmul x (f_of_Z (2 ^ f))) /\ B2R (fmul x (f_of_Z (2 ^ f))) = B2R x * bpow radix2 f
  else is_nan (fmul x (f_of_Z (2 ^ f))) = false /\ is_finite (fmul x (f_of_Z (2 ^ f))) = false.
Proof.
  intros Fx Hf. destruct (f_of_Z_pow2 f Hf) as (Fp & Ep).
  pose proof (Bmult_correct prec64 emax64 _ _ mode_NE x (f_of_Z (2 ^ f))) as C. cbn [round_mode] in C.
  rewrite Ep in C. rewrite format_scale in C by lia.
  change (bpow radix2 1024) with (bpow radix2 emax64).
  destruct (Rlt_bool (Rabs (B2R x * bpow radix2 f)) (bpow radix2 emax64)) eqn:L.
  - destruct C as (C1 & C2 & _). split; [|exact C1]. unfold fin, fmul. rewrite C2.
    unfold fin in *. now rewrite Fx, Fp.
  - unfold fmul. unfold binary_overflow in C. cbn [overflow_to_inf] in C.
    destruct (Bmult mode_NE x (f_of_Z (2 ^ f))); cbn in C |- *; try discriminate C; auto.
Qed.

Lemma float_to_fixed_ok x f : fin x -> (0 <= f <= 1023)%Z ->
  float_to_fixed x f =
  if Rlt_bool (Rabs (B2R x * bpow radix2 f)) (bpow radix2 1024)
  then Ok (ZnearestE (B2R x * bpow radix2 f)) else Raise OverflowError.
Proof.
  intros Fx Hf. unfold float_to_fixed. replace (0 <=? f)%Z with true by lia. cbn [negb].
  rewrite pow2_shiftl by lia. pose proof (fmul_pow2 x f Fx Hf) as M. unfold py_round.
  destruct (Rlt_bool _ _).
  - destruct M as (F & E). unfold fin in F.
    assert (N : is_nan (fmul x (f_of_Z (2 ^ f))) = false) by (destruct (fmul _ _); try reflexivity; discriminate F).
    rewrite N, F. now rewrite fnearest_R, E.
  - destruct M as (N & F). now rewrite N, F.
Qed.

Lemma float_to_fixed_nonfinite x f : (0 <= f <= 1023)%Z -> is_finite x = false ->
  float_to_fixed x f = Raise (if is_nan x then ValueError else OverflowError).
Proof.
  intros Hf Fx. unfold float_to_fixed. replace (0 <=? f)%Z with true by lia. cbn [negb].
  rewrite pow2_shiftl by lia. destruct (f_of_Z_pow2 f Hf) as (Fp & Ep).
  destruct (f_of_Z (2 ^ f)) as [s|s| |s m e b] eqn:Ef; try discriminate Fp.
  - exfalso. cbn in Ep. pose proof (bpow_gt_0 radix2 f). lra.
  - unfold py_round. destruct x as [sx|sx| |sx mx ex bx]; try discriminate Fx; reflexivity.
Qed.

(** The other direction. *)
Lemma fixed_to_float_ok m f : (Z.abs m <= 2 ^ 53)%Z -> (0 <= f <= 1021)%Z ->
  exists x, fixed_to_float m f = Ok x /\ fin x /\ B2R x = IZR m * bpow radix2 (- f).
Proof.
  intros Hm Hf. unfold fixed_to_float. replace (0 <=? f)%Z with true by lia. cbn [negb].
  rewrite pow2_shiftl by lia. eexists; split; [reflexivity|].
  destruct (f_of_Z_correct m Hm) as (Fm & Em). destruct (f_of_Z_pow2 f ltac:(lia)) as (Fp & Ep).
  assert (N : B2R (f_of_Z (2 ^ f)) <> 0) by (rewrite Ep; apply Rgt_not_eq, bpow_gt_0).
  pose proof (Bdiv_correct prec64 emax64 _ _ mode_NE (f_of_Z m) (f_of_Z (2 ^ f)) N) as C.
  cbn [round_mode] in C. rewrite Em, Ep in C.
  assert (Q : IZR m / bpow radix2 f = IZR m * bpow radix2 (- f)) by (unfold Rdiv; now rewrite bpow_opp).
  rewrite Q in C.
  assert (G : rnd64 (IZR m * bpow radix2 (- f)) = IZR m * bpow radix2 (- f)).
  { apply round_generic; [apply valid_rnd_N|].
    change (generic_format radix2 (FLT_exp (-1074) 53) (IZR m * bpow radix2 (- f))).
    apply generic_format_FLT. destruct (Z.eq_dec (Z.abs m) (2 ^ 53)) as [E|E].
    - exists (Float radix2 (Z.sgn m) (53 - f)); cbn [Fnum Fexp]; [| |lia].
      + unfold F2R; cbn [Fnum Fexp]. unfold Z.sub. rewrite bpow_plus.
        replace (bpow radix2 53) with (IZR (2 ^ 53)) by reflexivity.
        rewrite <- Rmult_assoc, <- mult_IZR. do 2 f_equal. lia.
      + assert (Z.abs (Z.sgn m) <= 1)%Z by lia. apply Z.le_lt_trans with 1%Z; [assumption|reflexivity].
    - exists (Float radix2 m (- f)); cbn [Fnum Fexp]; [reflexivity| |lia].
      change (radix_val radix2 ^ 53)%Z with (2 ^ 53)%Z. lia. }
  rewrite G in C. rewrite Rlt_bool_true in C.
  - destruct C as (C1 & C2 & _). split; [|exact C1]. unfold fin, fdiv. rewrite C2. exact Fm.
  - rewrite Rabs_mult, <- abs_IZR. rewrite (Rabs_pos_eq (bpow _ _)) by apply bpow_ge_0.
    apply Rle_lt_trans with (bpow radix2 53 * 1).
    + apply Rmult_le_compat; [apply IZR_le; lia|apply bpow_ge_0| |].
      * change (bpow radix2 53) with (IZR (2 ^ 53)). now apply IZR_le.
      * change 1 with (bpow radix2 0). apply bpow_le. lia.
    + rewrite Rmult_1_r. apply bpow_lt. reflexivity.
Qed.

Lemma fixed_round_trip m f : (Z.abs m <= 2 ^ 53)%Z -> (0 <= f <= 1021)%Z ->
  exists x, fixed_to_float m f = Ok x /\ float_to_fixed x f = Ok m.
Proof.
  intros Hm Hf. destruct (fixed_to_float_ok m f Hm Hf) as (x & E & Fx & Ex). exists x. split; [exact E|].
  rewrite float_to_fixed_ok by (assumption || lia). rewrite Ex.
  replace (IZR m * bpow radix2 (- f) * bpow radix2 f) with (IZR m).
  2:{ rewrite Rmult_assoc, <- bpow_plus. replace (- f + f)%Z with 0%Z by lia. cbn. ring. }
  rewrite Rlt_bool_true.
  - f_equal. apply Znearest_imp. rewrite Rminus_eq_0, Rabs_R0. lra.
  - rewrite <- abs_IZR. apply Rle_lt_trans with (IZR (2 ^ 53)); [now apply IZR_le|].
    change (IZR (2 ^ 53)) with (bpow radix2 53). apply bpow_lt. reflexivity.
Qed.

Lemma float_to_fixed_nearest (x : f64) f z : (0 <= f <= 1023)%Z -> fin x ->
  float_to_fixed x f = Ok z -> nearest_even (B2R x * bpow radix2 f) z.
Proof.
  intros Hf F. rewrite float_to_fixed_ok by assumption. destruct (Rlt_bool _ _); [|discriminate].
  intros [= <-]. apply nearest_even_ZnearestE.
Qed.

Lemma float_to_fixed_defined (x : f64) f : (0 <= f <= 1023)%Z -> fin x ->
  (Rabs (B2R x * bpow radix2 f) < bpow radix2 1024 <-> exists z, float_to_fixed x f = Ok z).
Proof.
  intros Hf F. rewrite float_to_fixed_ok by assumption. split.
  - intros H. rewrite Rlt_bool_true by assumption. eauto.
  - intros [z H]. destruct (Rlt_bool_spec (Rabs (B2R x * bpow radix2 f)) (bpow radix2 1024)); [assumption|discriminate].
Qed.

Lemma negative_frac_rejected (x : f64) f : (f < 0)%Z -> float_to_fixed x f = Raise AssertionError /\
  forall m, fixed_to_float m f = Raise AssertionError.
Proof.
  intros H. unfold float_to_fixed, fixed_to_float. replace (0 <=? f)%Z with false by (symmetry; apply Z.leb_gt; exact H).
  split; reflexivity.
Qed.
