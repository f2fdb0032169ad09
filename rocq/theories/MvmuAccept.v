(** Which weight arrays a matrix unit accepts. *)
From Verif Require Import PyBase PyLemmas FloatModel AnalogProofs DataConvert ConfigModel ConfigSpec ConfigProofs
  MemoryModel MvmuModel FloatSpec FloatProofs AnalogChain MvmuSpec MvmuLists MvmuLoad.
From Flocq Require Import IEEE754.BinarySingleNaN Core.
From Coq Require Import Reals Lra Psatz ZifyNat ZifyBool.
Open Scope Z_scope.

(** As many rows as columns, finite numbers, and fixed-point magnitudes that fit into 63 bits. *)
Definition loadable (n frac : Z) (W : list (list f64)) : Prop :=
  zlen W = n /\ Forall (fun r => zlen r = n /\ Forall (fun w => is_finite w = true /\ weight_mag frac w < 2 ^ 63) r) W.

Lemma map_res_total {A B} (f : A -> res B) l : Forall (fun x => exists y, f x = Ok y) l -> exists ys, map_res f l = Ok ys.
Proof. induction 1 as [|x l (y & E) _ (ys & IH)]; cbn; [eauto|]. rewrite E, IH. eauto. Qed.
Lemma map2d_res_total {A B} (f : A -> res B) m : Forall (Forall (fun x => exists y, f x = Ok y)) m -> exists ys, map2d_res f m = Ok ys.
Proof. intros H. apply map_res_total. eapply Forall_impl; [|exact H]. intros r. apply map_res_total. Qed.

Lemma to_fixed_int64_total frac w : 0 <= frac <= 1023 -> is_finite w = true -> weight_mag frac w < 2 ^ 63 ->
  to_fixed_int64 frac w = Ok (weight_mag frac w).
Proof.
  intros Hf Fw M. unfold to_fixed_int64. destruct (fabs_spec w) as (F & B & _).
  rewrite float_to_fixed_ok by (try assumption; unfold fin; now rewrite F). rewrite B.
  fold (weight_mag frac w).
  assert (P : (0 <= Rabs (B2R w) * bpow radix2 frac)%R) by (apply Rmult_le_pos; [apply Rabs_pos|apply bpow_ge_0]).
  rewrite Rlt_bool_true.
  - replace (weight_mag frac w <? 2 ^ 63) with true by lia. reflexivity.
  - rewrite Rabs_pos_eq by exact P. apply Rlt_le_trans with (IZR (weight_mag frac w + 1)).
    + unfold weight_mag. rewrite plus_IZR. pose proof (Znearest_half (fun x => negb (Z.even x)) (Rabs (B2R w) * bpow radix2 frac)) as H.
      apply Rabs_le_inv in H. lra.
    + apply Rle_trans with (IZR (2 ^ 63)); [apply IZR_le; lia|]. change (IZR (2 ^ 63)) with (bpow radix2 63). apply bpow_le. lia.
Qed.

Lemma load_accepts cfg ww c u W : mvmu_ok cfg ww c ->
  (fst (load_weights c u W) = Ok tt <-> loadable (c_size c) (c_weight_frac c) W).
Proof.
  intros OK. pose proof (ok_frac _ _ _ OK) as HF. split.
  - unfold load_weights. destruct (is_square (c_size c) W) eqn:Sq; [|discriminate]. cbn [negb].
    destruct (map2d_res _ W) as [iw|e] eqn:Ei; [|discriminate]. apply map2d_res_ok in Ei. intros _.
    unfold is_square in Sq. rewrite andb_true_iff, forallb_forall in Sq. destruct Sq as [S1 S2]. split; [lia|].
    assert (S3 : forall r, In r W -> zlen r = c_size c) by (intros r Hr; specialize (S2 r Hr); lia). clear S1 S2.
    induction Ei as [|r r' W' iw' Hr _ IH]; constructor.
    + split; [apply S3; now left|]. eapply Forall2_Forall_l; [|exact Hr]. intros w v Hv. apply to_fixed_int64_ok in Hv; [|assumption].
      destruct Hv as (F & -> & R). split; [exact F|lia].
    + apply IH. intros r0 H0. apply S3. now right.
  - intros (L & F). unfold load_weights.
    assert (Sq : is_square (c_size c) W = true).
    { unfold is_square. rewrite andb_true_iff, forallb_forall. split; [lia|]. intros r Hr. rewrite Forall_forall in F. destruct (F r Hr) as [E _]; cbv beta; apply Z.eqb_eq; exact E. }
    rewrite Sq. cbn [negb].
    destruct (map2d_res_total (to_fixed_int64 (c_weight_frac c)) W) as (iw & Ei).
    { eapply Forall_impl; [|exact F]. intros r (_ & Fr). eapply Forall_impl; [|exact Fr]. intros w (Fw & M).
      exists (weight_mag (c_weight_frac c) w). now apply to_fixed_int64_total. }
    rewrite Ei. apply map2d_res_ok in Ei.
    destruct (map_res_total (load_xbar c W iw) (seq 0 (Z.to_nat (c_num_xbar c)))) as (xs & Ex).
    { apply Forall_forall. intros k Hk. apply in_seq in Hk. rewrite (num_xbar_eq _ _ _ OK) in Hk. unfold zlen in Hk.
      assert (Hk' : (k < length cfg)%nat) by lia. unfold load_xbar.
      destruct (map2d_res_total (fun v => extract_bits v (nth k (stored_bit (c_storage c)) 0) (nth (S k) (stored_bit (c_storage c)) 0)) iw) as (sl & Es).
      { apply Forall_forall. intros r _. apply Forall_forall. intros v _. rewrite !(stored_nth _ _ _ OK) by lia.
        pose proof (bits_below_nonneg cfg k). pose proof (cell_bits_pos (nth k cfg SLC)). rewrite bits_below_step by lia.
        rewrite extract_bits_val by lia. eauto. }
      rewrite Es. rewrite (rram_nth _ _ _ OK) by assumption. destruct (is_rram (nth k cfg SLC)); [|eauto].
      rewrite (bits_nth _ _ _ OK) by assumption.
      pose proof (slices_of cfg ww c W iw k sl OK Hk' Ei Es) as S.
      destruct (map2d_res_total (fun v => int_to_conductance v (cell_bits (nth k cfg SLC)) (c_gmin c) (c_gmax c)) sl) as (gs & Eg).
      { clear - S. induction S as [|r r' W' sl' Hr _ IH]; constructor; [|exact IH].
        induction Hr as [|w v r r' (_ & ->) _ IHr]; constructor; [|exact IHr]. apply conductance_fin.
        pose proof (cell_range cfg (c_weight_frac c) k w). lia. }
      rewrite Eg. eauto. }
    rewrite Ex. reflexivity.
Qed.

(** A refused array leaves the unit as it was. *)
Lemma refused_unchanged c u W : fst (load_weights c u W) <> Ok tt -> snd (load_weights c u W) = u.
Proof.
  unfold load_weights. destruct (negb _); [reflexivity|]. destruct (map2d_res _ W) as [iw|e]; [|reflexivity].
  destruct (map_res _ _) as [xs|e]; [|reflexivity]. cbn [fst snd]. congruence.
Qed.
