(** Loading weights: what the crossbars contain afterwards. *)
From Verif Require Import PyBase PyLemmas FloatModel AnalogProofs DataConvert ConfigModel ConfigSpec ConfigProofs
  MemoryModel MvmuModel FloatSpec FloatProofs AnalogChain MvmuSpec MvmuLists.
From Flocq Require Import IEEE754.BinarySingleNaN Core.
From Coq Require Import Reals Lra Psatz ZifyNat ZifyBool.
Open Scope Z_scope.

Definition is_rram (b : bitcfg) : bool := negb (is_sram b).

Section Cfg.
Context (cfg : list bitcfg) (ww : Z) (c : mvmu_cfg) (OK : mvmu_ok cfg ww c).

Lemma storage_eq : c_storage c = storage_of cfg.
Proof.
  pose proof (ok_storage _ _ _ OK) as V. rewrite validate_storage_eq in V.
  destruct (_ =? ww); [|discriminate]. now injection V.
Qed.

Lemma num_xbar_eq : c_num_xbar c = zlen cfg.
Proof. unfold c_num_xbar. rewrite storage_eq. apply count_split. Qed.

Lemma num_rram_eq : num_rram (c_storage c) = Z.of_nat (length (filter is_rram cfg)).
Proof. rewrite storage_eq. reflexivity. Qed.
Lemma num_sram_eq : num_sram (c_storage c) = Z.of_nat (length (filter is_sram cfg)).
Proof. rewrite storage_eq. reflexivity. Qed.

Lemma have_rram_eq : have_rram (c_storage c) = existsb is_rram cfg.
Proof. rewrite storage_eq. reflexivity. Qed.
Lemma have_sram_eq : have_sram (c_storage c) = existsb is_sram cfg.
Proof. rewrite storage_eq. reflexivity. Qed.

Lemma stored_nth k : (k <= length cfg)%nat -> nth k (stored_bit (c_storage c)) 0 = bits_below cfg k.
Proof. rewrite storage_eq. apply stored_bit_nth. Qed.

Lemma bits_nth k : (k < length cfg)%nat -> nth k (bits_per_cell (c_storage c)) 0 = cell_bits (nth k cfg SLC).
Proof. intros H. rewrite storage_eq. cbn [storage_of bits_per_cell]. now apply nth_map_lt. Qed.

Lemma rram_nth k : (k < length cfg)%nat -> nth k (is_xbar_rram (c_storage c)) false = is_rram (nth k cfg SLC).
Proof.
  intros H. rewrite storage_eq. cbn [storage_of is_xbar_rram].
  rewrite (nth_map_lt _ _ _ SLC) by assumption. reflexivity.
Qed.
End Cfg.

Lemma existsb_nth_lt {A} (f : A -> bool) l k d : (k < length l)%nat -> f (nth k l d) = true -> existsb f l = true.
Proof. intros H E. apply existsb_exists. exists (nth k l d). split; [now apply nth_In|exact E]. Qed.

(** ** Weights as integers *)
Lemma fabs_spec w : is_finite (fabs w) = is_finite w /\ B2R (fabs w) = Rabs (B2R w) /\ is_nan (fabs w) = is_nan w.
Proof.
  unfold fabs. split; [apply is_finite_Babs|]. split; [apply B2R_Babs|apply is_nan_Babs].
Qed.

Lemma weight_mag_nonneg frac w : 0 <= weight_mag frac w.
Proof.
  unfold weight_mag.
  assert (P : (0 <= Rabs (B2R w) * bpow radix2 frac)%R).
  { apply Rmult_le_pos; [apply Rabs_pos|apply bpow_ge_0]. }
  eapply Z.le_trans; [|apply Znearest_ge_floor]. apply Zfloor_lub. exact P.
Qed.

Lemma to_fixed_int64_ok frac w v : 0 <= frac <= 1023 -> to_fixed_int64 frac w = Ok v ->
  fin w /\ v = weight_mag frac w /\ 0 <= v < 2 ^ 63.
Proof.
  intros Hf. unfold to_fixed_int64. destruct (fabs_spec w) as (F & B & N).
  destruct (is_finite w) eqn:Fw.
  - rewrite float_to_fixed_ok by assumption. rewrite B.
    destruct (Rlt_bool _ _); [|discriminate]. destruct (_ <? 2 ^ 63) eqn:L; [|discriminate].
    intros [= <-]. split; [exact Fw|]. split; [reflexivity|]. split; [apply (weight_mag_nonneg frac w)|lia].
  - rewrite float_to_fixed_nonfinite by assumption. discriminate.
Qed.

Lemma fsign_sgn w : fin w -> fin (fsign w) /\ B2R (fsign w) = IZR (weight_sgn w) /\ sign_Z w = weight_sgn w.
Proof.
  intros F. destruct (fsign_spec w F) as (Fs & H). split; [exact Fs|].
  assert (E : B2R (fsign w) = IZR (weight_sgn w)).
  { unfold weight_sgn. destruct H as [(H & ->)|[(H & ->)|(H & ->)]].
    - rewrite Rlt_bool_false by lra. rewrite Rlt_bool_true by lra. reflexivity.
    - rewrite Rlt_bool_true by lra. reflexivity.
    - rewrite H. rewrite !Rlt_bool_false by lra. reflexivity. }
  split; [exact E|]. unfold sign_Z. rewrite fnearest_R, E.
  apply Znearest_imp. rewrite Rminus_eq_0, Rabs_R0. lra.
Qed.

Lemma weight_sgn_cases w : weight_sgn w = 1 \/ weight_sgn w = -1 \/ weight_sgn w = 0.
Proof. unfold weight_sgn. destruct (Rlt_bool _ _); [auto|]. destruct (Rlt_bool _ _); auto. Qed.

Lemma weight_zero frac w : weight_sgn w = 0 -> weight_mag frac w = 0.
Proof.
  unfold weight_sgn, weight_mag. destruct (Rlt_bool_spec (B2R w) 0); [discriminate|].
  destruct (Rlt_bool_spec 0 (B2R w)); [discriminate|]. intros _. assert (E : B2R w = 0%R) by lra.
  rewrite E, Rabs_R0, Rmult_0_l. apply Znearest_imp. rewrite Rminus_0_r, Rabs_R0. lra.
Qed.

(** ** Cells *)
Definition gstep (c : mvmu_cfg) (b : Z) : R := (B2R (c_gmax c) / IZR (2 ^ b - 1))%R.

Lemma mid_of x : moderate_pos x -> mid x.
Proof. intros H. exact H. Qed.

Lemma fopp_spec x : fin x -> fin (fopp x) /\ B2R (fopp x) = (- B2R x)%R.
Proof. intros F. unfold fopp, fin. rewrite is_finite_Bopp, B2R_Bopp. auto. Qed.

(** A cell of magnitude v, signed by its weight, stored in the positive and the negative plane. *)
Lemma planes_approx c b w v g :
  analog_ok c -> 1 <= b <= 31 -> fin w -> 0 <= v ->
  int_to_conductance v b (c_gmin c) (c_gmax c) = Ok g ->
  approx 2 (fmax0 (fmul (fsign w) g)) (IZR (Z.max (weight_sgn w * v) 0) * gstep c b) /\
  approx 2 (fmax0 (fopp (fmul (fsign w) g))) (IZR (Z.max (- (weight_sgn w * v)) 0) * gstep c b).
Proof.
  intros A Hb Fw Hv HG.
  destruct (conductance_approx v b _ _ g (an_gmax _ A) (proj1 (an_gmin _ A)) (proj2 (an_gmin _ A)) Hb Hv HG) as [Ag _].
  pose proof (approx_nonneg _ _ _ Ag) as Gp.
  destruct (fsign_sgn w Fw) as (Fs & Es & _).
  destruct (fmul_sign w g Fw (proj1 Ag)) as (Fm & Em). rewrite Es in Em.
  destruct (fmax0_spec _ Fm) as (F1 & E1). rewrite Em in E1.
  destruct (fopp_spec _ Fm) as (Fo & Eo). rewrite Em in Eo.
  destruct (fmax0_spec _ Fo) as (F2 & E2). rewrite Eo in E2.
  assert (Z0 : forall x : f64, fin x -> B2R x = 0%R -> approx 2 x (IZR 0 * gstep c b)).
  { intros x Fx Ex. split; [exact Fx|]. rewrite Ex. split; [lra|]. rewrite !Rmult_0_l. lra. }
  assert (K : forall x : f64, fin x -> B2R x = B2R g -> approx 2 x (IZR v * gstep c b)).
  { intros x Fx Ex. split; [exact Fx|]. rewrite Ex. apply Ag. }
  destruct (weight_sgn_cases w) as [S|[S|S]]; rewrite S in *.
  - rewrite Z.max_l, Z.max_r by lia. rewrite Z.mul_1_l. split.
    + apply K; [exact F1|]. rewrite E1. rewrite Rmax_left; lra.
    + apply Z0; [exact F2|]. rewrite E2. rewrite Rmax_right; lra.
  - rewrite Z.max_r, Z.max_l by lia. split.
    + apply Z0; [exact F1|]. rewrite E1. rewrite Rmax_right; lra.
    + replace (- (-1 * v)) with v by lia. apply K; [exact F2|]. rewrite E2. rewrite Rmax_left; lra.
  - cbn [Z.mul Z.opp Z.max Z.compare]. split.
    + apply Z0; [exact F1|]. rewrite E1. rewrite Rmult_0_l. apply Rmax_right. lra.
    + apply Z0; [exact F2|]. rewrite E2. rewrite Rmult_0_l, Ropp_0. apply Rmax_right. lra.
Qed.

(** ** What the crossbars hold *)
Section Holds.
Context (cfg : list bitcfg) (c : mvmu_cfg) (W : list (list f64)).

Definition cell (k : nat) (w : f64) : Z := cell_of cfg (c_weight_frac c) k w.
Definition rk (k : nat) : nat := rank is_rram cfg k.
Definition sk (k : nat) : nat := rank is_sram cfg k.

Definition holds_rram (u : mvmu) (k : nat) : Prop :=
  let b := cell_bits (nth k cfg SLC) in
  Forall2 (Forall2 (fun w g => approx 2 g (IZR (Z.max (cell k w) 0) * gstep c b))) W (nth (rk k) (rram_pos u) []) /\
  Forall2 (Forall2 (fun w g => approx 2 g (IZR (Z.max (- cell k w) 0) * gstep c b))) W (nth (rk k) (rram_neg u) []).

Definition holds_sram (u : mvmu) (k : nat) : Prop :=
  Forall2 (Forall2 (fun w p => p = Z.max (cell k w) 0)) W (nth (sk k) (sram_pos u) []) /\
  Forall2 (Forall2 (fun w p => p = Z.max (- cell k w) 0)) W (nth (sk k) (sram_neg u) []).

Record holds (u : mvmu) : Prop := {
  h_rows : length W = Z.to_nat (c_size c);
  h_cols : Forall (fun r => length r = Z.to_nat (c_size c)) W;
  h_fin : Forall (Forall fin) W;
  h_lens : length (rram_pos u) = length (filter is_rram cfg) /\ length (rram_neg u) = length (filter is_rram cfg) /\
           length (sram_pos u) = length (filter is_sram cfg) /\ length (sram_neg u) = length (filter is_sram cfg);
  h_rram : forall k, (k < length cfg)%nat -> is_sram (nth k cfg SLC) = false -> holds_rram u k;
  h_sram : forall k, (k < length cfg)%nat -> is_sram (nth k cfg SLC) = true -> holds_sram u k }.
End Holds.

(** Units of the right shape. *)
Record shaped (cfg : list bitcfg) (c : mvmu_cfg) (u : mvmu) : Prop := {
  sh_in : in_size (mv_in u) = c_size c; sh_inl : length (in_regs (mv_in u)) = Z.to_nat (c_size c);
  sh_in32 : Forall int32 (in_regs (mv_in u));
  sh_out : out_size (mv_out u) = c_size c; sh_outl : length (out_regs (mv_out u)) = Z.to_nat (c_size c);
  sh_out32 : Forall int32 (out_regs (mv_out u));
  sh_lens : length (rram_pos u) = length (filter is_rram cfg) /\ length (rram_neg u) = length (filter is_rram cfg) /\
            length (sram_pos u) = length (filter is_sram cfg) /\ length (sram_neg u) = length (filter is_sram cfg) }.

Lemma cell_range cfg frac k w :
  0 <= weight_mag frac w / 2 ^ bits_below cfg k mod 2 ^ cell_bits (nth k cfg SLC) < 2 ^ cell_bits (nth k cfg SLC).
Proof. apply Z.mod_pos_bound. apply Z.pow_pos_nonneg; [lia|]. pose proof (cell_bits_pos (nth k cfg SLC)). lia. Qed.

(** The slices cut from the fixed-point matrix. *)
Lemma slices_of cfg ww c W iw k sl :
  mvmu_ok cfg ww c -> (k < length cfg)%nat ->
  Forall2 (Forall2 (fun w v => to_fixed_int64 (c_weight_frac c) w = Ok v)) W iw ->
  map2d_res (fun v => extract_bits v (nth k (stored_bit (c_storage c)) 0) (nth (S k) (stored_bit (c_storage c)) 0)) iw = Ok sl ->
  Forall2 (Forall2 (fun w v => fin w /\
     v = weight_mag (c_weight_frac c) w / 2 ^ bits_below cfg k mod 2 ^ cell_bits (nth k cfg SLC))) W sl.
Proof.
  intros OK Hk HW Hs.
  rewrite !(stored_nth _ _ _ OK) in Hs by lia.
  pose proof (bits_below_nonneg cfg k). pose proof (cell_bits_pos (nth k cfg SLC)).
  rewrite bits_below_step in Hs by lia.
  apply map2d_res_ok in Hs. eapply Forall2_compose2; [|exact HW|exact Hs]. cbv beta.
  intros w v y Hwv Hy.
  apply to_fixed_int64_ok in Hwv; [|apply (ok_frac _ _ _ OK)]. destruct Hwv as (F & -> & _).
  split; [exact F|]. rewrite extract_bits_val in Hy by lia. injection Hy as <-. do 2 f_equal. lia.
Qed.

Lemma load_xbar_rram cfg ww c W iw k x :
  mvmu_ok cfg ww c -> analog_ok c -> (k < length cfg)%nat -> is_sram (nth k cfg SLC) = false ->
  Forall2 (Forall2 (fun w v => to_fixed_int64 (c_weight_frac c) w = Ok v)) W iw ->
  load_xbar c W iw k = Ok x ->
  exists m, x = XRram m /\
    Forall2 (Forall2 (fun w g =>
      approx 2 (fmax0 g) (IZR (Z.max (cell cfg c k w) 0) * gstep c (cell_bits (nth k cfg SLC))) /\
      approx 2 (fmax0 (fopp g)) (IZR (Z.max (- cell cfg c k w) 0) * gstep c (cell_bits (nth k cfg SLC))))) W m.
Proof.
  intros OK A Hk Hr HW. unfold load_xbar.
  destruct (map2d_res _ iw) as [sl|e] eqn:Es; [|discriminate].
  pose proof (slices_of cfg ww c W iw k sl OK Hk HW Es) as S.
  rewrite (rram_nth _ _ _ OK) by assumption. unfold is_rram. rewrite Hr. cbn [negb].
  rewrite (bits_nth _ _ _ OK) by assumption.
  destruct (map2d_res _ sl) as [g|e] eqn:Eg; [|discriminate]. intros [= <-].
  eexists; split; [reflexivity|].
  apply (zip2d_rel _ (fun w q => fin w /\
    int_to_conductance (weight_mag (c_weight_frac c) w / 2 ^ bits_below cfg k mod 2 ^ cell_bits (nth k cfg SLC))
      (cell_bits (nth k cfg SLC)) (c_gmin c) (c_gmax c) = Ok q)).
  - intros w q (F & Hq). pose proof (cell_range cfg (c_weight_frac c) k w).
    pose proof (cell_bits_pos (nth k cfg SLC)).
    apply planes_approx; try assumption; lia.
  - apply map2d_res_ok in Eg. eapply Forall2_compose2; [|exact S|exact Eg]. cbv beta.
    intros w v q (F & ->) Hq. split; assumption.
Qed.

Lemma load_xbar_sram cfg ww c W iw k x :
  mvmu_ok cfg ww c -> (k < length cfg)%nat -> is_sram (nth k cfg SLC) = true ->
  Forall2 (Forall2 (fun w v => to_fixed_int64 (c_weight_frac c) w = Ok v)) W iw ->
  load_xbar c W iw k = Ok x ->
  exists m, x = XSram m /\ Forall2 (Forall2 (fun w v => v = cell cfg c k w /\ -1 <= v <= 1)) W m.
Proof.
  intros OK Hk Hr HW. unfold load_xbar.
  destruct (map2d_res _ iw) as [sl|e] eqn:Es; [|discriminate].
  pose proof (slices_of cfg ww c W iw k sl OK Hk HW Es) as S.
  rewrite (rram_nth _ _ _ OK) by assumption. unfold is_rram. rewrite Hr. cbn [negb].
  intros [= <-]. eexists; split; [reflexivity|].
  eapply zip2d_rel; [|exact S]. intros w v (F & ->). destruct (fsign_sgn w F) as (_ & _ & ->).
  split; [reflexivity|].
  pose proof (cell_range cfg (c_weight_frac c) k w) as R.
  assert (E : cell_bits (nth k cfg SLC) = 1) by (destruct (nth k cfg SLC); try discriminate Hr; reflexivity).
  rewrite E in *. change (2 ^ 1) with 2 in *. destruct (weight_sgn_cases w) as [S'|[S'|S']]; rewrite S'; lia.
Qed.

Definition kind (x : xbar_weights) : bool := match x with XRram _ => true | XSram _ => false end.

Lemma load_xbar_kind cfg ww c W iw k x :
  mvmu_ok cfg ww c -> (k < length cfg)%nat -> load_xbar c W iw k = Ok x -> kind x = is_rram (nth k cfg SLC).
Proof.
  intros OK Hk. unfold load_xbar. destruct (map2d_res _ iw) as [sl|e]; [|discriminate].
  rewrite (rram_nth _ _ _ OK) by assumption. destruct (is_rram (nth k cfg SLC)).
  - destruct (map2d_res _ sl) as [g|e]; [|discriminate]. now intros [= <-].
  - now intros [= <-].
Qed.

Lemma rank_eq_map {A B} (p : A -> bool) (q : B -> bool) l l' k : map p l = map q l' -> rank p l k = rank q l' k.
Proof.
  intros H. transitivity (rank (fun b => b) (map p l) k); [symmetry; apply (rank_map p (fun b => b))|].
  rewrite H. apply (rank_map q (fun b => b)).
Qed.
Lemma filter_len_map {A B} (p : A -> bool) (q : B -> bool) l l' :
  map p l = map q l' -> length (filter p l) = length (filter q l').
Proof.
  revert l'; induction l as [|x l IH]; intros [|y l'] H; try discriminate; [reflexivity|].
  cbn in H. injection H as E H. cbn. rewrite E. destruct (q y); cbn; now rewrite (IH l').
Qed.

Lemma square_lengths {A} n (m : list (list A)) : is_square n m = true -> 0 <= n ->
  length m = Z.to_nat n /\ Forall (fun r => length r = Z.to_nat n) m.
Proof.
  unfold is_square. rewrite andb_true_iff, forallb_forall. intros [H1 H2] Hn. unfold zlen in *.
  split; [lia|]. apply Forall_forall. intros r Hr. specialize (H2 r Hr). lia.
Qed.

Lemma Forall2_Forall_l {A B} (P : A -> Prop) (Q : A -> B -> Prop) l l' :
  (forall x y, Q x y -> P x) -> Forall2 Q l l' -> Forall P l.
Proof. intros H; induction 1; constructor; eauto. Qed.

Lemma load_holds cfg ww c u W u1 :
  mvmu_ok cfg ww c -> ideal cfg c -> shaped cfg c u -> load_weights c u W = (Ok tt, u1) ->
  holds cfg c W u1 /\ shaped cfg c u1 /\ mv_in u1 = mv_in u /\ mv_out u1 = mv_out u /\ mv_stat u1 = mv_stat u.
Proof.
  intros OK ID SH. unfold load_weights. destruct (is_square (c_size c) W) eqn:Sq; [|discriminate]. cbn [negb].
  destruct (map2d_res _ W) as [iw|e] eqn:Ei; [|discriminate]. apply map2d_res_ok in Ei.
  destruct (map_res _ _) as [xs|e] eqn:Ex; [|discriminate]. apply map_res_ok in Ex.
  intros [= <-].
  rewrite (num_xbar_eq _ _ _ OK) in Ex. unfold zlen in Ex. rewrite Nat2Z.id in Ex.
  pose proof (Forall2_len _ _ _ Ex) as Lx. rewrite seq_length in Lx.
  assert (NX : forall k, (k < length cfg)%nat -> load_xbar c W iw k = Ok (nth k xs (XSram []))).
  { intros k Hk. pose proof (Forall2_nth _ _ _ k 0%nat (XSram []) Ex) as H. rewrite seq_length in H.
    specialize (H Hk). rewrite seq_nth in H by assumption. exact H. }
  assert (KD : map kind xs = map is_rram cfg).
  { apply (list_ext false); rewrite ?map_length; [lia|]. intros k Hk.
    rewrite (nth_map_lt _ _ _ (XSram [])) by lia. rewrite (nth_map_lt _ _ _ SLC) by lia.
    eapply load_xbar_kind; [exact OK|lia|]. apply NX. lia. }
  assert (KS : map (fun x => negb (kind x)) xs = map is_sram cfg).
  { rewrite <- (map_map kind negb), KD, map_map. apply map_ext. intros b. unfold is_rram. now rewrite negb_involutive. }
  set (fr := fun x => match x with XRram m => [m] | XSram _ => [] end).
  set (fs := fun x => match x with XSram m => [m] | XRram _ => [] end).
  assert (FR1 : forall x, In x xs -> kind x = true -> exists y, fr x = [y]).
  { intros [m|m] _ E; try discriminate. eexists; reflexivity. }
  assert (FR0 : forall x, In x xs -> kind x = false -> fr x = []) by (intros [m|m] _ E; try discriminate; reflexivity).
  assert (FS1 : forall x, In x xs -> negb (kind x) = true -> exists y, fs x = [y]).
  { intros [m|m] _ E; try discriminate. eexists; reflexivity. }
  assert (FS0 : forall x, In x xs -> negb (kind x) = false -> fs x = []) by (intros [m|m] _ E; try discriminate; reflexivity).
  assert (LR : length (rram_of xs) = length (filter is_rram cfg)).
  { unfold rram_of. fold fr. rewrite (length_flat fr kind xs FR1 FR0). now apply filter_len_map. }
  assert (LS : length (sram_of xs) = length (filter is_sram cfg)).
  { unfold sram_of. fold fs. rewrite (length_flat fs (fun x => negb (kind x)) xs FS1 FS0). now apply filter_len_map. }
  assert (HR : have_rram (c_storage c) = existsb is_rram cfg) by now rewrite (have_rram_eq _ _ _ OK).
  assert (HS : have_sram (c_storage c) = existsb is_sram cfg) by now rewrite (have_sram_eq _ _ _ OK).
  destruct (sh_lens _ _ _ SH) as (L1 & L2 & L3 & L4).
  assert (LENS : forall x, x = MkMvmu (mv_in u) (mv_out u)
               (if have_rram (c_storage c) then map (map2d fmax0) (rram_of xs) else rram_pos u)
               (if have_rram (c_storage c) then map (map2d (fun x => fmax0 (fopp x))) (rram_of xs) else rram_neg u)
               (if have_sram (c_storage c) then map (map2d (fun x => if x =? 1 then 1 else 0)) (sram_of xs) else sram_pos u)
               (if have_sram (c_storage c) then map (map2d (fun x => if x =? -1 then 1 else 0)) (sram_of xs) else sram_neg u)
               (mv_stat u) ->
     length (rram_pos x) = length (filter is_rram cfg) /\ length (rram_neg x) = length (filter is_rram cfg) /\
     length (sram_pos x) = length (filter is_sram cfg) /\ length (sram_neg x) = length (filter is_sram cfg)).
  { intros x ->. cbn [rram_pos rram_neg sram_pos sram_neg].
    destruct (have_rram (c_storage c)), (have_sram (c_storage c)); rewrite ?map_length; auto. }
  destruct (square_lengths _ _ Sq ltac:(pose proof (ok_size _ _ _ OK); lia)) as (SQ1 & SQ2).
  assert (FW : Forall (Forall fin) W).
  { eapply Forall2_Forall_l; [|exact Ei]. intros r r' Hr. eapply Forall2_Forall_l; [|exact Hr].
    intros w v Hv. apply to_fixed_int64_ok in Hv; [tauto|apply (ok_frac _ _ _ OK)]. }
  split; [constructor; try assumption; [apply LENS; reflexivity| |]|].
  - (* RRAM *) intros k Hk Hb.
    assert (Hb' : is_rram (nth k cfg SLC) = true) by (unfold is_rram; now rewrite Hb).
    assert (EX : existsb is_rram cfg = true) by (eapply existsb_nth_lt; eassumption).
    destruct (load_xbar_rram cfg ww c W iw k _ OK (ID EX) Hk Hb Ei (NX k Hk)) as (m & Em & Hm).
    assert (NR : nth (rk cfg k) (rram_of xs) [] = m).
    { unfold rk. rewrite <- (rank_eq_map _ _ _ _ k KD). unfold rram_of. fold fr.
      apply (nth_flat_rank fr kind xs k (XSram []) [] m FR1 FR0); [lia|now rewrite Em|now rewrite Em]. }
    assert (RL : (rk cfg k < length (rram_of xs))%nat).
    { rewrite LR. unfold rk. eapply rank_lt; eassumption. }
    unfold holds_rram. cbn [rram_pos rram_neg]. rewrite HR, EX.
    rewrite !(nth_map_lt _ _ _ []) by assumption. rewrite NR. unfold map2d.
    split; apply Forall2_map_r; eapply Forall2_impl; try exact Hm; intros r r' Hr; apply Forall2_map_r;
      eapply Forall2_impl; try exact Hr; cbv beta; tauto.
  - (* SRAM *) intros k Hk Hb.
    assert (EX : existsb is_sram cfg = true) by (eapply existsb_nth_lt; eassumption).
    destruct (load_xbar_sram cfg ww c W iw k _ OK Hk Hb Ei (NX k Hk)) as (m & Em & Hm).
    assert (NS : nth (sk cfg k) (sram_of xs) [] = m).
    { unfold sk. rewrite <- (rank_eq_map _ _ _ _ k KS). unfold sram_of. fold fs.
      apply (nth_flat_rank fs (fun x => negb (kind x)) xs k (XSram []) [] m FS1 FS0); [lia|now rewrite Em|now rewrite Em]. }
    assert (RL : (sk cfg k < length (sram_of xs))%nat).
    { rewrite LS. unfold sk. eapply rank_lt; eassumption. }
    unfold holds_sram. cbn [sram_pos sram_neg]. rewrite HS, EX.
    rewrite !(nth_map_lt _ _ _ []) by assumption. rewrite NS. unfold map2d.
    split; apply Forall2_map_r; eapply Forall2_impl; try exact Hm; intros r r' Hr; apply Forall2_map_r;
      eapply Forall2_impl; try exact Hr; cbv beta; intros w v (-> & Hv);
      match goal with |- context [?a =? ?b] => destruct (Z.eqb_spec a b) end; lia.
  - split; [|cbn; auto]. destruct SH. constructor; try assumption. apply LENS; reflexivity.
Qed.
