(** Concrete units for the examples and refutations of PropMvmu. *)
From Verif Require Import PyBase PyLemmas FloatModel AnalogProofs DataConvert ConfigModel ConfigSpec ConfigProofs
  MemoryModel MvmuModel FloatSpec FloatProofs AnalogChain MvmuSpec MvmuLists MvmuLoad MvmuRun MvmuProofs MvmuUse.
From Flocq Require Import IEEE754.BinarySingleNaN Core.
From Coq Require Import Reals Lra Psatz ZifyNat ZifyBool.
Open Scope Z_scope.

Lemma dot_lr_sumprod a b : sumprod (combine a b) (dot_lr a b).
Proof.
  unfold dot_lr. set (l := combine a b). clearbody l.
  assert (G : forall l l0 acc, sumprod l0 acc ->
    sumprod (l0 ++ l) (fold_left (fun acc p => fadd acc (fmul (fst p) (snd p))) l acc)).
  { clear. induction l as [|[x y] l IH]; intros l0 acc H; cbn [fold_left].
    - now rewrite app_nil_r.
    - replace (l0 ++ (x, y) :: l) with ((l0 ++ [(x, y)]) ++ l) by (rewrite <- app_assoc; reflexivity).
      apply IH. apply sp_add; [exact H|apply sp_prod]. }
  apply (G l [] f0 sp_zero).
Qed.

Lemma B2R_small z : (Z.abs z <= 2 ^ 53)%Z -> is_finite (f_of_Z z) = true /\ B2R (f_of_Z z) = IZR z.
Proof. intros H. now apply f_of_Z_correct. Qed.

Lemma moderate_Z z : (1 <= z <= 1024)%Z -> moderate_pos (f_of_Z z).
Proof.
  intros H. destruct (B2R_small z ltac:(lia)) as [F E]. split; [exact F|]. rewrite E. split.
  - apply Rle_trans with 1%R; [|apply IZR_le; lia]. change 1%R with (bpow radix2 0). apply bpow_le. lia.
  - apply Rle_trans with (bpow radix2 10); [|apply bpow_le; lia].
    change (bpow radix2 10) with (IZR 1024). apply IZR_le. lia.
Qed.

Lemma weight_int frac z : (Z.abs z <= 2 ^ 53)%Z -> 0 <= frac ->
  weight_sgn (f_of_Z z) = Z.sgn z /\ weight_mag frac (f_of_Z z) = Z.abs z * 2 ^ frac.
Proof.
  intros H Hf. destruct (B2R_small z H) as [F E]. unfold weight_sgn, weight_mag. rewrite E. split.
  - destruct (Rlt_bool_spec (IZR z) 0) as [L|L]; [apply lt_IZR in L; destruct z; try lia; reflexivity|].
    apply le_IZR in L. destruct (Rlt_bool_spec 0 (IZR z)) as [L'|L'].
    + apply lt_IZR in L'. destruct z; try lia; reflexivity.
    + apply le_IZR in L'. destruct z; try lia; reflexivity.
  - rewrite <- abs_IZR, <- (IZR_Zpower radix2) by assumption. change (Zpower radix2 frac) with (2 ^ frac).
    rewrite <- mult_IZR. apply Znearest_imp. rewrite Rminus_diag_eq by reflexivity. rewrite Rabs_R0. lra.
Qed.

(** A unit of two rows: storage, formats, resolutions and conductances as parameters. *)
Definition unit_cfg (cfg : list bitcfg) (size cols dac adc act frac : Z) (gmin gmax : f64) : mvmu_cfg :=
  MkMvmuCfg size cols (storage_of cfg) dac adc 1 1 true act frac f1 gmin gmax dot_lr.

Lemma unit_ok cfg size cols dac adc act frac gmin gmax :
  cfg <> [] -> 0 < size -> 0 < cols -> size mod cols = 0 -> 1 <= dac <= 31 -> 0 <= adc -> 1 <= act -> 0 <= frac <= 1023 ->
  mvmu_ok cfg (zsum (map cell_bits cfg)) (unit_cfg cfg size cols dac adc act frac gmin gmax).
Proof.
  intros. constructor; try assumption. unfold unit_cfg. cbn [c_storage]. rewrite validate_storage_eq, Z.eqb_refl. reflexivity.
Qed.

Lemma unit_analog cfg size cols dac adc act frac z :
  1 <= z <= 1024 -> size * (15 * (2 ^ dac - 1)) * (size + 12) < 2 ^ 51 ->
  analog_ok (unit_cfg cfg size cols dac adc act frac f0 (f_of_Z z)).
Proof.
  intros Hz Hs. constructor; cbn [unit_cfg c_vdd c_gmax c_gmin c_dot c_size c_dac_res].
  - apply (moderate_Z 1). lia.
  - now apply moderate_Z.
  - destruct (B2R_small 0 ltac:(lia)) as [F E]. split; assumption.
  - intros a b _. apply dot_lr_sumprod.
  - exact Hs.
Qed.

(** Created, loaded with w, input written at 0. *)
Definition used (c : mvmu_cfg) (w : list (list f64)) (x : list Z) : mvmu :=
  mv_run c (mv_run c (mvmu_init c) ([] ++ [OLoad w])) [OWrite 0 x].

Lemma used_loaded c w x : fst (load_weights c (mvmu_init c) w) = Ok tt -> loaded c w (used c w x).
Proof. intros H. exists [], [OWrite 0 x]. split; [exact H|]. split; [repeat constructor|reflexivity]. Qed.

(** Mixed storage: 1-bit RRAM, SRAM, 2-bit RRAM; 2 rows, one converter per crossbar; Q3.1
    weights. *)
Definition mixed_cfg : list bitcfg := [SLC; SRAMb; MLC].
Definition mixed : mvmu_cfg := unit_cfg mixed_cfg 2 2 1 4 3 1 f0 (f_of_Z 3).
Definition mixed_w : list (list f64) := [[f_of_Z 3; f_of_Z (-7)]; [f_of_Z (-1); fdiv (f_of_Z 5) (f_of_Z 2)]].
Definition sram3 : mvmu_cfg := unit_cfg [SRAMb; SRAMb; SRAMb; SRAMb] 2 1 1 4 3 1 f0 f0.

Lemma mixed_ok : mvmu_ok mixed_cfg 4 mixed.
Proof. apply unit_ok; (discriminate || reflexivity || lia). Qed.
Lemma mixed_analog : analog_ok mixed. Proof. apply unit_analog; lia. Qed.
Lemma mixed_load : fst (load_weights mixed (mvmu_init mixed) mixed_w) = Ok tt.
Proof. vm_compute. reflexivity. Qed.
Lemma sram3_ok : mvmu_ok [SRAMb; SRAMb; SRAMb; SRAMb] 4 sram3.
Proof. apply unit_ok; (discriminate || reflexivity || lia). Qed.
Lemma sram3_load : fst (load_weights sram3 (mvmu_init sram3) mixed_w) = Ok tt.
Proof. vm_compute. reflexivity. Qed.

(** Resolution 2 (C19), a signed input (C20), a minimum conductance (C25), Q0.8 (C04). *)
Definition dac2 : mvmu_cfg := unit_cfg [SRAMb] 1 1 2 4 4 0 f0 f0.
Definition signed4 : mvmu_cfg := unit_cfg [SRAMb] 1 1 1 4 4 0 f0 f0.
Definition gmin1 : mvmu_cfg := unit_cfg [SLC] 1 1 1 4 4 0 f1 (f_of_Z 2).
Definition q0_8 : mvmu_cfg := unit_cfg [QLC; QLC] 1 1 1 8 4 8 f0 f1.
Definition one_w : list (list f64) := [[f1]].

Lemma dac2_ok : mvmu_ok [SRAMb] 1 dac2. Proof. apply unit_ok; (discriminate || reflexivity || lia). Qed.
Lemma signed4_ok : mvmu_ok [SRAMb] 1 signed4. Proof. apply unit_ok; (discriminate || reflexivity || lia). Qed.
Lemma gmin1_ok : mvmu_ok [SLC] 1 gmin1. Proof. apply unit_ok; (discriminate || reflexivity || lia). Qed.
Lemma q0_8_ok : mvmu_ok [QLC; QLC] 8 q0_8. Proof. apply unit_ok; (discriminate || reflexivity || lia). Qed.

Lemma one_mag frac : 0 <= frac -> weight_mag frac f1 = 2 ^ frac.
Proof. intros. destruct (weight_int frac 1 ltac:(lia) H) as [_ E]. change f1 with (f_of_Z 1). rewrite E. lia. Qed.
Lemma one_fixed : fixed_weight 0 f1 = 1.
Proof. unfold fixed_weight. rewrite one_mag by lia. destruct (weight_int 0 1 ltac:(lia) ltac:(lia)) as [E _]. change f1 with (f_of_Z 1). rewrite E. reflexivity. Qed.

Lemma dac2_wrong :
  loaded dac2 one_w (used dac2 one_w [4]) /\ inputs (used dac2 one_w [4]) = [4] /\
  Forall (Forall (fun w => weight_mag 0 w < 2 ^ 1)) one_w /\
  outputs (execute_mvm dac2 (used dac2 one_w [4])) <>
  map (fun row => wrap32 (dot (map (fixed_weight 0) row) (inputs (used dac2 one_w [4])))) one_w.
Proof.
  split; [apply used_loaded; vm_compute; reflexivity|]. split; [vm_compute; reflexivity|]. split.
  - repeat constructor. rewrite one_mag by lia. reflexivity.
  - assert (E1 : outputs (execute_mvm dac2 (used dac2 one_w [4])) = [2]) by (vm_compute; reflexivity).
    assert (E2 : inputs (used dac2 one_w [4]) = [4]) by (vm_compute; reflexivity).
    rewrite E1, E2. unfold one_w. cbn [map]. rewrite one_fixed. discriminate.
Qed.

Lemma signed4_wrong :
  loaded signed4 one_w (used signed4 one_w [-1]) /\ inputs (used signed4 one_w [-1]) = [-1] /\
  Forall (Forall (fun w => weight_mag 0 w < 2 ^ 1)) one_w /\
  outputs (execute_mvm signed4 (used signed4 one_w [-1])) <>
  map (fun row => wrap32 (dot (map (fixed_weight 0) row) (inputs (used signed4 one_w [-1])))) one_w.
Proof.
  split; [apply used_loaded; vm_compute; reflexivity|]. split; [vm_compute; reflexivity|]. split.
  - repeat constructor. rewrite one_mag by lia. reflexivity.
  - assert (E1 : outputs (execute_mvm signed4 (used signed4 one_w [-1])) = [15]) by (vm_compute; reflexivity).
    assert (E2 : inputs (used signed4 one_w [-1]) = [-1]) by (vm_compute; reflexivity).
    rewrite E1, E2. unfold one_w. cbn [map]. rewrite one_fixed. discriminate.
Qed.

Lemma gmin1_wrong :
  loaded gmin1 one_w (used gmin1 one_w [1]) /\ inputs (used gmin1 one_w [1]) = [1] /\
  Forall (Forall (fun w => weight_mag 0 w < 2 ^ 1)) one_w /\
  Forall (fun row => no_saturation gmin1 [SLC] row (inputs (used gmin1 one_w [1]))) one_w /\
  outputs (execute_mvm gmin1 (used gmin1 one_w [1])) <>
  map (fun row => wrap32 (dot (map (fixed_weight 0) row) (inputs (used gmin1 one_w [1])))) one_w.
Proof.
  split; [apply used_loaded; vm_compute; reflexivity|]. split; [vm_compute; reflexivity|]. split; [|split].
  - repeat constructor. rewrite one_mag by lia. reflexivity.
  - repeat constructor. apply (wide_no_sat [SLC] 1 gmin1 gmin1_ok). intros k Hk _. cbn in Hk.
    destruct k; [|lia]. cbn. lia.
  - assert (E1 : outputs (execute_mvm gmin1 (used gmin1 one_w [1])) = [2]) by (vm_compute; reflexivity).
    assert (E2 : inputs (used gmin1 one_w [1]) = [1]) by (vm_compute; reflexivity).
    rewrite E1, E2. unfold one_w. cbn [map]. rewrite one_fixed. discriminate.
Qed.

Lemma q0_8_wrong :
  loaded q0_8 one_w (used q0_8 one_w [1]) /\ analog_ok q0_8 /\
  ~ (Rabs (IZR (measured_weight q0_8 [QLC; QLC] (used q0_8 one_w [1%Z]) 0 0) * bpow radix2 (- 8) - B2R f1) <= / 2 * bpow radix2 (- 8))%R.
Proof.
  assert (L : loaded q0_8 one_w (used q0_8 one_w [1])) by (apply used_loaded; vm_compute; reflexivity).
  assert (AN : analog_ok q0_8) by (apply (unit_analog _ 1 1 1 8 4 8 1); lia).
  split; [exact L|]. split; [exact AN|].
  assert (ID : ideal [QLC; QLC] q0_8) by (intros _; exact AN).
  destruct (loaded_holds _ _ _ q0_8_ok _ _ ID L) as [H _].
  rewrite (measured_weight_exact _ _ _ q0_8_ok one_w _ 0 0 ID H) by (cbn; lia).
  cbn [one_w nth]. unfold stored_weight. change (c_weight_frac q0_8) with 8. rewrite one_mag by lia.
  change (2 ^ 8 mod 2 ^ 8) with 0. rewrite Z.mul_0_r.
  destruct (B2R_small 1 ltac:(lia)) as [_ E]. change f1 with (f_of_Z 1). rewrite E, Rmult_0_l.
  rewrite Rminus_0_l, Rabs_Ropp, Rabs_R1. change (bpow radix2 (- 8)) with (/ 256)%R. lra.
Qed.
