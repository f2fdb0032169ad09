(** The latencies of the shipped configuration. *)
From Verif Require Import PyBase ConfigModel MvmuModel FloatModel FloatSpec CoreModel RouterModel SystemModel LoaderModel SetupModel SetupSpec SetupProofs SetupValues SetupParams SetupBuild SetupExamples
  DesSpec.
From Flocq Require Import IEEE754.BinarySingleNaN Core.
From Coq Require Import ZifyBool Ascii String Reals Lra.
Open Scope Z_scope.

(** The times of the shipped configuration: config.py:64, 226, 252, 307, 450, 524-525. *)
Record shipped_times (y : sys_cfg) : Prop := {
  st_tiles : w_tiles (y_net y) = 5; st_nodes : w_nodes (y_net y) = 1; st_cores : y_cores y = 8;
  st_memory : y_lat y = 50; st_intra : w_intra_lat (y_net y) = 31; st_net_data : w_data_lat (y_net y) = 1;
  st_fetch : k_fetch_lat (y_core y) = 1; st_data : k_data_lat (y_core y) = 1; st_alu : k_alu_lat (y_core y) = 1; st_alus : k_alus (y_core y) = 12;
  st_adc : c_adc_lat (k_mv (y_core y)) = 100; st_act : c_act_width (k_mv (y_core y)) = 16; st_dac : c_dac_res (k_mv (y_core y)) = 1 }.

Theorem shipped_has_times x rate sigma dot act cf y : plain x -> nearest (5 / 1000) rate ->
  load_config x (JObj (shipped rate sigma)) = Ok cf -> sys_cfg_of dot act cf = Some y -> shipped_times y.
Proof.
  intros P HR H Y. destruct (shipped_config x rate sigma P HR) as (cf' & H' & Se & _ & N & B & Q & S & _ & _ & _ & M & LI & _).
  assert (cf' = cf) by congruence. subst cf'. pose proof (shipped_layout rate sigma) as L. pose proof (described _ _ _ _ H L) as De.
  injection N as N1 N2 N3 N4. injection Q as Q1 Q2 Q3 Q4. injection S as S1 S2 S3 S4. injection M as M1 M2. injection LI as LI1 LI2.
  assert (AW : cf_awidth cf = 16) by (pose proof (proj2 (de_activations _ _ _ De)); lia).
  pose proof (de_alu _ _ _ De) as A1. pose proof (de_alus _ _ _ De) as A2. apply gives_inv in A1, A2.
  change (cf_alu_lat cf = 1) in A1. change (cf_alus cf = 12) in A2.
  destruct Se as [(Sx & Sd & Sa & Sp & Se & Sm & Sc & St') Su Sc' Sk Sw Sf _].
  assert (Fetch : cf_lat cf LFetch = Some (f_of_Z 1)).
  { apply (lat_tabled _ _ _ _ LFetch 1 _ H L) with (2 := eq_refl). cases Sc; reflexivity. }
  assert (Data : cf_lat cf LData = Some (f_of_Z 1)).
  { apply (lat_tabled _ _ _ _ LData 1 _ H L) with (2 := eq_refl). cases Sm; reflexivity. }
  assert (Edram : cf_lat cf LEdram = Some (f_of_Z 50)).
  { apply (lat_tabled _ _ _ _ LEdram 50 _ H L) with (2 := eq_refl). cases Se; reflexivity. }
  assert (Dac : cf_lat cf LDac = Some (f_of_Z 1)).
  { apply (lat_tabled _ _ _ _ LDac 1 _ H L) with (2 := eq_refl). cases Sd; reflexivity. }
  assert (Adc : cf_lat cf LAdc = Some (f_of_Z 100)).
  { apply (lat_tabled _ _ _ _ LAdc 100 _ H L) with (2 := eq_refl). rewrite S4. reflexivity. }
  assert (W : forall p n, 0 <= n <= 200 -> cf_lat cf p = Some (f_of_Z n) -> ticks cf p = Some n).
  { intros p n Hn E. unfold ticks. rewrite E. apply whole_int. change (2 ^ 53) with 9007199254740992. lia. }
  unfold sys_cfg_of in Y. rewrite (W LFetch 1 ltac:(lia) Fetch), (W LData 1 ltac:(lia) Data), (W LEdram 50 ltac:(lia) Edram), (W LDac 1 ltac:(lia) Dac), (W LAdc 100 ltac:(lia) Adc), LI1, LI2 in Y.
  injection Y as <-. constructor; cbn; assumption || reflexivity.
Qed.
Lemma times_delays y : shipped_times y -> core_delays (y_core y).
Proof. intros T. unfold core_delays. rewrite (st_fetch _ T), (st_data _ T), (st_alu _ T), (st_alus _ T), (st_adc _ T). lia. Qed.
