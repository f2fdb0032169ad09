(** The tabulated latencies in ticks. *)
From Verif Require Import PyBase ConfigModel FloatModel FloatSpec LoaderModel StatsModel ReportModel SetupModel SetupSpec SetupProofs SetupValues SetupParams SetupBuild.
From Coq Require Import ZifyBool.
Open Scope Z_scope.

Lemma tabulated_ticks x l c : load_config x (JObj l) = Ok c ->
  (In (cf_adc_res c) [1; 2; 4; 8; 16] -> ticks c LAdc = Some ((25 * cf_adc_res c + 1) / 2)) /\
  (In (cf_dac_res c) [1; 2; 4; 8; 16] -> ticks c LDac = Some 1) /\
  (In (cf_data c) [256; 512; 1024; 2048; 4096] -> ticks c LData = Some 1) /\
  (In (cf_edram_kb c) [8; 64; 128; 2048; 8192; 16384] -> ticks c LEdram = Some 50) /\
  (In (cf_cinstr c) [256; 512; 1024; 2048; 4096; 8192; 16384; 32768; 65536; 131072] -> ticks c LFetch = Some 1).
Proof.
  intros H. destruct (load_inv _ _ _ H) as (a & [= <-] & L & _). destruct (param_eq _ _ _ _ H L DacDyn) as (_ & Z). pose proof (f_equal z_adc Z) as Z1. pose proof (f_equal z_dac Z) as Z2.
  pose proof (f_equal z_data Z) as Z3. pose proof (f_equal z_edram Z) as Z4. pose proof (f_equal z_cinstr Z) as Z5. cbn [config_sizes z_adc z_dac z_data z_edram z_cinstr] in Z1, Z2, Z3, Z4, Z5.
  unfold ticks. rewrite !(lat_eq _ _ _ _ H L). unfold lat_in. cbv zeta. rewrite <- Z1, <- Z2, <- Z3, <- Z4, <- Z5.
  repeat split; intros I; cbn in I; repeat destruct I as [<-|I]; try contradiction I; cbn [lookup lat_table tab resolutions data_sizes edram_sizes instr_sizes combine repeat Z.eqb Pos.eqb];
    (unfold fint; rewrite whole_int by lia; reflexivity).
Qed.
