(** Properties C69 to C72: the configuration file. *)
From Verif Require Import PyBase ConfigModel ConfigSpec FloatModel FloatSpec MvmuModel MvmuSpec CoreModel CoreSpec RouterModel SystemModel SystemSpec StatsModel
  ReportModel ReportSpec LoaderModel SetupModel SetupSpec SetupProofs SetupValues SetupParams SetupBuild SetupTicks SetupExamples.
From Flocq Require Import IEEE754.BinarySingleNaN Core.
From Coq Require Import Ascii String Reals.
Open Scope Z_scope.

(** ** C69: which configuration files are accepted, and what they mean *)
Theorem C69_accepted : forall x doc, (exists c, load_config x doc = Ok c) <-> exists l s, doc = JObj l /\ layout l s /\ acceptable x s.
Proof. exact accepted_docs. Qed.
Print Assumptions C69_accepted.
Theorem C69_values : forall x doc c, load_config x doc = Ok c -> exists l s, doc = JObj l /\ layout l s /\ acceptable x s /\ describes x s c.
Proof. exact described_doc. Qed.
Print Assumptions C69_values.
Theorem C69_errors :
  forall x doc e, load_config x doc = Raise e ->
    (e = TypeError <-> exists l, doc = JObj l /\ latency_missing x l) /\
    (e = ZeroDivisionError <-> exists l, doc = JObj l /\ ((~ latency_missing x l /\ zero_columns x l) \/ zero_width x l)) /\
    (e = ValueError \/ e = TypeError \/ e = ZeroDivisionError).
Proof. exact error_docs. Qed.
Print Assumptions C69_errors.
(** Unknown keys change nothing. *)
Theorem C69_unknown : forall x l l' s s', layout l s -> layout l' s' -> same_settings s s' -> load_config x (JObj l) = load_config x (JObj l').
Proof. exact unknown_ignored. Qed.
Print Assumptions C69_unknown.
(** The example's "adc_type" is such a key: it does not choose the type of the converters. *)
Theorem C69_adc_type_refuted : exists c, load_config std (JObj misnamed) = Ok c /\ cf_differential c = false.
Proof. exact unknown_refuted. Qed.
Print Assumptions C69_adc_type_refuted.
(** A flag in the file overrides the storage. *)
Theorem C69_flag_refuted :
  exists c, load_config std (JObj with_flag) = Ok c /\ Forall (fun b => is_sram b = true) (cf_bits c) /\ have_rram (cf_storage c) = true.
Proof. exact flag_refuted. Qed.
Print Assumptions C69_flag_refuted.
Definition outcome (doc : json) : option exn := match load_config std doc with Ok _ => None | Raise e => Some e end.
Example C69_case :
  map outcome
    [JNull; JObj []; JObj (one_setting "noc_config" "inj_rate" (JFloat (dec 20 3))); JObj (one_setting "noc_config" "inj_rate" (JFloat (dec 30 3)));
     JObj (one_setting "noc_config" "inj_rate" (JFloat (dec 2 3))); JObj (one_setting "mvmu_config" "num_columns_per_adc" (JInt 0));
     JObj (one_setting "mvmu_config" "num_columns_per_adc" (JInt 24)); JObj (one_setting "data_config" "activation_format" (JStr "Q0.0"));
     JObj (one_setting "data_config" "weight_format" (JStr "Q2.7")); JObj (one_setting "data_config" "weight_format" (JStr "1.7"));
     JObj [("core_config", JList [])]%string]
  = [Some ValueError; None; None; Some ValueError; Some TypeError; Some ZeroDivisionError; Some ValueError; Some ZeroDivisionError; Some ValueError; Some ValueError; Some ValueError].
Proof. vm_compute. reflexivity. Qed.

(** ** C70: power, area and latency parameters *)
(** Larger components cost at least as much, and all cost something. *)
Theorem C70_monotone :
  forall x l c x' l' c' p, load_config x (JObj l) = Ok c -> load_config x' (JObj l') = Ok c' -> p <> XbarPow -> tabulated c p -> tabulated c' p ->
    size_of_param c p <= size_of_param c' p -> exists v v', cf_param c p = Some v /\ cf_param c' p = Some v' /\ above_zero v /\ above_zero v' /\ (B2R v <= B2R v')%R.
Proof. exact tables_monotone. Qed.
Print Assumptions C70_monotone.
Theorem C70_by_size :
  forall x l c x' l' c' p, load_config x (JObj l) = Ok c -> load_config x' (JObj l') = Ok c' -> p <> XbarPow -> tabulated c p ->
    size_of_param c' p = size_of_param c p -> cf_param c' p = cf_param c p.
Proof. exact tables_fixed. Qed.
Print Assumptions C70_by_size.
Theorem C70_from_file : forall x l s c, load_config x (JObj l) = Ok c -> layout l s -> forall p v, ~ tabulated c p -> in_file x s p (Some v) -> cf_param c p = Some v.
Proof. exact from_file. Qed.
Print Assumptions C70_from_file.
Theorem C70_missing :
  forall x l s c p, load_config x (JObj l) = Ok c -> layout l s -> size_table c p <> None -> ~ tabulated c p -> in_file x s p None -> cf_param c p = None.
Proof. exact missing_value. Qed.
Print Assumptions C70_missing.
Theorem C70_constants :
  forall p, (forall c, size_table c p = None) -> exists v, nonnegative v /\
    forall x l s c, load_config x (JObj l) = Ok c -> layout l s -> in_file x s p None -> cf_param c p = Some v.
Proof. exact constant_value. Qed.
Print Assumptions C70_constants.
(** The power of a crossbar is the product of two settings; the table for it is not used. *)
Theorem C70_crossbar :
  forall x l s c, load_config x (JObj l) = Ok c -> layout l s -> tabulated c XbarPow ->
    exists a b d, (is_finite d = true /\ (Rabs (B2R d - 17 / 10) <= bpow radix2 (-50))%R) /\
      gives (rd_float x) (pt_xbar s) "xbar_ip_lat" (f_of_Z 100) a /\ gives (rd_float x) (pt_xbar s) "xbar_ip_pow" d b /\ cf_param c XbarPow = Some (fmul a b).
Proof. exact xbar_power. Qed.
Print Assumptions C70_crossbar.
Theorem C70_network :
  forall x l s c, load_config x (JObj l) = Ok c -> layout l s ->
    exists h v, gives (rd_float x) (pt_noc s) "noc_ht_lat" (f_of_Z 5) h /\ intra_is x (pt_noc s) v /\ cf_lat c LIntra = Some v /\ cf_lat c LInter = Some (fadd h v).
Proof. exact network_latencies. Qed.
Print Assumptions C70_network.
(** The latencies from the tables, in ticks: an ADC takes 12.5 per bit, rounded up. *)
Theorem C70_latencies : forall x l c, load_config x (JObj l) = Ok c ->
  (In (cf_adc_res c) [1; 2; 4; 8; 16] -> ticks c LAdc = Some ((25 * cf_adc_res c + 1) / 2)) /\
  (In (cf_dac_res c) [1; 2; 4; 8; 16] -> ticks c LDac = Some 1) /\
  (In (cf_data c) [256; 512; 1024; 2048; 4096] -> ticks c LData = Some 1) /\
  (In (cf_edram_kb c) [8; 64; 128; 2048; 8192; 16384] -> ticks c LEdram = Some 50) /\
  (In (cf_cinstr c) [256; 512; 1024; 2048; 4096; 8192; 16384; 32768; 65536; 131072] -> ticks c LFetch = Some 1).
Proof. exact tabulated_ticks. Qed.
Print Assumptions C70_latencies.
(** A value that the file gives for a tabulated parameter, or for the latency between nodes, is overwritten. *)
Theorem C70_value_refuted :
  exists c c0 v, load_config std (JObj with_area) = Ok c /\ load_config std (JObj []) = Ok c0 /\
    in_file std (parts_of with_area) DataArea (Some (f_of_Z 1)) /\ cf_param c DataArea = cf_param c0 DataArea /\ cf_param c DataArea = Some v /\ (B2R v < 1)%R.
Proof. exact value_refuted. Qed.
Print Assumptions C70_value_refuted.
Theorem C70_latency_refuted : exists c, load_config std (JObj with_latency) = Ok c /\ ticks c LInter = Some 36.
Proof. exact latency_refuted. Qed.
Print Assumptions C70_latency_refuted.
Example C70_case :
  let area l := match load_config std (JObj l) with Ok c => cf_param c DataArea | Raise _ => None end in
  match area (one_setting "core_config" "dataMem_size" (JInt 256)), area [], area (one_setting "core_config" "dataMem_size" (JInt 300)) with
  | Some a, Some b, None => Bltb a b = true
  | _, _, _ => False
  end.
Proof. vm_compute. reflexivity. Qed.

(** ** C71: the architecture can be built *)
Theorem C71_built : forall c, build c = Ok tt <-> buildable c.
Proof. exact built_iff. Qed.
Print Assumptions C71_built.
Theorem C71_errors : forall c e, build c = Raise e -> e = ZeroDivisionError \/ e = TypeError \/ e = ValueError.
Proof. exact build_errors. Qed.
Print Assumptions C71_errors.
(** What the theorems about cores, matrix units and networks assume. *)
Theorem C71_ready :
  forall x l s c dot act, load_config x (JObj l) = Ok c -> layout l s -> sensible c -> honest s ->
    build c = Ok tt /\ exists y, sys_cfg_of dot act c = Some y /\ core_ok (cf_bits c) (cf_wwidth c) (y_core y) /\ usable_latencies y /\ 0 <= y_size y /\
      (moderate_pos (cf_vdd c) -> moderate_pos (cf_gmax c) -> is_finite (cf_gmin c) = true /\ B2R (cf_gmin c) = 0%R ->
       (forall a b, List.length a = List.length b -> sumprod (combine a b) (dot a b)) -> analog_ok (k_mv (y_core y))).
Proof. exact ready. Qed.
Print Assumptions C71_ready.
(** What the theorems about the report assume (C64). *)
Theorem C71_report :
  forall x l s c, load_config x (JObj l) = Ok c -> layout l s -> (forall p, size_table c p <> None -> in_file x s p None) ->
    exists value, forall p, cf_param c p = param_value (A := float_num) value (config_sizes c) p.
Proof. exact report_values. Qed.
Print Assumptions C71_report.
Theorem C71_complete :
  forall x l s c p, load_config x (JObj l) = Ok c -> layout l s -> sensible c -> in_file x s p None -> exists v, cf_param c p = Some v /\ (p <> XbarPow -> nonnegative v).
Proof. exact complete. Qed.
Print Assumptions C71_complete.
(** Negative numbers are accepted, and the architecture is built. *)
Theorem C71_negative_refuted : exists c, load_config std (JObj negative_columns) = Ok c /\ build c = Ok tt /\ cf_num_adc c = -8.
Proof. exact negative_refuted. Qed.
Print Assumptions C71_negative_refuted.
Theorem C71_nodes_refuted : exists c, load_config std (JObj negative_nodes) = Ok c /\ build c = Ok tt /\ cf_nodes c = -1.
Proof. exact nodes_refuted. Qed.
Print Assumptions C71_nodes_refuted.
Definition built (l : list (string * json)) : option (res unit) := match load_config std (JObj l) with Ok c => Some (build c) | Raise _ => None end.
Example C71_case :
  map built
    [[]; one_setting "noc_config" "num_port" (JInt 5); one_setting "noc_config" "num_port" (JInt 0); one_setting "core_config" "dataMem_size" (JInt (-1));
     [("num_cores_per_tile", JInt 0); ("core_config", JObj [("dataMem_size", JInt (-1))])]%string;
     [("mvmu_config", JObj [("dac_config", JObj [("resolution", JInt 0)])])]%string]
  = [Some (Ok tt); Some (Raise TypeError); Some (Raise ZeroDivisionError); Some (Raise ValueError); Some (Ok tt); Some (Raise ZeroDivisionError)].
Proof. vm_compute. reflexivity. Qed.

(** ** C72: the default and the shipped configuration *)
Theorem C72_default :
  forall x, exists c, load_config x (JObj []) = Ok c /\ sensible c /\ build c = Ok tt /\
    (cf_nodes c, cf_tiles c, cf_cores c, cf_mvmus c) = (1, 4, 8, 6) /\ cf_bits c = [MLC; MLC; MLC; MLC] /\
    (cf_wint c, cf_wfrac c, cf_aint c, cf_afrac c) = (1, 7, 4, 4) /\ (cf_size c, cf_cols c, cf_dac_res c, cf_adc_res c) = (128, 16, 1, 8) /\
    cf_differential c = false /\ cf_noise c = false /\ (cf_vdd c, cf_gmin c, cf_gmax c) = (f_of_Z 1, f_of_Z 0, f_of_Z 1) /\
    (cf_edram c, cf_data c) = (8388608, 4096) /\ (ticks c LIntra, ticks c LInter) = (Some 31, Some 36) /\
    (forall p, exists v, cf_param c p = Some v /\ (p <> XbarPow -> nonnegative v)).
Proof. exact default_config. Qed.
Print Assumptions C72_default.
Theorem C72_shipped :
  forall x rate sigma, plain x -> nearest (5 / 1000) rate ->
    exists c, load_config x (JObj (shipped rate sigma)) = Ok c /\ sensible c /\ build c = Ok tt /\
      (cf_nodes c, cf_tiles c, cf_cores c, cf_mvmus c) = (1, 5, 8, 6) /\ cf_bits c = [MLC; MLC; MLC; MLC] /\
      (cf_wint c, cf_wfrac c, cf_aint c, cf_afrac c) = (0, 8, 8, 8) /\ (cf_size c, cf_cols c, cf_dac_res c, cf_adc_res c) = (128, 16, 1, 8) /\
      cf_differential c = false /\ cf_noise c = true /\ (cf_vdd c, cf_gmin c, cf_gmax c) = (f_of_Z 1, f_of_Z 0, f_of_Z 1) /\
      (cf_edram c, cf_data c) = (4194304, 4096) /\ (ticks c LIntra, ticks c LInter) = (Some 31, Some 36) /\
      (forall p, exists v, cf_param c p = Some v /\ (p <> XbarPow -> nonnegative v)).
Proof. exact shipped_config. Qed.
Print Assumptions C72_shipped.
(** The converters of both can saturate: 8 bits are too few for 128 rows of cells with 2 bits. *)
Theorem C72_saturation_refuted :
  (forall x dot act w, (B2R (w : f64) = 1)%R -> exists c y, load_config x (JObj []) = Ok c /\ sys_cfg_of dot act c = Some y /\
     ~ no_saturation (k_mv (y_core y)) (cf_bits c) (repeat w 128) (repeat 1 128)) /\
  (forall x rate sigma dot act w, plain x -> nearest (5 / 1000) rate -> (B2R (w : f64) = 1 / 2)%R ->
     exists c y, load_config x (JObj (shipped rate sigma)) = Ok c /\ sys_cfg_of dot act c = Some y /\
       ~ no_saturation (k_mv (y_core y)) (cf_bits c) (repeat w 128) (repeat 1 128)).
Proof. exact saturation_refuted. Qed.
Print Assumptions C72_saturation_refuted.
(** The usual instance: 0.005 is the float64 nearest to 5/1000. *)
Example C72_case : plain std /\ nearest (5 / 1000) (dec 5 3) /\ outcome (JObj (shipped (dec 5 3) (dec 1 1))) = None.
Proof. split; [exact std_plain|]. split; [exact default_rate|]. vm_compute. reflexivity. Qed.
