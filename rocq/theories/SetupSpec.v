(** Independent specification of the configuration file: which files are accepted, which values they give, and which architectures can be
    built.  From the model it uses the records of the configuration and the names of fields and parameters. *)
From Verif Require Import PyBase ConfigModel ConfigSpec FloatModel MvmuModel CoreModel RouterModel SystemModel ReportModel LoaderModel SetupModel.
From Flocq Require Import IEEE754.BinarySingleNaN Core.
From Coq Require Import Ascii String Reals.
Open Scope Z_scope.

(** ** Types *)
Section Types.
Local Open Scope string_scope.
Inductive bit_text : string -> bitcfg -> Prop :=
| Bslc : bit_text "1" SLC | Bmlc : bit_text "2" MLC | Btlc : bit_text "3" TLC | Bqlc : bit_text "4" QLC | Bsram : bit_text "s" SRAMb.
Inductive adc_text : string -> bool -> Prop := Anormal : adc_text "normal" false | Adifferential : adc_text "differential" true.
End Types.
Inductive has_type (x : conv) : ftype -> json -> Prop :=
| Hint j n : to_int x j = Some n -> has_type x TInt j
| Hfloat j v : to_float x j = Some v -> has_type x TFloat j
| Hbool j b : to_bool x j = Some b -> has_type x TBool j
| Hstr s : has_type x TStr (JStr s)
| Hlist l : has_type x TList (JList l)
| Hbits l b : Forall2 bit_text l b -> has_type x TBits (JList (map JStr l))
| Hadc s b : adc_text s b -> has_type x TAdc (JStr s).
Definition well_typed (x : conv) (schema : list (string * ftype)) (l : list (string * json)) : Prop :=
  forall k t j, In (k, t) schema -> field l k = Some j -> has_type x t j.

(** Field k of l gives the value v; d is what a missing field gives. *)
Definition gives {A} (rd : json -> A -> Prop) (l : list (string * json)) (k : string) (d v : A) : Prop :=
  (field l k = None /\ v = d) \/ exists j, field l k = Some j /\ rd j v.
Definition rd_int (x : conv) (j : json) (n : Z) : Prop := to_int x j = Some n.
Definition rd_float (x : conv) (j : json) (v : f64) : Prop := to_float x j = Some v.
Definition rd_bool (x : conv) (j : json) (b : bool) : Prop := to_bool x j = Some b.
Definition rd_str (j : json) (s : string) : Prop := j = JStr s.
Definition rd_bits (j : json) (b : list bitcfg) : Prop := exists l, j = JList (map JStr l) /\ Forall2 bit_text l b.
Definition rd_adc (j : json) (b : bool) : Prop := exists s, j = JStr s /\ adc_text s b.

(** ** The file *)
(** Part k of a mapping is a mapping, empty if it is missing. *)
Definition part_is (l : list (string * json)) (k : string) (s : list (string * json)) : Prop :=
  (field l k = None /\ s = []) \/ field l k = Some (JObj s).
Section Layout.
Local Open Scope string_scope.
Record layout (l : list (string * json)) (s : parts) : Prop := {
  ly_top : pt_top s = l;
  ly_data : part_is l "data_config" (pt_data s); ly_noc : part_is l "noc_config" (pt_noc s); ly_tile : part_is l "tile_config" (pt_tile s);
  ly_core : part_is l "core_config" (pt_core s); ly_mvmu : part_is l "mvmu_config" (pt_mvmu s);
  ly_dac : part_is (pt_mvmu s) "dac_config" (pt_dac s); ly_xbar : part_is (pt_mvmu s) "xbar_config" (pt_xbar s);
  ly_adc : part_is (pt_mvmu s) "adc_config" (pt_adc s) }.
Record typing (x : conv) (s : parts) : Prop := {
  ty_top : well_typed x top_fields (pt_top s); ty_data : well_typed x data_fields (pt_data s); ty_noc : well_typed x noc_fields (pt_noc s);
  ty_tile : well_typed x tile_fields (pt_tile s); ty_core : well_typed x core_fields (pt_core s); ty_mvmu : well_typed x mvmu_fields (pt_mvmu s);
  ty_dac : well_typed x dac_fields (pt_dac s); ty_xbar : well_typed x xbar_fields (pt_xbar s); ty_adc : well_typed x adc_fields (pt_adc s) }.

(** A text that starts with "Q<i>.<f>". *)
Definition format_is (t : string) (i f : Z) : Prop :=
  exists ids fds rest, is_numeral ids /\ is_numeral fds /\ no_digit_first rest /\ t = (format_text ids fds ++ rest)%string /\ i = value ids /\ f = value fds.
Definition weight_format_is (s : parts) (i f : Z) : Prop := exists t, gives rd_str (pt_data s) "weight_format" "Q1.7" t /\ format_is t i f.
Definition activation_format_is (s : parts) (i f : Z) : Prop := exists t, gives rd_str (pt_data s) "activation_format" "Q4.4" t /\ format_is t i f.
Definition storage_is (s : parts) (b : list bitcfg) : Prop := gives rd_bits (pt_data s) "storage_config" [MLC; MLC; MLC; MLC] b.
Definition columns_are (x : conv) (mvmu : list (string * json)) (n : Z) : Prop := gives (rd_int x) mvmu "num_columns_per_adc" 16 n.
Definition crossbar_is (x : conv) (xbar : list (string * json)) (n : Z) : Prop := gives (rd_int x) xbar "xbar_size" 128 n.

(** The injection rate: one of five has a latency, and none may exceed the largest.  A rate that is no number exceeds nothing. *)
(** Rates in thousandths, and latencies. *)
Definition known_rates : list (Z * Z) := [(1, 29); (5, 31); (10, 34); (20, 54); (25, 115)].
Definition nearest (r : R) (v : f64) : Prop := is_finite v = true /\ B2R v = round radix2 (FLT_exp (-1074) 53) ZnearestE r.
Definition rate_is (x : conv) (noc : list (string * json)) (v : f64) : Prop := exists d, nearest (5 / 1000) d /\ gives (rd_float x) noc "inj_rate" d v.
Definition too_fast (v : f64) : Prop := exists m, nearest (25 / 1000) m /\ ((is_finite v = true /\ (B2R m < B2R v)%R) \/ v = B754_infinity false).
(** The latency of the network in a node: the tabulated one if the rate is known, otherwise the one in the file. *)
Definition intra_is (x : conv) (noc : list (string * json)) (v : f64) : Prop :=
  exists r, rate_is x noc r /\
    ((exists q n, In (q, n) known_rates /\ nearest (IZR q / 1000) r /\ v = f_of_Z n) \/
     ((forall q n, In (q, n) known_rates -> ~ nearest (IZR q / 1000) r) /\ exists j, field noc "noc_intra_lat" = Some j /\ to_float x j = Some v)).

(** The accepted files. *)
Record acceptable (x : conv) (s : parts) : Prop := {
  ac_typing : typing x s;
  ac_weights : exists wi wf b, weight_format_is s wi wf /\ storage_is s b /\ zsum (map cell_bits b) = wi + wf;
  ac_activations : exists ai af, activation_format_is s ai af /\ ai + af <> 0;
  ac_columns : exists size n, crossbar_is x (pt_xbar s) size /\ columns_are x (pt_mvmu s) n /\ n <> 0 /\ (n | size);
  ac_rate : exists r, rate_is x (pt_noc s) r /\ ~ too_fast r;
  ac_latency : exists v, intra_is x (pt_noc s) v }.

(** Errors other than ValueError: a permitted rate without latency; division by 0 columns or by 0 bits (in an otherwise acceptable file). *)
Definition latency_missing (x : conv) (l : list (string * json)) : Prop :=
  exists noc, part_is l "noc_config" noc /\ well_typed x noc_fields noc /\ (exists r, rate_is x noc r /\ ~ too_fast r) /\ forall v, ~ intra_is x noc v.
Definition zero_columns (x : conv) (l : list (string * json)) : Prop :=
  exists m dac xbar adc, part_is l "mvmu_config" m /\ part_is m "dac_config" dac /\ part_is m "xbar_config" xbar /\ part_is m "adc_config" adc /\
    well_typed x mvmu_fields m /\ well_typed x dac_fields dac /\ well_typed x xbar_fields xbar /\ well_typed x adc_fields adc /\ columns_are x m 0.
Definition zero_width (x : conv) (l : list (string * json)) : Prop :=
  exists s, layout l s /\ typing x s /\ (exists wi wf b, weight_format_is s wi wf /\ storage_is s b /\ zsum (map cell_bits b) = wi + wf) /\
    activation_format_is s 0 0 /\ (exists size n, crossbar_is x (pt_xbar s) size /\ columns_are x (pt_mvmu s) n /\ n <> 0 /\ (n | size)) /\
    (exists r, rate_is x (pt_noc s) r /\ ~ too_fast r) /\ exists v, intra_is x (pt_noc s) v.

(** ** The values *)
(** The sizes a file gives. *)
Record sizes_are (x : conv) (s : parts) (c : config) : Prop := {
  sz_dac : gives (rd_int x) (pt_dac s) "resolution" 1 (cf_dac_res c); sz_adc : gives (rd_int x) (pt_adc s) "resolution" 8 (cf_adc_res c);
  sz_xbar : crossbar_is x (pt_xbar s) (cf_size c); sz_edram : gives (rd_int x) (pt_tile s) "edram_size_in_KB" 8192 (cf_edram_kb c);
  sz_tinstr : gives (rd_int x) (pt_tile s) "instrnMem_size" 131072 (cf_tinstr c); sz_data : gives (rd_int x) (pt_core s) "dataMem_size" 4096 (cf_data c);
  sz_cinstr : gives (rd_int x) (pt_core s) "instrnMem_size" 131072 (cf_cinstr c); sz_port : gives (rd_int x) (pt_noc s) "num_port" 4 (cf_port c) }.
Definition config_sizes (c : config) : sizes :=
  MkSizes (cf_dac_res c) (cf_adc_res c) (cf_size c) (cf_edram_kb c) (cf_tinstr c) (cf_data c) (cf_cinstr c) (cf_port c).
(** Two storages alike except for the flags. *)
Definition same_crossbars (a b : storage) : Prop :=
  stored_bit a = stored_bit b /\ bits_per_cell a = bits_per_cell b /\ is_xbar_rram a = is_xbar_rram b /\
  rram_to_output_map a = rram_to_output_map b /\ sram_to_output_map a = sram_to_output_map b /\ num_rram a = num_rram b /\ num_sram a = num_sram b.
(** The rest of the settings. *)
Record describes (x : conv) (s : parts) (c : config) : Prop := {
  de_nodes : gives (rd_int x) (pt_top s) "num_nodes" 1 (cf_nodes c); de_tiles : gives (rd_int x) (pt_top s) "num_tiles_per_node" 4 (cf_tiles c);
  de_cores : gives (rd_int x) (pt_top s) "num_cores_per_tile" 8 (cf_cores c); de_mvmus : gives (rd_int x) (pt_top s) "num_mvmus_per_core" 6 (cf_mvmus c);
  de_storage : storage_is s (cf_bits c);
  de_weights : weight_format_is s (cf_wint c) (cf_wfrac c) /\ cf_wwidth c = cf_wint c + cf_wfrac c;
  de_activations : activation_format_is s (cf_aint c) (cf_afrac c) /\ cf_awidth c = cf_aint c + cf_afrac c;
  de_sizes : sizes_are x s c;
  de_type : gives rd_adc (pt_adc s) "type" false (cf_differential c);
  de_vdd : gives (rd_float x) (pt_dac s) "VDD" (f_of_Z 1) (cf_vdd c);
  de_gmin : gives (rd_float x) (pt_xbar s) "rram_conductance_min" (f_of_Z 0) (cf_gmin c);
  de_gmax : gives (rd_float x) (pt_xbar s) "rram_conductance_max" (f_of_Z 1) (cf_gmax c);
  de_noise : gives (rd_bool x) (pt_xbar s) "has_noise" false (cf_noise c);
  de_cols : columns_are x (pt_mvmu s) (cf_cols c); de_adcs : cf_size c = cf_cols c * cf_num_adc c;
  de_calc : gives (rd_int x) (pt_mvmu s) "num_columns_per_calculator" 128 (cf_calc_cols c);
  de_alu : gives (rd_int x) (pt_core s) "alu_lat" 1 (cf_alu_lat c); de_alus : gives (rd_int x) (pt_core s) "num_alu_per_vfu" 12 (cf_alus c);
  de_edram : cf_edram c = Z.div (8192 * cf_edram_kb c) (cf_awidth c);
  (* what C02 to C04 say of the crossbars *)
  de_crossbars : exists st, validate_storage (cf_bits c) (cf_wwidth c) = Ok st /\ same_crossbars st (cf_storage c);
  de_have_rram : have_rram (cf_storage c) = true <-> In false (map is_sram (cf_bits c)) \/ gives (rd_bool x) (pt_mvmu s) "have_rram_xbar" false true;
  de_have_sram : have_sram (cf_storage c) = true <-> In true (map is_sram (cf_bits c)) \/ gives (rd_bool x) (pt_mvmu s) "have_sram_xbar" false true }.

(** Two files that agree on the known fields. *)
Definition agree (schema : list (string * ftype)) (l l' : list (string * json)) : Prop := forall k t, In (k, t) schema -> field l k = field l' k.
Record same_settings (s s' : parts) : Prop := {
  ss_top : agree top_fields (pt_top s) (pt_top s'); ss_data : agree data_fields (pt_data s) (pt_data s'); ss_noc : agree noc_fields (pt_noc s) (pt_noc s');
  ss_tile : agree tile_fields (pt_tile s) (pt_tile s'); ss_core : agree core_fields (pt_core s) (pt_core s');
  ss_mvmu : agree mvmu_fields (pt_mvmu s) (pt_mvmu s'); ss_dac : agree dac_fields (pt_dac s) (pt_dac s');
  ss_xbar : agree xbar_fields (pt_xbar s) (pt_xbar s'); ss_adc : agree adc_fields (pt_adc s) (pt_adc s') }.
End Layout.

(** ** Parameters *)
(** The size on which a parameter depends, and the sizes config.py has values for; None: the parameter depends on none. *)
Definition size_table (c : config) (p : param) : option (list Z * Z) :=
  match p with
  | DacDyn | DacLeak | DacArea => Some ([1; 2; 4; 8; 16], cf_dac_res c)
  | AdcDyn | AdcLeak | AdcArea => Some ([1; 2; 4; 8; 16], cf_adc_res c)
  | InRead | InWrite | InLeak | InArea | XbarPow | XbarArea | SramDyn | SramLeak | SramArea | CalcDyn | CalcLeak | CalcArea | OutDyn | OutLeak | OutArea =>
      Some ([32; 64; 128; 256], cf_size c)
  | IntraDyn | IntraLeak | IntraArea => Some ([4; 8], cf_port c)
  | EdramDyn | EdramLeak | EdramArea => Some ([8; 64; 128; 2048; 8192; 16384], cf_edram_kb c)
  | DataDyn | DataLeak | DataArea => Some ([256; 512; 1024; 2048; 4096], cf_data c)
  | CInstrDyn | CInstrLeak | CInstrArea => Some (map (fun n => 256 * 2 ^ n) [0; 1; 2; 3; 4; 5; 6; 7; 8; 9], cf_cinstr c)
  | TInstrDyn | TInstrLeak | TInstrArea => Some (map (fun n => 256 * 2 ^ n) [0; 1; 2; 3; 4; 5; 6; 7; 8; 9], cf_tinstr c)
  | _ => None
  end.
Definition tabulated (c : config) (p : param) : Prop := match size_table c p with Some (keys, size) => In size keys | None => False end.
Definition size_of_param (c : config) (p : param) : Z := match size_table c p with Some t => snd t | None => 0 end.
(** The value of a field of the file, if any. *)
Definition in_file (x : conv) (s : parts) (p : param) (o : option f64) : Prop :=
  match field (fst (param_field s p)) (snd (param_field s p)) with Some j => o = to_float x j | None => o = None end.
Definition nonnegative (v : f64) : Prop := is_finite v = true /\ (0 <= B2R v)%R.
Definition above_zero (v : f64) : Prop := is_finite v = true /\ (0 < B2R v)%R.

(** ** Construction *)
Record buildable (c : config) : Prop := {
  bu_network : 1 <= cf_nodes c -> cf_port c <> 0 /\ (exists v, cf_param c IntraLeak = Some v) /\ exists v, cf_param c IntraArea = Some v;
  bu_tiles : 1 <= cf_nodes c -> 1 <= cf_tiles c -> 0 <= cf_edram c;
  bu_cores : 1 <= cf_nodes c -> 1 <= cf_tiles c -> 1 <= cf_cores c -> 0 <= cf_data c;
  bu_units : 1 <= cf_nodes c -> 1 <= cf_tiles c -> 1 <= cf_cores c -> 1 <= cf_mvmus c ->
    0 <= cf_size c /\ (have_rram (cf_storage c) = true -> 1 <= cf_dac_res c /\ 0 <= cf_adc_res c) /\
    (have_sram (cf_storage c) = true -> cf_calc_cols c <> 0) }.
(** A configuration whose sizes have parameters, with units and without negative settings, for which the other theorems speak. *)
Record sensible (c : config) : Prop := {
  se_tabled : In (cf_size c) [32; 64; 128; 256] /\ In (cf_dac_res c) [1; 2; 4; 8; 16] /\ In (cf_adc_res c) [1; 2; 4; 8; 16] /\ In (cf_port c) [4; 8] /\
    In (cf_edram_kb c) [8; 64; 128; 2048; 8192; 16384] /\ In (cf_data c) [256; 512; 1024; 2048; 4096] /\
    In (cf_cinstr c) (map (fun n => 256 * 2 ^ n) [0; 1; 2; 3; 4; 5; 6; 7; 8; 9]) /\ In (cf_tinstr c) (map (fun n => 256 * 2 ^ n) [0; 1; 2; 3; 4; 5; 6; 7; 8; 9]);
  se_units : 1 <= cf_mvmus c; se_cols : 1 <= cf_cols c; se_calc : 1 <= cf_calc_cols c;
  se_width : 1 <= cf_wwidth c; se_frac : cf_wfrac c <= 1023;
  se_network : exists a b, 0 <= a <= 2 ^ 52 /\ 0 <= b <= 2 ^ 52 /\ cf_lat c LIntra = Some (f_of_Z a) /\ cf_lat c LInter = Some (f_of_Z b) }.
(** A file that leaves the flags of the crossbars alone. *)
Definition honest (s : parts) : Prop := field (pt_mvmu s) "have_rram_xbar" = None /\ field (pt_mvmu s) "have_sram_xbar" = None.

(** ** The files *)
(** Numbers of the right kind convert to themselves (what pydantic makes of other values does not matter). *)
Record plain (x : conv) : Prop := {
  pl_int : forall n, to_int x (JInt n) = Some n; pl_float : forall v, to_float x (JFloat v) = Some v; pl_bool : forall b, to_bool x (JBool b) = Some b }.
Section Files.
Local Open Scope string_scope.
(** examples/mlp_l4_mnist/config.yaml; [rate] and [sigma] stand for the numbers 0.005 and 0.1. *)
Definition shipped (rate sigma : f64) : list (string * json) :=
  [("num_nodes", JInt 1); ("num_tiles_per_node", JInt 5); ("num_cores_per_tile", JInt 8); ("num_mvmus_per_core", JInt 6);
   ("data_config", JObj [("storage_config", JList [JStr "2"; JStr "2"; JStr "2"; JStr "2"]); ("weight_format", JStr "Q0.8"); ("activation_format", JStr "Q8.8")]);
   ("noc_config", JObj [("inj_rate", JFloat rate); ("num_port", JInt 4)]);
   ("tile_config", JObj [("num_tiles_per_node", JInt 5); ("num_cores_per_tile", JInt 8); ("num_mvmus_per_core", JInt 6)]);
   ("core_config", JObj [("dataMem_size", JInt 4096); ("instrnMem_size", JInt 131072)]);
   ("mvmu_config", JObj [("num_columns_per_adc", JInt 16); ("dac_config", JObj [("resolution", JInt 1)]);
     ("xbar_config", JObj [("xbar_size", JInt 128); ("has_noise", JBool true); ("noise_sigma", JFloat sigma)]);
     ("adc_config", JObj [("adc_type", JStr "normal"); ("resolution", JInt 8)])])].
(** A file with one setting in one part. *)
Definition one_setting (part k : string) (j : json) : list (string * json) := [(part, JObj [(k, j)])].
End Files.
