(** config.py: from the configuration file to the configuration, and the construction of the architecture from it
    (ramwich.py:27-36, node.py:16-22 and the __init__ methods of all components). *)
From Verif Require Import PyBase ConfigModel MemoryModel VfuModel FloatModel MvmuModel CoreModel DramModel RouterModel SystemModel StatsModel ReportModel
  LoaderModel.
From Flocq Require Import IEEE754.BinarySingleNaN.
From Coq Require Import Ascii String.
Open Scope Z_scope.

(** ** Values and types *)
(** What yaml.safe_load returns is a [json] of LoaderModel (simplification: keys are strings).  Not modelled: pydantic's
    conversions of other values to int, float and bool. *)
Record conv := MkConv { to_int : json -> option Z; to_float : json -> option f64; to_bool : json -> option bool }.

(** The types of the fields: int, float, bool, str, list, list[BitConfig] (config.py:9-14), ADCType (config.py:215-217). *)
Inductive ftype := TInt | TFloat | TBool | TStr | TList | TBits | TAdc.

Section Values.
Local Open Scope string_scope.
Definition bit_of (j : json) : option bitcfg :=
  match j with
  | JStr s => if String.eqb s "1" then Some SLC else if String.eqb s "2" then Some MLC else if String.eqb s "3" then Some TLC
              else if String.eqb s "4" then Some QLC else if String.eqb s "s" then Some SRAMb else None
  | _ => None
  end.
Fixpoint bits_of (l : list json) : option (list bitcfg) :=
  match l with
  | [] => Some []
  | j :: rest => match bit_of j, bits_of rest with Some b, Some bs => Some (b :: bs) | _, _ => None end
  end.
Definition adc_of (j : json) : option bool :=
  match j with
  | JStr s => if String.eqb s "normal" then Some false else if String.eqb s "differential" then Some true else None
  | _ => None
  end.
End Values.
Definition str_of (j : json) : option string := match j with JStr s => Some s | _ => None end.
Definition is_some {A} (o : option A) : bool := match o with Some _ => true | None => false end.

(** Does a value have the type? *)
Definition typed (x : conv) (t : ftype) (j : json) : bool :=
  match t with
  | TInt => is_some (to_int x j)
  | TFloat => is_some (to_float x j)
  | TBool => is_some (to_bool x j)
  | TStr => is_some (str_of j)
  | TList => match j with JList _ => true | _ => false end
  | TBits => match j with JList l => is_some (bits_of l) | _ => false end
  | TAdc => is_some (adc_of j)
  end.
(** BaseModel.__init__: all fields that are given are validated, others are ignored. *)
Definition fields_ok (x : conv) (schema : list (string * ftype)) (l : list (string * json)) : bool :=
  forallb (fun f => match field l (fst f) with Some j => typed x (snd f) j | None => true end) schema.
(** The value of a field with a default, and of one without. *)
Definition setting {A} (f : json -> option A) (l : list (string * json)) (k : string) (default : A) : A :=
  match field l k with Some j => match f j with Some a => a | None => default end | None => default end.
Definition setting_opt {A} (f : json -> option A) (l : list (string * json)) (k : string) : option A :=
  match field l k with Some j => f j | None => None end.

(** ** The fields *)
Section Fields.
Local Open Scope string_scope.
Definition floats (l : list string) : list (string * ftype) := map (fun k => (k, TFloat)) l.
(** config.py:20-34 *)
Definition data_fields : list (string * ftype) :=
  [("storage_config", TBits); ("weight_format", TStr); ("weight_int_bits", TInt); ("weight_frac_bits", TInt); ("weight_width", TInt);
   ("activation_format", TStr); ("activation_int_bits", TInt); ("activation_frac_bits", TInt); ("activation_width", TInt);
   ("addr_width", TInt); ("instrn_width", TInt)].
(** config.py:81-87 *)
Definition dac_fields : list (string * ftype) := ("resolution", TInt) :: floats ["VDD"; "lat"; "pow_dyn"; "pow_leak"; "area"].
(** config.py:109-177 *)
Definition xbar_fields : list (string * ftype) :=
  floats ["inMem_lat"; "inMem_pow_dyn_read"; "inMem_pow_dyn_write"; "inMem_pow_leak"; "inMem_area"; "xbar_lat"; "xbar_pow"; "xbar_pow_leak"; "xbar_area";
          "sram_xbar_lat"; "sram_xbar_pow_dyn"; "sram_xbar_pow_leak"; "sram_xbar_area";
          "calculator_lat"; "calculator_pow_leak"; "calculator_pow_dyn"; "calculator_area";
          "outMem_lat"; "outMem_pow_dyn"; "outMem_pow_leak"; "outMem_area";
          "xbar_ip_lat"; "xbar_ip_pow"; "xbar_op_lat"; "xbar_op_pow"; "xbar_rd_lat"; "xbar_wr_lat"; "xbar_rd_pow"; "xbar_wr_pow";
          "rram_conductance_min"; "rram_conductance_max"; "noise_sigma"] ++
  [("xbar_size", TInt); ("has_noise", TBool)].
(** config.py:223, 231-236 *)
Definition adc_fields : list (string * ftype) := [("type", TAdc); ("resolution", TInt)] ++ floats ["lat"; "pow_dyn"; "pow_leak"; "area"].
(** config.py:259-273 *)
Definition noc_fields : list (string * ftype) :=
  ("num_port", TInt) ::
  floats ["inj_rate"; "noc_ht_lat"; "noc_inter_lat"; "noc_inter_pow_dyn"; "noc_inter_pow_leak"; "noc_inter_area";
          "noc_intra_lat"; "noc_intra_pow_dyn"; "noc_intra_pow_leak"; "noc_intra_area"].
(** config.py:302-304, 333-338, 390-423 *)
Definition tile_fields : list (string * ftype) :=
  [("edram_size_in_KB", TInt); ("edram_size", TInt); ("instrnMem_size", TInt); ("edram_bus_size", TInt)] ++
  floats ["tcu_pow_dyn"; "tcu_pow_leak"; "tcu_area"; "edram_lat"; "edram_pow_dyn"; "edram_pow_leak"; "edram_area";
          "instrnMem_lat"; "instrnMem_pow_dyn"; "instrnMem_pow_leak"; "instrnMem_area";
          "counter_buff_lat"; "counter_buff_pow_dyn"; "counter_buff_pow_leak"; "counter_buff_area";
          "edram_bus_lat"; "edram_bus_pow_dyn"; "edram_bus_pow_leak"; "edram_bus_area";
          "edram_ctrl_lat"; "edram_ctrl_pow_dyn"; "edram_ctrl_pow_leak"; "edram_ctrl_area";
          "receive_buffer_lat"; "receive_buffer_pow_dyn"; "receive_buffer_pow_leak"; "receive_buffer_area"].
(** config.py:445-447, 461-465, 517-534 *)
Definition core_fields : list (string * ftype) :=
  [("dataMem_size", TInt); ("instrnMem_size", TInt); ("alu_lat", TInt); ("num_alu_per_vfu", TInt)] ++
  floats ["ccu_pow_dyn"; "ccu_pow_leak"; "ccu_area"; "dataMem_lat"; "dataMem_pow_dyn"; "dataMem_pow_leak"; "dataMem_area";
          "instrnMem_lat"; "instrnMem_pow_dyn"; "instrnMem_pow_leak"; "instrnMem_area";
          "alu_pow_dyn"; "alu_pow_div_dyn"; "alu_pow_mul_dyn"; "act_pow_leak"; "act_pow_dyn"; "alu_pow_others_dyn"; "alu_pow_leak"; "alu_area"; "act_area"].
(** config.py:556-591 *)
Definition mvmu_fields : list (string * ftype) :=
  floats ["snh_lat"; "snh_pow_leak"; "snh_pow_dyn"; "snh_area"; "mux_lat"; "mux_pow_leak"; "mux_pow_dyn"; "mux_area";
          "sna_lat"; "sna_pow_leak"; "sna_pow_dyn"; "sna_area"] ++
  [("num_columns_per_adc", TInt); ("num_adc_per_xbar", TInt); ("num_columns_per_calculator", TInt); ("num_calculator_per_xbar", TInt);
   ("num_rram_xbar_per_mvmu", TInt); ("num_sram_xbar_per_mvmu", TInt); ("num_xbar_per_mvmu", TInt);
   ("stored_bit", TList); ("bits_per_cell", TList); ("is_xbar_rram", TList); ("rram_to_output_map", TList); ("sram_to_output_map", TList);
   ("have_rram_xbar", TBool); ("have_sram_xbar", TBool)].
(** config.py:613-616 *)
Definition top_fields : list (string * ftype) :=
  [("num_nodes", TInt); ("num_tiles_per_node", TInt); ("num_cores_per_tile", TInt); ("num_mvmus_per_core", TInt)].
End Fields.

(** A nested configuration: config.py:593-595, 619-623.  A missing one is constructed without arguments. *)
Definition section (l : list (string * json)) (k : string) : option (list (string * json)) :=
  match field l k with None => Some [] | Some (JObj s) => Some s | Some _ => None end.

(** The configuration file in parts.  None: some part is not a mapping. *)
Record parts := MkParts {
  pt_top : list (string * json); pt_data : list (string * json); pt_noc : list (string * json); pt_tile : list (string * json);
  pt_core : list (string * json); pt_mvmu : list (string * json); pt_dac : list (string * json); pt_xbar : list (string * json);
  pt_adc : list (string * json) }.

(** ** Numbers *)
(** A decimal number of the source text, n / 10^k: the nearest float64 (n and 10^k are exact for the numbers used here). *)
Definition dec (n k : Z) : f64 := fdiv (f_of_Z n) (f_of_Z (10 ^ k)).
Definition fint (n : Z) : f64 := f_of_Z n.
(** math.sqrt *)
Definition fsqrt (x : f64) : f64 := Bsqrt mode_NE x.

(** A table of config.py: sizes and values. *)
Definition tab (keys : list Z) (values : list f64) : list (Z * f64) := combine keys values.
Fixpoint lookup (t : list (Z * f64)) (k : Z) : option f64 :=
  match t with [] => None | (x, v) :: rest => if x =? k then Some v else lookup rest k end.

(** The tables of config.py:64-79, 104-151, 226-229, 255-257, 307-330, 341-388, 450-459, 468-515; [] for a parameter without one.
    Simplification: integers in them are floats here. *)
Definition instr_dyn : list f64 := [dec 16 2; dec 24 2; dec 33 2; dec 57 2; fint 1; fint 1; fint 1; fint 1; fint 1; fint 1].
Definition instr_leak : list f64 := [dec 44 3; dec 78 3; dec 147 3; dec 33 2; fint 1; fint 1; fint 1; fint 1; fint 1; fint 1].
(** with the factor of lines 438 and 550 *)
Definition instr_area : list f64 :=
  map (fun v => fmul v (fsqrt (fint 8))) ([dec 56 5; dec 108 5; dec 192 5] ++ repeat (dec 41 4) 7).
Definition table (p : param) : list (Z * f64) :=
  match p with
  | DacDyn => tab resolutions (repeat (dec 350625 8) 5)
  | DacLeak => tab resolutions (repeat (dec 390625 9) 5)
  | DacArea => tab resolutions (repeat (dec 167 9) 5)
  | InRead => tab xbar_sizes [dec 3 1; dec 7 1; dec 17 1; dec 47 1]
  | InWrite | OutDyn => tab xbar_sizes [dec 1 1; dec 1 1; dec 16 2; dec 2 1]
  | InLeak | OutLeak => tab xbar_sizes [dec 9 3; dec 2 2; dec 4 2; dec 75 3]
  | InArea | OutArea => tab xbar_sizes [dec 15 5; dec 33 5; dec 78 5; dec 19 4]
  | XbarPow => tab xbar_sizes [dec 1875 5; dec 75 3; dec 3 1; dec 12 1]
  | XbarArea => tab xbar_sizes [dec 15625 10; dec 625 8; dec 25 6; dec 1 4]
  | SramDyn => tab xbar_sizes [dec 32 2; dec 64 2; dec 128 2; dec 256 2]
  | SramLeak => tab xbar_sizes [dec 2 2; dec 8 2; dec 32 2; dec 128 2]
  | SramArea => tab xbar_sizes [dec 12 5; dec 49 5; dec 196 5; dec 784 5]
  | CalcLeak => tab xbar_sizes [dec 2 2; dec 4 2; dec 8 2; dec 16 2]
  | CalcDyn => tab xbar_sizes [dec 324 2; dec 698 2; dec 1456 2; dec 2982 2]
  | CalcArea => tab xbar_sizes [dec 58 6; dec 127 6; dec 265 6; dec 545 6]
  | AdcDyn => tab resolutions [dec 225 3; dec 45 2; dec 9 1; dec 18 1; dec 32 1]
  | AdcLeak => tab resolutions [dec 25 3; dec 5 2; dec 1 1; dec 2 1; dec 4 1]
  | AdcArea => tab resolutions (repeat (dec 12 4) 5)
  | IntraDyn => tab port_counts [dec 1613 2; dec 5148 2]
  | IntraLeak => tab port_counts [dec 41 2; dec 104 2]
  | IntraArea => tab port_counts [dec 47 3; dec 116 3]
  | EdramDyn => tab edram_sizes (repeat (fdiv (dec 172 1) (fint 50)) 2 ++ repeat (fdiv (dec 2535 2) (fint 50)) 4)
  | EdramLeak => tab edram_sizes (repeat (dec 46 2) 2 ++ repeat (dec 77 2) 4)
  | EdramArea => tab edram_sizes (repeat (dec 86 3) 2 ++ repeat (dec 121 3) 4)
  | TInstrDyn | CInstrDyn => tab instr_sizes instr_dyn
  | TInstrLeak | CInstrLeak => tab instr_sizes instr_leak
  | TInstrArea | CInstrArea => tab instr_sizes instr_area
  | DataDyn => tab data_sizes [dec 16 2; dec 24 2; dec 33 2; dec 57 2; fint 1]
  | DataLeak => tab data_sizes [dec 44 3; dec 78 3; dec 147 3; dec 33 2; fint 1]
  | DataArea => tab data_sizes [dec 56 5; dec 108 5; dec 192 5; dec 392 5; dec 392 5]
  | _ => []
  end.

(** The latencies that the simulator uses: core_config.instrnMem_lat and dataMem_lat, tile_config.edram_lat, noc_config.noc_intra_lat and
    noc_inter_lat, dac_config.lat, adc_config.lat. *)
Inductive latency := LFetch | LData | LEdram | LIntra | LInter | LDac | LAdc.
(** config.py:64, 226, 307, 341-352, 450, 468-479 *)
Definition lat_table (p : latency) : list (Z * f64) :=
  match p with
  | LFetch => tab instr_sizes (repeat (fint 1) 10)
  | LData => tab data_sizes (repeat (fint 1) 5)
  | LEdram => tab edram_sizes (repeat (fint 50) 6)
  | LDac => tab resolutions (repeat (fint 1) 5)
  | LAdc => tab resolutions [fint 13; fint 25; fint 50; fint 100; fint 200]
  | LIntra | LInter => []
  end.
(** NOCConfig.LAT_DICT and INJ_RATE_MAX: config.py:252-254; the keys are floats. *)
Definition rate_table : list (f64 * f64) :=
  [(dec 1 3, fint 29); (dec 5 3, fint 31); (dec 10 3, fint 34); (dec 20 3, fint 54); (dec 25 3, fint 115)].
Definition rate_max : f64 := dec 25 3.
Fixpoint rate_lookup (t : list (f64 * f64)) (r : f64) : option f64 :=
  match t with [] => None | (x, v) :: rest => if Beqb x r then Some v else rate_lookup rest r end.

(** Where a parameter is written in the file, and its default (None: default=None). *)
Section Params.
Local Open Scope string_scope.
Context (s : parts).
Definition param_field (p : param) : list (string * json) * string :=
  match p with
  | DacDyn => (pt_dac s, "pow_dyn") | DacLeak => (pt_dac s, "pow_leak") | DacArea => (pt_dac s, "area")
  | InRead => (pt_xbar s, "inMem_pow_dyn_read") | InWrite => (pt_xbar s, "inMem_pow_dyn_write")
  | InLeak => (pt_xbar s, "inMem_pow_leak") | InArea => (pt_xbar s, "inMem_area")
  | XbarPow => (pt_xbar s, "xbar_pow") | XbarLeak => (pt_xbar s, "xbar_pow_leak") | XbarArea => (pt_xbar s, "xbar_area")
  | SramDyn => (pt_xbar s, "sram_xbar_pow_dyn") | SramLeak => (pt_xbar s, "sram_xbar_pow_leak") | SramArea => (pt_xbar s, "sram_xbar_area")
  | CalcDyn => (pt_xbar s, "calculator_pow_dyn") | CalcLeak => (pt_xbar s, "calculator_pow_leak") | CalcArea => (pt_xbar s, "calculator_area")
  | OutDyn => (pt_xbar s, "outMem_pow_dyn") | OutLeak => (pt_xbar s, "outMem_pow_leak") | OutArea => (pt_xbar s, "outMem_area")
  | AdcDyn => (pt_adc s, "pow_dyn") | AdcLeak => (pt_adc s, "pow_leak") | AdcArea => (pt_adc s, "area")
  | InterDyn => (pt_noc s, "noc_inter_pow_dyn") | InterLeak => (pt_noc s, "noc_inter_pow_leak") | InterArea => (pt_noc s, "noc_inter_area")
  | IntraDyn => (pt_noc s, "noc_intra_pow_dyn") | IntraLeak => (pt_noc s, "noc_intra_pow_leak") | IntraArea => (pt_noc s, "noc_intra_area")
  | TcuDyn => (pt_tile s, "tcu_pow_dyn") | TcuLeak => (pt_tile s, "tcu_pow_leak") | TcuArea => (pt_tile s, "tcu_area")
  | EdramDyn => (pt_tile s, "edram_pow_dyn") | EdramLeak => (pt_tile s, "edram_pow_leak") | EdramArea => (pt_tile s, "edram_area")
  | TInstrDyn => (pt_tile s, "instrnMem_pow_dyn") | TInstrLeak => (pt_tile s, "instrnMem_pow_leak") | TInstrArea => (pt_tile s, "instrnMem_area")
  | BusLeak => (pt_tile s, "edram_bus_pow_leak") | BusArea => (pt_tile s, "edram_bus_area")
  | CtrlDyn => (pt_tile s, "edram_ctrl_pow_dyn") | CtrlLeak => (pt_tile s, "edram_ctrl_pow_leak") | CtrlArea => (pt_tile s, "edram_ctrl_area")
  | RecvDyn => (pt_tile s, "receive_buffer_pow_dyn") | RecvLeak => (pt_tile s, "receive_buffer_pow_leak") | RecvArea => (pt_tile s, "receive_buffer_area")
  | CcuDyn => (pt_core s, "ccu_pow_dyn") | CcuLeak => (pt_core s, "ccu_pow_leak") | CcuArea => (pt_core s, "ccu_area")
  | DataDyn => (pt_core s, "dataMem_pow_dyn") | DataLeak => (pt_core s, "dataMem_pow_leak") | DataArea => (pt_core s, "dataMem_area")
  | CInstrDyn => (pt_core s, "instrnMem_pow_dyn") | CInstrLeak => (pt_core s, "instrnMem_pow_leak") | CInstrArea => (pt_core s, "instrnMem_area")
  | MulDyn => (pt_core s, "alu_pow_mul_dyn") | DivDyn => (pt_core s, "alu_pow_div_dyn") | ActDyn => (pt_core s, "act_pow_dyn")
  | OtherDyn => (pt_core s, "alu_pow_others_dyn") | AluLeak => (pt_core s, "alu_pow_leak") | AluArea => (pt_core s, "alu_area")
  | ActArea => (pt_core s, "act_area")
  | SnhDyn => (pt_mvmu s, "snh_pow_dyn") | SnhLeak => (pt_mvmu s, "snh_pow_leak") | SnhArea => (pt_mvmu s, "snh_area")
  | MuxDyn => (pt_mvmu s, "mux_pow_dyn") | MuxLeak => (pt_mvmu s, "mux_pow_leak") | MuxArea => (pt_mvmu s, "mux_area")
  | SnaDyn => (pt_mvmu s, "sna_pow_dyn") | SnaLeak => (pt_mvmu s, "sna_pow_leak") | SnaArea => (pt_mvmu s, "sna_area")
  end.
End Params.
(** config.py:124, 265-267, 302-304, 408-423, 445-447, 526-534, 556-571; 10 ** (-7) is the float64 nearest to it. *)
Definition default (p : param) : option f64 :=
  match p with
  | XbarLeak | InterLeak | TcuLeak | CcuLeak | MuxDyn | MuxLeak | MuxArea => Some (fint 0)
  | InterDyn => Some (fint 10400) | InterArea => Some (dec 2288 2)
  | TcuDyn => Some (fmul (dec 25 2) (dec 2 1)) | TcuArea => Some (dec 145 5)
  | BusLeak => Some (fdiv (fint 1) (fint 2)) | BusArea => Some (dec 90 3)
  | CtrlDyn => Some (dec 475 3) | CtrlLeak => Some (dec 5 2) | CtrlArea => Some (dec 145 5)
  | RecvDyn => Some (fmul (dec 448 2) (fsqrt (fint 4))) | RecvLeak => Some (fmul (dec 9 2) (fsqrt (fint 4)))
  | RecvArea => Some (fmul (dec 22 4) (fsqrt (fint 4)))
  | CcuDyn => Some (fmul (dec 125 2) (dec 2 1)) | CcuArea => Some (fmul (dec 145 5) (dec 225 2))
  | MulDyn => Some (fdiv (fmul (dec 795 3) (fint 32)) (fint 45)) | DivDyn => Some (fdiv (fmul (dec 152 2) (fint 32)) (fint 45))
  | ActDyn => Some (fsub (dec 26 2) (dec 26 3)) | OtherDyn => Some (fdiv (fmul (dec 373 3) (fint 32)) (fint 45))
  | AluLeak => Some (fdiv (fmul (dec 27 2) (fint 32)) (fint 45)) | AluArea => Some (fdiv (fmul (dec 567 5) (fint 32)) (fint 45))
  | ActArea => Some (dec 3 4)
  | SnhLeak => Some (fmul (dec 97 1) (dec 1 7)) | SnhDyn => Some (fsub (fmul (dec 97 1) (dec 1 6)) (fmul (dec 97 1) (dec 1 7)))
  | SnhArea => Some (fdiv (fdiv (dec 4 5) (fint 8)) (fint 128))
  | SnaLeak => Some (dec 5 3) | SnaDyn => Some (fsub (dec 5 2) (dec 5 3)) | SnaArea => Some (dec 6 5)
  | _ => None
  end.
Definition xbar_ip_lat0 : f64 := fint 100.                                     (* config.py:159 *)
Definition xbar_ip_pow0 : f64 := fsub (fmul (dec 137 2) (fint 2)) (dec 104 2). (* config.py:160 *)

(** ** The configuration *)
Record config := MkConfig {
  cf_nodes : Z; cf_tiles : Z; cf_cores : Z; cf_mvmus : Z;
  cf_bits : list bitcfg;                             (* storage_config *)
  cf_wint : Z; cf_wfrac : Z; cf_wwidth : Z; cf_aint : Z; cf_afrac : Z; cf_awidth : Z;
  cf_storage : storage;                              (* the derived fields of MVMUConfig *)
  cf_dac_res : Z; cf_adc_res : Z; cf_differential : bool;
  cf_vdd : f64; cf_gmin : f64; cf_gmax : f64; cf_noise : bool;
  cf_size : Z; cf_cols : Z; cf_calc_cols : Z; cf_num_adc : Z;
  cf_port : Z; cf_edram_kb : Z; cf_edram : Z; cf_tinstr : Z; cf_data : Z; cf_cinstr : Z;
  cf_alu_lat : Z; cf_alus : Z;
  cf_lat : latency -> option f64;
  cf_param : param -> option f64 }.

Section Config.
Local Open Scope string_scope.
Local Open Scope Z_scope.
Context (x : conv).
Let int := setting (to_int x).
Let flt := setting (to_float x).

(** The sizes that the tables are indexed with. *)
Definition sizes_in (s : parts) : sizes :=
  MkSizes (int (pt_dac s) "resolution" 1) (int (pt_adc s) "resolution" 8) (int (pt_xbar s) "xbar_size" 128)
    (int (pt_tile s) "edram_size_in_KB" 8192) (int (pt_tile s) "instrnMem_size" 131072) (int (pt_core s) "dataMem_size" 4096)
    (int (pt_core s) "instrnMem_size" 131072) (int (pt_noc s) "num_port" 4).
Definition size_for (z : sizes) (p : param) : Z := match table_of z p with Some t => snd t | None => 0 end.

(** The constructors of config.py:89-96, 179-212, 238-245, 285-292, 425-438, 536-550: the value of the table if it has one, otherwise the
    value given (init=False does not exclude the fields from the arguments of a BaseModel) or the default; line 198 for xbar_pow. *)
Definition param_in (s : parts) (p : param) : option f64 :=
  match lookup (table p) (size_for (sizes_in s) p) with
  | Some v => Some (match p with
                    | XbarPow => fmul (flt (pt_xbar s) "xbar_ip_lat" xbar_ip_lat0) (flt (pt_xbar s) "xbar_ip_pow" xbar_ip_pow0)
                    | _ => v
                    end)
  | None => match setting_opt (to_float x) (fst (param_field s p)) (snd (param_field s p)) with Some v => Some v | None => default p end
  end.
(** noc_intra_lat after config.py:282-283 *)
Definition intra_in (s : parts) : option f64 :=
  match rate_lookup rate_table (flt (pt_noc s) "inj_rate" (dec 5 3)) with
  | Some v => Some v
  | None => setting_opt (to_float x) (pt_noc s) "noc_intra_lat"
  end.
Definition lat_in (s : parts) (p : latency) : option f64 :=
  let z := sizes_in s in
  let from (size : Z) (l : list (string * json)) (k : string) :=
    match lookup (lat_table p) size with Some v => Some v | None => setting_opt (to_float x) l k end in
  match p with
  | LFetch => from (z_cinstr z) (pt_core s) "instrnMem_lat"
  | LData => from (z_data z) (pt_core s) "dataMem_lat"
  | LEdram => from (z_edram z) (pt_tile s) "edram_lat"
  | LDac => from (z_dac z) (pt_dac s) "lat"
  | LAdc => from (z_adc z) (pt_adc s) "lat"
  | LIntra => intra_in s
  (* config.py:295 *)
  | LInter => match intra_in s with Some v => Some (fadd (flt (pt_noc s) "noc_ht_lat" (fint 5)) v) | None => None end
  end.

(** pydantic collects the ValueErrors (an AssertionError counts as one) of the fields, and passes other exceptions on at once. *)
Fixpoint first_error (l : list (option exn)) (soft : bool) : option exn :=
  match l with
  | [] => if soft then Some ValueError else None
  | None :: rest => first_error rest soft
  | Some ValueError :: rest => first_error rest true
  | Some e :: _ => Some e
  end.
Definition unless (ok : bool) (e : exn) : option exn := if ok then None else Some e.

(** DataConfig.calculate_derived_values: config.py:36-57. *)
Definition data_error (l : list (string * json)) : option exn :=
  if negb (fields_ok x data_fields l) then Some ValueError
  else match parse_format (setting str_of l "weight_format" "Q1.7"), parse_format (setting str_of l "activation_format" "Q4.4") with
       | Ok _, Ok _ => None
       | _, _ => Some ValueError
       end.
(** NOCConfig.__init__: config.py:275-295. *)
Definition noc_error (s : parts) : option exn :=
  if negb (fields_ok x noc_fields (pt_noc s)) then Some ValueError
  else if Bltb rate_max (flt (pt_noc s) "inj_rate" (dec 5 3)) then Some ValueError
  else if is_some (intra_in s) then None else Some TypeError.
(** MVMUConfig.__init__: config.py:597-607, after its fields. *)
Definition mvmu_error (s : parts) : option exn :=
  if negb (fields_ok x mvmu_fields (pt_mvmu s) && fields_ok x dac_fields (pt_dac s) && fields_ok x xbar_fields (pt_xbar s) &&
           fields_ok x adc_fields (pt_adc s)) then Some ValueError
  else match num_adc_of (int (pt_xbar s) "xbar_size" 128) (int (pt_mvmu s) "num_columns_per_adc" 16) with
       | Ok _ => None
       | Raise e => Some e
       end.

(** The parts; a part that is not a mapping is a ValidationError. *)
Definition or_empty (o : option (list (string * json))) : list (string * json) := match o with Some l => l | None => [] end.
Definition parts_of (l : list (string * json)) : parts :=
  let m := or_empty (section l "mvmu_config") in
  MkParts l (or_empty (section l "data_config")) (or_empty (section l "noc_config")) (or_empty (section l "tile_config"))
    (or_empty (section l "core_config")) m (or_empty (section m "dac_config")) (or_empty (section m "xbar_config")) (or_empty (section m "adc_config")).
(** The fields of Config in the order of config.py:613-623. *)
Definition field_errors (l : list (string * json)) : list (option exn) :=
  let s := parts_of l in
  let part (k : string) (e : option exn) := match section l k with Some _ => e | None => Some ValueError end in
  [unless (fields_ok x top_fields l) ValueError;
   part "data_config" (data_error (pt_data s));
   part "noc_config" (noc_error s);
   part "tile_config" (unless (fields_ok x tile_fields (pt_tile s)) ValueError);
   part "core_config" (unless (fields_ok x core_fields (pt_core s)) ValueError);
   part "mvmu_config" (if is_some (section (pt_mvmu s) "dac_config") && is_some (section (pt_mvmu s) "xbar_config") && is_some (section (pt_mvmu s) "adc_config")
                       then mvmu_error s else Some ValueError)].

Definition format_of (s : string) : Z * Z * Z := match parse_format s with Ok v => v | Raise _ => (0, 0, 0) end.
Definition default_bits : list bitcfg := [MLC; MLC; MLC; MLC].
(** Config.validate_and_calculate: config.py:625-668; a flag given as true stays true (lines 590-591, 643, 649). *)
Definition validate_and_calculate (s : parts) : res config :=
  let '(wi, wf, ww) := format_of (setting str_of (pt_data s) "weight_format" "Q1.7") in
  let '(ai, af, aw) := format_of (setting str_of (pt_data s) "activation_format" "Q4.4") in
  let bits := setting (fun j => match j with JList l => bits_of l | _ => None end) (pt_data s) "storage_config" default_bits in
  let bool := setting (to_bool x) in
  let z := sizes_in s in
  match validate_storage bits ww with
  | Raise _ => Raise ValueError
  | Ok st =>
      match edram_size_of (z_edram z) aw with
      | Raise e => Raise e
      | Ok edram =>
          Ok (MkConfig (int (pt_top s) "num_nodes" 1) (int (pt_top s) "num_tiles_per_node" 4) (int (pt_top s) "num_cores_per_tile" 8)
                (int (pt_top s) "num_mvmus_per_core" 6) bits wi wf ww ai af aw
                (MkStorage (stored_bit st) (bits_per_cell st) (is_xbar_rram st) (rram_to_output_map st) (sram_to_output_map st) (num_rram st) (num_sram st)
                   (bool (pt_mvmu s) "have_rram_xbar" false || have_rram st) (bool (pt_mvmu s) "have_sram_xbar" false || have_sram st))
                (z_dac z) (z_adc z) (setting adc_of (pt_adc s) "type" false)
                (flt (pt_dac s) "VDD" (fint 1)) (flt (pt_xbar s) "rram_conductance_min" (fint 0)) (flt (pt_xbar s) "rram_conductance_max" (fint 1))
                (bool (pt_xbar s) "has_noise" false)
                (z_xbar z) (int (pt_mvmu s) "num_columns_per_adc" 16) (int (pt_mvmu s) "num_columns_per_calculator" 128)
                (z_xbar z / int (pt_mvmu s) "num_columns_per_adc" 16)
                (z_port z) (z_edram z) edram (z_tinstr z) (z_data z) (z_cinstr z)
                (int (pt_core s) "alu_lat" 1) (int (pt_core s) "num_alu_per_vfu" 12)
                (lat_in s) (param_in s))
      end
  end.

(** Config.model_validate(yaml.safe_load(f)): ramwich.py:29. *)
Definition load_config (doc : json) : res config :=
  match doc with
  | JObj l => match first_error (field_errors l) false with
              | Some e => Raise e
              | None => validate_and_calculate (parts_of l)
              end
  | _ => Raise ValueError
  end.
End Config.

(** ** The construction of the architecture *)
(** What the constructors can object to, in the order in which they run for the first node, tile, core and unit (all are alike).
    Network.__init__: blocks/noc.py:45-53; DRAM, DRAMController: blocks/memory.py:87, blocks/dram_controller.py:97 (numpy rejects a negative
    size); SRAM, MVMU: blocks/memory.py:87, blocks/inreg.py:21, outreg.py:20; DACArray, RRAMXbarArray, ADCArray: blocks/dac.py:46,
    rram_xbar.py:46-47, adc.py:49, 68 (a shift by a negative number, division by 0); SRAMCIMUnitArray: blocks/sram_cim_unit.py:47.
    Simplifications: numpy's limit of memory; integers beyond the range of float64 (an OverflowError, e.g. a resolution of 1024 bits in adc.py:68). *)
Definition guard (ok : bool) (e : exn) (next : res unit) : res unit := if ok then next else Raise e.
Definition build_unit (c : config) : res unit :=
  guard (0 <=? cf_size c) ValueError
    (guard (negb (have_rram (cf_storage c)) || ((0 <=? cf_dac_res c) && (0 <=? cf_adc_res c))) ValueError
      (guard (negb (have_rram (cf_storage c)) || negb (cf_dac_res c =? 0)) ZeroDivisionError
        (guard (negb (have_sram (cf_storage c)) || negb (cf_calc_cols c =? 0)) ZeroDivisionError (Ok tt)))).
Definition build_core (c : config) : res unit :=
  guard (0 <=? cf_data c) ValueError (if 0 <? cf_mvmus c then build_unit c else Ok tt).
Definition build_tile (c : config) : res unit :=
  guard (0 <=? cf_edram c) ValueError (if 0 <? cf_cores c then build_core c else Ok tt).
Definition build_node (c : config) : res unit :=
  guard (negb (cf_port c =? 0)) ZeroDivisionError
    (guard (is_some (cf_param c IntraLeak) && is_some (cf_param c IntraArea)) TypeError
      (if 0 <? cf_tiles c then build_tile c else Ok tt)).
Definition build (c : config) : res unit := if 0 <? cf_nodes c then build_node c else Ok tt.

(** ** What the parts of the simulator read *)
(** Times are integers in the other models: the latencies must be. *)
Definition whole (x : f64) : option Z := if Beqb (f_of_Z (Btrunc x)) x then Some (Btrunc x) else None.
Definition ticks (c : config) (p : latency) : option Z := match cf_lat c p with Some v => whole v | None => None end.
Definition mvmu_cfg_of (dot : list f64 -> list f64 -> f64) (c : config) (dac adc : Z) : mvmu_cfg :=
  MkMvmuCfg (cf_size c) (cf_cols c) (cf_storage c) (cf_dac_res c) (cf_adc_res c) dac adc (cf_differential c) (cf_awidth c) (cf_wfrac c)
    (cf_vdd c) (cf_gmin c) (cf_gmax c) dot.
Definition sys_cfg_of (dot : list f64 -> list f64 -> f64) (act : vop -> Z -> Z) (c : config) : option sys_cfg :=
  match ticks c LFetch, ticks c LData, ticks c LEdram, ticks c LIntra, ticks c LInter, ticks c LDac, ticks c LAdc with
  | Some fetch, Some data, Some edram, Some intra, Some inter, Some dac, Some adc =>
      Some (MkSysCfg (MkNetCfg (cf_tiles c) (cf_nodes c) intra inter data)
              (MkCoreCfg (cf_mvmus c) (mvmu_cfg_of dot c dac adc) (cf_data c) (MkVfu (cf_afrac c) (cf_awidth c) act) fetch data (cf_alu_lat c) (cf_alus c))
              (cf_cores c) (cf_edram c) edram)
  | _, _, _, _, _, _, _ => None
  end.
