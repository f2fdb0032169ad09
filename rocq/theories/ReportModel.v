(** The statistics report: the get_stats methods of all components. *)
From Verif Require Import PyBase ConfigModel MemoryModel VfuModel FloatModel MvmuModel CoreModel DramModel RouterModel SystemModel NodeModel StatsModel.
From Coq Require Import String.

(** The power and area parameters of the configuration: config.py:85-87, 110-156, 234-236, 265-273,
    302-304, 336-338, 392-394, 408-423, 445-447, 463-465, 519-521, 527-534, 557-571. *)
Inductive param :=
| DacDyn | DacLeak | DacArea
| InRead | InWrite | InLeak | InArea
| XbarPow | XbarLeak | XbarArea
| SramDyn | SramLeak | SramArea
| CalcDyn | CalcLeak | CalcArea
| OutDyn | OutLeak | OutArea
| AdcDyn | AdcLeak | AdcArea
| InterDyn | InterLeak | InterArea
| IntraDyn | IntraLeak | IntraArea
| TcuDyn | TcuLeak | TcuArea
| EdramDyn | EdramLeak | EdramArea
| TInstrDyn | TInstrLeak | TInstrArea
| BusLeak | BusArea
| CtrlDyn | CtrlLeak | CtrlArea
| RecvDyn | RecvLeak | RecvArea
| CcuDyn | CcuLeak | CcuArea
| DataDyn | DataLeak | DataArea
| CInstrDyn | CInstrLeak | CInstrArea
| MulDyn | DivDyn | ActDyn | OtherDyn | AluLeak | AluArea | ActArea
| SnhDyn | SnhLeak | SnhArea
| MuxDyn | MuxLeak | MuxArea
| SnaDyn | SnaLeak | SnaArea.

(** The sizes from which config.py looks up parameters in its tables. *)
Record sizes := MkSizes {
  z_dac : Z; z_adc : Z;              (* resolutions *)
  z_xbar : Z; z_edram : Z;           (* xbar_size, edram_size_in_KB *)
  z_tinstr : Z; z_data : Z; z_cinstr : Z;   (* tile instruction, core data and core instruction memory *)
  z_port : Z                         (* num_port *) }.

(** The keys of the tables: config.py:64, 104-151, 225-228, 259-261, 307, 341-390, 450-452, 468-517. *)
Definition resolutions : list Z := [1; 2; 4; 8; 16].
Definition xbar_sizes : list Z := [32; 64; 128; 256].
Definition edram_sizes : list Z := [8; 64; 128; 2048; 8192; 16384].
Definition instr_sizes : list Z := [256; 512; 1024; 2048; 4096; 8192; 16384; 32768; 65536; 131072].
Definition data_sizes : list Z := [256; 512; 1024; 2048; 4096].
Definition port_counts : list Z := [4; 8].

(** Which table and size a parameter comes from; None: an ordinary field. *)
Definition table_of (z : sizes) (p : param) : option (list Z * Z) :=
  match p with
  | DacDyn | DacLeak | DacArea => Some (resolutions, z_dac z)
  | AdcDyn | AdcLeak | AdcArea => Some (resolutions, z_adc z)
  | InRead | InWrite | InLeak | InArea | XbarPow | XbarArea | SramDyn | SramLeak | SramArea
  | CalcDyn | CalcLeak | CalcArea | OutDyn | OutLeak | OutArea => Some (xbar_sizes, z_xbar z)
  | IntraDyn | IntraLeak | IntraArea => Some (port_counts, z_port z)
  | EdramDyn | EdramLeak | EdramArea => Some (edram_sizes, z_edram z)
  | TInstrDyn | TInstrLeak | TInstrArea => Some (instr_sizes, z_tinstr z)
  | DataDyn | DataLeak | DataArea => Some (data_sizes, z_data z)
  | CInstrDyn | CInstrLeak | CInstrArea => Some (instr_sizes, z_cinstr z)
  | _ => None
  end.
Definition in_table (t : list Z * Z) : bool := existsb (Z.eqb (snd t)) (fst t).

Section Report.
Context {A : arith}.

(** The constructors of config.py (lines 89-96, 179-212, 238-245, 275-295, 425-438, 536-550): a
    parameter whose size is not in its table stays None.  Simplification: the numbers in the tables
    are not modelled, [value p size] can be any. *)
Definition param_value (value : param -> Z -> num A) (z : sizes) (p : param) : option (num A) :=
  match table_of z p with
  | Some t => if in_table t then Some (value p (snd t)) else None
  | None => Some (value p 0)
  end.

(** What the report reads from the configuration: the parameters, num_columns_per_calculator
    (config.py:579), num_port and the rest. *)
Record rcfg := MkRcfg { g_param : param -> option (num A); g_calc_cols : Z; g_port : Z; g_sys : sys_cfg }.

(** Arithmetic on parameters; with None it raises a TypeError. *)
Definition val : Type := option (num A).
Definition vadd (x y : val) : val := match x, y with Some a, Some b => Some (nadd A a b) | _, _ => None end.
Definition vmul (x y : val) : val := match x, y with Some a, Some b => Some (nmul A a b) | _, _ => None end.
Definition vdiv (x y : val) : val := match x, y with Some a, Some b => Some (ndiv A a b) | _, _ => None end.
Definition vint (z : Z) : val := Some (nint A z).

(** Stats(...); None stands for a TypeError.  Simplification: a None that is passed on without arithmetic is a TypeError too (in the
    code pydantic raises a ValidationError; the first argument computed with None comes before it). *)
Definition mk (count : Z) (dyn leak area : val) : option (stats A) :=
  match dyn, leak, area with
  | Some d, Some l, Some a => Some (MkStats count d l a)
  | _, _, _ => None
  end.
(** Stats(activation_count=...). *)
Definition mk_count (count : Z) : option (stats A) := Some (MkStats count (nint A 0) (nint A 0) (nint A 0)).

(** A method returning a StatsDict: it works on the heap of Stats objects. *)
Definition rep : Type := heap A -> res sdict * heap A.
Fixpoint build (l : list (string * option (stats A))) : rep := fun h =>
  match l with
  | [] => (Ok [], h)
  | (k, None) :: _ => (Raise TypeError, h)
  | (k, Some s) :: rest =>
      let '(r, h1) := new h s in
      match build rest h1 with
      | (Raise e, h2) => (Raise e, h2)
      | (Ok d, h2) => (Ok ((k, r) :: d), h2)
      end
  end.
(** stats_dict.merge(x.get_stats()) for several x. *)
Fixpoint merge_all (d : sdict) (l : list rep) : rep := fun h =>
  match l with
  | [] => (Ok d, h)
  | r :: rest =>
      match r h with
      | (Raise e, h1) => (Raise e, h1)
      | (Ok o, h1) => let '(d', h2) := dmerge d h1 o in merge_all d' rest h2
      end
  end.
(** One method after another on the dictionary of the first. *)
Definition start_merge (first : rep) (l : list rep) : rep := fun h =>
  match first h with
  | (Raise e, h1) => (Raise e, h1)
  | (Ok d, h1) => merge_all d l h1
  end.
(** ... and update_leakage_energy at the end. *)
Definition with_leakage (r : rep) (cycles : Z) : rep := fun h =>
  match r h with
  | (Raise e, h1) => (Raise e, h1)
  | (Ok d, h1) => (Ok d, update_leakage h1 d cycles)
  end.

Context (g : rcfg).
Let p := g_param g.
Let c := g_sys g.
Let mv := k_mv (y_core c).

(** MemoryStats.get_stats: blocks/memory.py:35-74. *)
Definition sram_stats (m : mstats) : list (string * option (stats A)) :=
  [("SRAM"%string, mk (total_operated_cells m) (vmul (p DataDyn) (vint (total_operated_cells m))) (p DataLeak) (p DataArea))].
Definition dram_stats (m : mstats) : list (string * option (stats A)) :=
  [("DRAM"%string, mk (total_operations m) (vmul (p EdramDyn) (vint (total_operations m))) (p EdramLeak) (p EdramArea))].
Definition inreg_stats (m : mstats) : list (string * option (stats A)) :=
  [("Input Register Array"%string, mk (total_operations m)
     (vadd (vmul (p InRead) (vint (read_operations m))) (vmul (p InWrite) (vint (write_cells m)))) (p InLeak) (p InArea))].
Definition outreg_stats (m : mstats) : list (string * option (stats A)) :=
  [("Output Register Array"%string, mk (total_operations m) (vmul (p OutDyn) (vint (total_operated_cells m))) (p OutLeak) (p OutArea))].

(** VFUStats.get_stats: blocks/vfu.py:33-60. *)
Definition vfu_stats (v : vstats) : list (string * option (stats A)) :=
  [("VFU"%string, mk (vtotal_operations v)
     (vadd (vadd (vadd (vmul (p MulDyn) (vint (mul_operations v))) (vmul (p DivDyn) (vint (div_operations v))))
             (vmul (p ActDyn) (vint (act_operations v)))) (vmul (p OtherDyn) (vint (other_operations v))))
     (p AluLeak) (vadd (p AluArea) (p ActArea)));
   ("VFU MUL"%string, mk_count (mul_operations v)); ("VFU DIV"%string, mk_count (div_operations v));
   ("VFU ACT"%string, mk_count (act_operations v)); ("VFU OTHERS"%string, mk_count (other_operations v))].

(** The array sizes: blocks/rram_xbar.py:50, blocks/dac.py:43, blocks/adc.py:53-59, blocks/snh.py:43-44,
    blocks/mux.py:40-50, blocks/sram_cim_unit.py:47, 54-56. *)
Definition adc_size : Z := num_rram (c_storage mv) * c_num_adc mv * (if c_adc_differential mv then 1 else 2).
Definition snh_size : Z := num_rram (c_storage mv) * c_size mv.
Definition mux_rram_size : Z := num_rram (c_storage mv) * c_num_adc mv.
Definition mux_sram_size : Z := num_sram (c_storage mv) * c_num_adc mv.
Definition calculators : Z := c_size mv / g_calc_cols g.

(** get_stats: blocks/rram_xbar.py:21-30, dac.py:25-34, adc.py:29-38, snh.py:22-31, mux.py:23-32,
    sram_cim_unit.py:22-34, sna.py:24-33. *)
Definition rram_stats (s : mv_stats) : list (string * option (stats A)) :=
  [("RRAM Xbar"%string, mk (rram_mvm_operations s) (vmul (p XbarPow) (vint (rram_mvm_operations s)))
     (vmul (p XbarLeak) (vint (num_rram (c_storage mv) * 2))) (vmul (p XbarArea) (vint (num_rram (c_storage mv) * 2))))].
Definition dac_stats (s : mv_stats) : list (string * option (stats A)) :=
  [("DAC"%string, mk (dac_conversions s) (vmul (p DacDyn) (vint (dac_conversions s)))
     (vmul (p DacLeak) (vint (c_size mv))) (vmul (p DacArea) (vint (c_size mv))))].
Definition adc_stats (s : mv_stats) : list (string * option (stats A)) :=
  [("ADC"%string, mk (adc_conversions s) (vmul (p AdcDyn) (vint (adc_conversions s)))
     (vmul (p AdcLeak) (vint adc_size)) (vmul (p AdcArea) (vint adc_size)))].
Definition snh_stats (samples : Z) : list (string * option (stats A)) :=
  [("Sample and Hold"%string, mk samples (vmul (p SnhDyn) (vint samples))
     (vmul (p SnhLeak) (vint snh_size)) (vmul (p SnhArea) (vint snh_size)))].
Definition mux_stats (selections size : Z) : list (string * option (stats A)) :=
  [("MUX"%string, mk selections (vmul (p MuxDyn) (vint selections))
     (vmul (p MuxLeak) (vint size)) (vmul (p MuxArea) (vint size)))].
Definition sram_cim_stats (s : mv_stats) : list (string * option (stats A)) :=
  [("SRAM CIM Unit"%string, mk (sram_mac_operations s) (vmul (vadd (p SramDyn) (p CalcDyn)) (vint (sram_mac_operations s)))
     (vmul (vadd (p SramLeak) (vmul (p CalcLeak) (vint calculators))) (vint (num_sram (c_storage mv) * 2)))
     (vmul (vadd (p SramArea) (vint calculators)) (vint (num_sram (c_storage mv) * 2))))].
Definition sna_stats (s : mv_stats) : list (string * option (stats A)) :=
  [("Shift and Add"%string, mk (sna_operations s) (vmul (p SnaDyn) (vint (sna_operations s))) (p SnaLeak) (p SnaArea))].

(** MVMU.get_stats: mvmu.py:232-250. *)
Definition mvmu_report (u : mvmu) : rep :=
  let s := mv_stat u in
  merge_all []
    ((if have_rram (c_storage mv)
      then map build [rram_stats s; dac_stats s; adc_stats s; snh_stats (snh_pos_samples s); snh_stats (snh_neg_samples s);
                      mux_stats (mux_pos_selections s) mux_rram_size; mux_stats (mux_neg_selections s) mux_rram_size]
      else []) ++
     (if have_sram (c_storage mv) then map build [sram_cim_stats s; mux_stats (mux_sram_selections s) mux_sram_size] else []) ++
     map build [inreg_stats (in_stat (mv_in u)); outreg_stats (out_stat (mv_out u)); sna_stats s]).

(** Core.get_stats: core.py:166-195; [ops] is len(self.operations). *)
Definition core_own (ops cycles : Z) : list (string * option (stats A)) :=
  [("Core Control Unit"%string, mk cycles (vmul (vint cycles) (p CcuDyn)) (p CcuLeak) (p CcuArea));
   ("Core instruction memory"%string, mk ops (vmul (vint ops) (p CInstrDyn)) (p CInstrLeak) (p CInstrArea))].
Definition core_report (k : core) (ops cycles : Z) : rep :=
  with_leakage (start_merge (build (core_own ops cycles))
    (build (sram_stats (mstat (co_cache k))) :: build (vfu_stats (co_vfu k)) :: map mvmu_report (co_mvmus k))) cycles.

(** DRAMControllerStats.get_stats: blocks/dram_controller.py:77-86. *)
Definition ctrl_stats (s : dstats) : list (string * option (stats A)) :=
  [("DRAM Controller"%string, mk (total_requests s) (vmul (p CtrlDyn) (vint (total_requests s)))
     (vadd (p CtrlLeak) (p BusLeak)) (vadd (p CtrlArea) (p BusArea)))].
(** RouterStats.get_stats: blocks/router.py:34-59. *)
Definition router_stats (s : rstats) : list (string * option (stats A)) :=
  [("Router"%string, mk (packets_sent s)
     (vadd (vdiv (vmul (p InterDyn) (vint (packets_sent_internode s))) (vint 12))
           (vmul (p RecvDyn) (vint (packets_received s + packets_read s)))) (p RecvLeak) (p RecvArea));
   ("Router send internode"%string, mk_count (packets_sent_internode s));
   ("Router send intranode"%string, mk_count (packets_sent_intranode s));
   ("Router receive"%string, mk_count (packets_received s))].

(** Tile.get_stats: tile.py:135-172; [ops] and [core_ops] are the numbers of instructions,
    [cycles] and [core_cycles] the active cycles. *)
Definition tile_own (ops cycles : Z) : list (string * option (stats A)) :=
  [("Tile Control Unit"%string, mk cycles (vmul (vint cycles) (p TcuDyn)) (p TcuLeak) (p TcuArea));
   ("Tile instruction memory"%string, mk ops (vmul (vint ops) (p TInstrDyn)) (p TInstrLeak) (p TInstrArea))].
Definition tile_report (id : Z) (d : dram) (r : router) (ops cycles : Z) (cores : list rep) : rep :=
  if (id =? 0) || (id =? 1) then build (router_stats (r_stat r))
  else start_merge
         (with_leakage (start_merge (build (tile_own ops cycles))
            [build (dram_stats (mstat (d_mem d))); build (ctrl_stats (d_stat d)); build (router_stats (r_stat r))]) cycles)
         cores.

(** NetworkStats.get_stats: blocks/noc.py:18-31, with the ratio of line 45. *)
Definition noc_stats : list (string * option (stats A)) :=
  let ratio := vdiv (vint (w_tiles (y_net c))) (vint (g_port g)) in
  [("NOC inter"%string, mk 0 (vint 0) (p InterLeak) (p InterArea));
   ("NOC intra"%string, mk 0 (vint 0) (vmul (p IntraLeak) ratio) (vmul (p IntraArea) ratio))].

(** stats_dict["Router"].dynamic_energy += ...: node.py:67-68. *)
Definition add_router_energy (e : val) (r : rep) : rep := fun h =>
  match r h with
  | (Raise x, h1) => (Raise x, h1)
  | (Ok d, h1) =>
      match e, dget d "Router"%string with
      | None, _ => (Raise TypeError, h1)
      | Some _, None => (Raise KeyError, h1)
      | Some e, Some i => let s := deref h1 i in
          (Ok d, upd h1 i (MkStats (s_count s) (nadd A (s_dyn s) e) (s_leak s) (s_area s)))
      end
  end.

(** Node.get_stats: node.py:52-70, for a node that ran the job j. *)
Definition tile_of (j : job) (n : node) (i : Z) : rep :=
  let t := s_tile (nd_sys n) i in
  tile_report i (t_dram t) (n_router (s_net (nd_sys n)) i) (zlen (j_prog j i)) (nd_tile_cycles n i)
    (map (fun x => core_report (cp_core (snd x)) (zlen (snd (snd (fst x)))) (nd_core_cycles n i (Z.of_nat (fst (fst x)))))
       (combine (combine (seq 0 (List.length (j_cores j i))) (j_cores j i)) (t_cores t))).
Definition node_report (j : job) (n : node) : rep :=
  add_router_energy (vmul (p IntraDyn) (vint (nd_busy n)))
    (start_merge (with_leakage (merge_all [] [build noc_stats]) (nd_busy n)) (map (tile_of j n) (zrange (w_tiles (y_net c))))).

(** RAMwich.get_stats: ramwich.py:214-219. *)
Definition sim_report (nodes : list (job * node)) : rep := merge_all [] (map (fun x => node_report (fst x) (snd x)) nodes).
End Report.
Arguments rcfg : clear implicits. Arguments rep : clear implicits. Arguments val : clear implicits.
