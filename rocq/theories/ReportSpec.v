(** Independent specification of the statistics: sums of entries, closed formulas per component. *)
From Verif Require Import PyBase ConfigModel MemoryModel VfuModel FloatModel MvmuModel CoreModel DramModel RouterModel SystemModel NodeModel
  StatsModel ReportModel.
From Coq Require Import QArith Qcanon String.
Open Scope Z_scope.

(** Exact arithmetic, and the arithmetic of the code. *)
Definition rational (z : Z) : Qc := Q2Qc (inject_Z z).
Definition exact_num : arith := Arith Qc Qcplus Qcmult Qcdiv rational.
Definition float_num : arith := Arith f64 fadd fmul fdiv f_of_Z.

(** ** Sums *)
Notation xstats := (stats exact_num).
Definition sum_stats (l : list xstats) : xstats :=
  MkStats (A := exact_num) (zsum (map s_count l)) (fold_right Qcplus (rational 0) (map s_dyn l))
    (fold_right Qcplus (rational 0) (map s_leak l)) (fold_right Qcplus (rational 0) (map s_area l)).

(** The entries of a dictionary, and all values given for a name. *)
Definition entries {A : arith} (h : heap A) (d : sdict) : list (string * stats A) := map (fun kv => (fst kv, deref h (snd kv))) d.
Definition given {B} (k : string) (l : list (string * B)) : list B := map snd (filter (fun x => String.eqb (fst x) k) l).

(** A dictionary of its own objects: no object of it is in the heap [h0], none is there twice, no name is there twice. *)
Definition own {A : arith} (h0 : heap A) (d : sdict) (h : heap A) : Prop :=
  NoDup (map fst d) /\ NoDup (map snd d) /\ Forall (fun kv => (List.length h0 <= snd kv < List.length h)%nat) d.
(** The objects of [h0] are as they were. *)
Definition keeps {A : arith} (h0 h : heap A) : Prop :=
  (List.length h0 <= List.length h)%nat /\ forall i, (i < List.length h0)%nat -> deref h i = deref h0 i.

(** The dictionary shows for each name the sum of all values given in [l]. *)
Definition shows (d : sdict) (h : heap exact_num) (l : list (string * xstats)) : Prop :=
  forall k, given k (entries h d) = match given k l with [] => [] | vs => [sum_stats vs] end.

(** Dictionaries merged one by one, or in any grouping. *)
Inductive tree {A : arith} := Leaf (l : list (string * stats A)) | Merge (a b : tree).
Fixpoint leaves {A : arith} (t : tree) : list (string * stats A) :=
  match t with Leaf l => l | Merge a b => leaves a ++ leaves b end.
Fixpoint each_leaf {A : arith} (P : list (string * stats A) -> Prop) (t : tree) : Prop :=
  match t with Leaf l => P l | Merge a b => each_leaf P a /\ each_leaf P b end.
Fixpoint evaluate {A : arith} (t : tree) (h : heap A) : sdict * heap A :=
  match t with
  | Leaf l => fresh_dict h l
  | Merge a b => let '(d, h1) := evaluate a h in let '(o, h2) := evaluate b h1 in dmerge d h2 o
  end.

(** ** The inventory of a node: which components it has, and what the report should say about them *)
Section Inventory.
Context (q : param -> Qc) (g : rcfg exact_num).
Let mv := k_mv (y_core (g_sys g)).
Local Open Scope Qc_scope.

(** A kind of component: its name, number of activations, dynamic energy, leakage power and area; powered for some cycles. *)
Definition part (cycles : Z) (name : string) (activations : Z) (energy power area : Qc) : string * xstats :=
  (name, MkStats (A := exact_num) activations energy (power * rational cycles) area).
Definition activations_of {B} (f : B -> Z) (l : list B) : Z := zsum (map f l).

(** The matrix units of a core, all together. *)
Definition units_parts (cycles : Z) (us : list mvmu) : list (string * xstats) :=
  let n := rational (zlen us) in
  let size := rational (c_size mv) in
  let rrams := rational (num_rram (c_storage mv)) in
  let srams := rational (num_sram (c_storage mv)) in
  let adcs := rational (c_num_adc mv) in
  let calcs := rational (c_size mv / g_calc_cols g)%Z in
  let act (f : mv_stats -> Z) := activations_of (fun u => f (mv_stat u)) us in
  match us with
  | [] => []
  | _ =>
    (if have_rram (c_storage mv) then
       [part cycles "RRAM Xbar" (act rram_mvm_operations) (q XbarPow * rational (act rram_mvm_operations))
          (n * (rational 2 * rrams) * q XbarLeak) (n * (rational 2 * rrams) * q XbarArea);
        part cycles "DAC" (act dac_conversions) (q DacDyn * rational (act dac_conversions)) (n * size * q DacLeak) (n * size * q DacArea);
        part cycles "ADC" (act adc_conversions) (q AdcDyn * rational (act adc_conversions))
          (n * ((if c_adc_differential mv then rational 1 else rational 2) * rrams * adcs) * q AdcLeak)
          (n * ((if c_adc_differential mv then rational 1 else rational 2) * rrams * adcs) * q AdcArea);
        part cycles "Sample and Hold" (act snh_pos_samples + act snh_neg_samples)
          (q SnhDyn * rational (act snh_pos_samples + act snh_neg_samples))
          (n * (rational 2 * rrams * size) * q SnhLeak) (n * (rational 2 * rrams * size) * q SnhArea)]
     else []) ++
    (if have_rram (c_storage mv) || have_sram (c_storage mv) then
       let selections := ((if have_rram (c_storage mv) then act mux_pos_selections + act mux_neg_selections else 0) +
                          (if have_sram (c_storage mv) then act mux_sram_selections else 0))%Z in
       let muxes := (if have_rram (c_storage mv) then rational 2 * rrams * adcs else 0) + (if have_sram (c_storage mv) then srams * adcs else 0) in
       [part cycles "MUX" selections (q MuxDyn * rational selections) (n * muxes * q MuxLeak) (n * muxes * q MuxArea)]
     else []) ++
    (if have_sram (c_storage mv) then
       [part cycles "SRAM CIM Unit" (act sram_mac_operations) ((q SramDyn + q CalcDyn) * rational (act sram_mac_operations))
          (n * (rational 2 * srams) * (q SramLeak + calcs * q CalcLeak)) (n * (rational 2 * srams) * (q SramArea + calcs))]
     else []) ++
    [part cycles "Input Register Array" (activations_of (fun u => total_operations (in_stat (mv_in u))) us)
       (q InRead * rational (activations_of (fun u => read_operations (in_stat (mv_in u))) us) +
        q InWrite * rational (activations_of (fun u => write_cells (in_stat (mv_in u))) us)) (n * q InLeak) (n * q InArea);
     part cycles "Output Register Array" (activations_of (fun u => total_operations (out_stat (mv_out u))) us)
       (q OutDyn * rational (activations_of (fun u => total_operated_cells (out_stat (mv_out u))) us)) (n * q OutLeak) (n * q OutArea);
     part cycles "Shift and Add" (act sna_operations) (q SnaDyn * rational (act sna_operations)) (n * q SnaLeak) (n * q SnaArea)]
  end.

(** A core with [ops] instructions that was active for [cycles]. *)
Definition core_parts (k : core) (ops cycles : Z) : list (string * xstats) :=
  let cells := total_operated_cells (mstat (co_cache k)) in
  let v := co_vfu k in
  [part cycles "Core Control Unit" cycles (rational cycles * q CcuDyn) (q CcuLeak) (q CcuArea);
   part cycles "Core instruction memory" ops (rational ops * q CInstrDyn) (q CInstrLeak) (q CInstrArea);
   part cycles "SRAM" cells (rational cells * q DataDyn) (q DataLeak) (q DataArea);
   part cycles "VFU" (vtotal_operations v)
     (rational (mul_operations v) * q MulDyn + rational (div_operations v) * q DivDyn +
      rational (act_operations v) * q ActDyn + rational (other_operations v) * q OtherDyn) (q AluLeak) (q AluArea + q ActArea);
   part cycles "VFU MUL" (mul_operations v) 0 0 0; part cycles "VFU DIV" (div_operations v) 0 0 0;
   part cycles "VFU ACT" (act_operations v) 0 0 0; part cycles "VFU OTHERS" (other_operations v) 0 0 0] ++
  units_parts cycles (co_mvmus k).

(** The router of a tile. *)
Definition router_parts (s : rstats) (cycles : Z) : list (string * xstats) :=
  [part cycles "Router" (packets_sent s)
     (q InterDyn * rational (packets_sent_internode s) / rational 12 + q RecvDyn * rational (packets_received s + packets_read s)) (q RecvLeak) (q RecvArea);
   part cycles "Router send internode" (packets_sent_internode s) 0 0 0;
   part cycles "Router send intranode" (packets_sent_intranode s) 0 0 0;
   part cycles "Router receive" (packets_received s) 0 0 0].

(** A tile without its cores; input and output tiles: only the router, as if powered for one cycle. *)
Definition tile_parts (id : Z) (d : dram) (r : rstats) (ops cycles : Z) : list (string * xstats) :=
  if (id =? 0) || (id =? 1) then router_parts r 1
  else
   [part cycles "Tile Control Unit" cycles (rational cycles * q TcuDyn) (q TcuLeak) (q TcuArea);
    part cycles "Tile instruction memory" ops (rational ops * q TInstrDyn) (q TInstrLeak) (q TInstrArea);
    part cycles "DRAM" (total_operations (mstat (d_mem d))) (rational (total_operations (mstat (d_mem d))) * q EdramDyn) (q EdramLeak) (q EdramArea);
    part cycles "DRAM Controller" (total_requests (d_stat d)) (rational (total_requests (d_stat d)) * q CtrlDyn)
      (q CtrlLeak + q BusLeak) (q CtrlArea + q BusArea)] ++ router_parts r cycles.

(** The network, powered for the cycles in which packets were queued. *)
Definition noc_parts (busy : Z) : list (string * xstats) :=
  [part busy "NOC inter" 0 0 (q InterLeak) (q InterArea);
   part busy "NOC intra" 0 0 (q IntraLeak * (rational (w_tiles (y_net (g_sys g))) / rational (g_port g)))
     (q IntraArea * (rational (w_tiles (y_net (g_sys g))) / rational (g_port g)));
   part 0 "Router" 0 (q IntraDyn * rational busy) 0 0].

(** The cores of tile [i], with their numbers of instructions and active cycles. *)
Definition cores_of (j : job) (n : node) (i : Z) : list (core * Z * Z) :=
  map (fun x => (cp_core (snd x), zlen (snd (snd (fst x))), nd_core_cycles n i (Z.of_nat (fst (fst x)))))
    (combine (combine (seq 0 (List.length (j_cores j i))) (j_cores j i)) (t_cores (s_tile (nd_sys n) i))).
Definition full_tile_parts (j : job) (n : node) (i : Z) : list (string * xstats) :=
  tile_parts i (t_dram (s_tile (nd_sys n) i)) (r_stat (n_router (s_net (nd_sys n)) i)) (zlen (j_prog j i)) (nd_tile_cycles n i) ++
  (if (i =? 0) || (i =? 1) then [] else flat_map (fun x => core_parts (fst (fst x)) (snd (fst x)) (snd x)) (cores_of j n i)).
Definition node_parts (j : job) (n : node) : list (string * xstats) :=
  noc_parts (nd_busy n) ++ flat_map (full_tile_parts j n) (zrange (w_tiles (y_net (g_sys g)))).
End Inventory.

(** The parameters that a configuration must provide. *)
Definition rram_only (p : param) : bool :=
  match p with DacDyn | DacLeak | DacArea | AdcDyn | AdcLeak | AdcArea => true | _ => false end.
Definition provides (g : rcfg exact_num) (q : param -> Qc) : Prop :=
  forall p, (rram_only p = true -> have_rram (c_storage (k_mv (y_core (g_sys g)))) = true) -> g_param g p = Some (q p).

(** A method that returns a new dictionary with these contents and touches no older object. *)
Definition yields (r : rep exact_num) (l : list (string * xstats)) : Prop :=
  forall h0, exists d h, r h0 = (Ok d, h) /\ keeps h0 h /\ own h0 d h /\ shows d h l.

(** ** The sizes for which config.py has parameters *)
Definition sizes_known (z : sizes) (rram : bool) : Prop :=
  In (z_port z) [4; 8] /\ In (z_edram z) [8; 64; 128; 2048; 8192; 16384] /\
  In (z_tinstr z) (map (fun n => 256 * 2 ^ n) [0; 1; 2; 3; 4; 5; 6; 7; 8; 9]) /\
  In (z_cinstr z) (map (fun n => 256 * 2 ^ n) [0; 1; 2; 3; 4; 5; 6; 7; 8; 9]) /\
  In (z_data z) [256; 512; 1024; 2048; 4096] /\ In (z_xbar z) [32; 64; 128; 256] /\
  (rram = true -> In (z_dac z) [1; 2; 4; 8; 16] /\ In (z_adc z) [1; 2; 4; 8; 16]).
(** A node in which some compute tile has a core with a matrix unit. *)
Definition computes (g : rcfg exact_num) (j : job) (n : node) : Prop :=
  exists i x u, 2 <= i < w_tiles (y_net (g_sys g)) /\ In x (cores_of j n i) /\ In u (co_mvmus (fst (fst x))).
Definition fails_with (r : rep exact_num) (e : exn) : Prop := forall h0, exists h, r h0 = (Raise e, h).

(** Two states that differ at most in the input and output tiles' memories, cores and cycles. *)
Definition same_for_report (n n' : node) : Prop :=
  s_net (nd_sys n) = s_net (nd_sys n') /\ nd_busy n = nd_busy n' /\
  forall i, 2 <= i -> s_tile (nd_sys n) i = s_tile (nd_sys n') i /\ nd_tile_cycles n i = nd_tile_cycles n' i /\ nd_core_cycles n i = nd_core_cycles n' i.
