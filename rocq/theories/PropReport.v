(** Properties C54 to C56 and C63 to C65: the statistics. *)
From Verif Require Import PyBase ConfigModel MemoryModel VfuModel FloatModel MvmuModel CoreModel DramModel RouterModel SystemModel SystemSpec SystemExamples
  NodeModel NodeSpec NodeExamples StatsModel ReportModel ReportSpec StatsProofs ReportProofs ReportNode ReportClaims ReportExamples StatsRoundSpec StatsRound.
From Coq Require Import QArith Qcanon String Permutation.
Open Scope Z_scope.

(** ** C54: merging is a commutative sum *)
(** Dictionaries merged in any grouping (in exact arithmetic): a new dictionary with exactly the names given, each once, with the sum of
    all values given for it; no object that existed before is changed. *)
Theorem C54_sum :
  forall t h, each_leaf (fun l => NoDup (map fst l)) t ->
    exists d h', evaluate t h = (d, h') /\ keeps h h' /\ own h d h' /\ shows d h' (leaves t).
Proof. exact tree_merge. Qed.
Print Assumptions C54_sum.
Theorem C54_order :
  forall t t' (h h' : heap exact_num) d d' e e', each_leaf (fun l => NoDup (map fst l)) t -> each_leaf (fun l => NoDup (map fst l)) t' ->
    Permutation (leaves t) (leaves t') -> evaluate t h = (d, e) -> evaluate t' h' = (d', e') ->
    forall k, given k (entries e d) = given k (entries e' d').
Proof. exact tree_order. Qed.
Print Assumptions C54_order.
Theorem C54_summary :
  forall t h d h', each_leaf (fun l => NoDup (map fst l)) t -> evaluate t h = (d, h') -> summary h' d = sum_stats (map snd (leaves t)).
Proof. exact tree_summary. Qed.
Print Assumptions C54_summary.
(** With the rounding of float64 the order matters. *)
Theorem C54_rounding_refuted :
  exists l l' : list (list (string * option (stats float_num))), Permutation l l' /\
    exists d h d' h', merge_all [] (map build l) [] = (Ok d, h) /\ merge_all [] (map build l') [] = (Ok d', h') /\
      map s_dyn (given "DAC"%string (entries h d)) <> map s_dyn (given "DAC"%string (entries h' d')).
Proof. exact float_order. Qed.
Print Assumptions C54_rounding_refuted.
(** But not by much: with float64, in any grouping, each name has the sum of all values given for it up to a relative error of 2^-52 for each
    addition, and so has the summary of all; counts are exact. *)
Theorem C54_rounding :
  forall t (h : heap float_num) d h', each_leaf (fun l => NoDup (map fst l)) t -> evaluate t h = (d, h') ->
    NoDup (map fst d) /\ (forall k, In k (map fst d) <-> In k (map fst (leaves t))) /\
    forall k s, In (k, s) (entries h' d) -> s_count s = zsum (map s_count (given k (leaves t))) /\
      forall f, In f amounts -> let l := map f (given k (leaves t)) in proper_amounts l -> near_total (zlen l - 1) l (f s).
Proof. exact names_rounded. Qed.
Print Assumptions C54_rounding.
Theorem C54_rounding_summary :
  forall t (h : heap float_num) d h', each_leaf (fun l => NoDup (map fst l)) t -> evaluate t h = (d, h') ->
    s_count (summary h' d) = zsum (map (fun x => s_count (snd x)) (leaves t)) /\
    forall f, In f amounts -> let l := map (fun x => f (snd x)) (leaves t) in proper_amounts l -> near_total (zlen l) l (f (summary h' d)).
Proof. exact summary_rounded. Qed.
Print Assumptions C54_rounding_summary.
Example C54_case_rounding : let v := [floats 9007199254740992; floats 1; floats 1] in
  let t := Merge (Merge (Leaf [("DAC"%string, floats 9007199254740992)]) (Leaf [("DAC"%string, floats 1)])) (Leaf [("DAC"%string, floats 1)]) in
  proper_amounts (map s_dyn v) /\ map snd (leaves t) = v /\
  (let '(d, h) := evaluate t [] in map (fun x : string * stats float_num => (fst x, s_count (snd x), fnearest (s_dyn (snd x)))) (entries h d)) = [("DAC"%string, 3, 9007199254740992)].
Proof. cbv zeta. split; [exact three_proper|]. split; [reflexivity|]. vm_compute. reflexivity. Qed.
Example C54_case :
  let a := [("DAC"%string, unit_stats 1); ("ADC"%string, unit_stats 2)] in
  let b := [("MUX"%string, unit_stats 4)] in
  let c := [("ADC"%string, unit_stats 8); ("DAC"%string, unit_stats 16)] in
  (let '(d, h) := evaluate (Merge (Merge (Leaf a) (Leaf b)) (Leaf c)) [] in (map (fun x => (fst x, s_count (snd x))) (entries h d), s_count (summary h d)))
    = ([("DAC"%string, 17); ("ADC"%string, 10); ("MUX"%string, 4)], 31) /\
  (let '(d, h) := evaluate (Merge (Leaf b) (Merge (Leaf c) (Leaf a))) [] in (map (fun x => (fst x, s_count (snd x))) (entries h d), s_count (summary h d)))
    = ([("MUX"%string, 4); ("ADC"%string, 10); ("DAC"%string, 17)], 31).
Proof. vm_compute. split; reflexivity. Qed.

(** ** C55: leakage energy is leakage power times active cycles *)
(** The report of a core, of a tile with its cores, and of a node, in closed form: [part cycles name ...] has the leakage energy
    power times cycles, with the cycles of the core, of the tile (1 for tiles 0 and 1), and the busy cycles of the network. *)
Theorem C55_core :
  forall q g, provides g q -> forall k ops cycles, yields (core_report g k ops cycles) (core_parts q g k ops cycles).
Proof. exact core_yields. Qed.
Print Assumptions C55_core.
Theorem C55_tile :
  forall q g, provides g q -> forall j n i, yields (tile_of g j n i) (full_tile_parts q g j n i).
Proof. exact tile_yields. Qed.
Print Assumptions C55_tile.
Theorem C55_node :
  forall q g, provides g q -> forall j n, 0 < w_tiles (y_net (g_sys g)) -> yields (node_report g j n) (node_parts q g j n).
Proof. exact node_yields. Qed.
Print Assumptions C55_node.
(** The routers of tiles 0 and 1: leakage power instead of leakage energy, whatever the cycles. *)
Theorem C55_io_actual :
  forall q g j n i h0 d h, provides g q -> i = 0 \/ i = 1 -> tile_of g j n i h0 = (Ok d, h) ->
    map s_leak (given "Router"%string (entries h d)) = [q RecvLeak].
Proof. exact router_leak. Qed.
Print Assumptions C55_io_actual.
Theorem C55_io_refuted :
  exists q g j t n i, provides g q /\ nd_reach (g_sys g) j t n /\ completed_run (g_sys g) (nd_sys n) /\ on_node (g_sys g) i /\
    forall h0 d h, tile_of g j n i h0 = (Ok d, h) ->
      map s_leak (given "Router"%string (entries h d)) <> [(q RecvLeak * rational (nd_tile_cycles n i))%Qc].
Proof. exact io_leak_refuted. Qed.
Print Assumptions C55_io_refuted.
Example C55_case :
  map (fun x => (fst (fst x), snd (fst (snd x)))) (shown (core_report (sampled three) (cp_core (hd (MkCProc mvm_core [] PReady []) (t_cores (s_tile (nd_sys mvm_end) 2)))) 3 100)) =
  [("Core Control Unit", 1700); ("Core instruction memory", 200); ("SRAM", 200); ("VFU", 1900); ("VFU MUL", 0); ("VFU DIV", 0);
   ("VFU ACT", 0); ("VFU OTHERS", 0); ("RRAM Xbar", 5600); ("DAC", 5200); ("ADC", 4400); ("Sample and Hold", 3200); ("MUX", 29000);
   ("SRAM CIM Unit", 35200); ("Input Register Array", 400); ("Output Register Array", 400); ("Shift and Add", 4600)]%string.
Proof. vm_compute. reflexivity. Qed.

(** ** C56: the area of the SRAM units *)
(** The area of a calculator is not used; what is reported: *)
Theorem C56_actual :
  forall q g k ops cycles h0 d h, provides g q -> have_sram (c_storage (k_mv (y_core (g_sys g)))) = true -> co_mvmus k <> [] ->
    core_report g k ops cycles h0 = (Ok d, h) ->
    map s_area (given "SRAM CIM Unit"%string (entries h d)) =
      [rational (zlen (co_mvmus k) * 2 * num_sram (c_storage (k_mv (y_core (g_sys g)))))
        * (q SramArea + rational (c_size (k_mv (y_core (g_sys g))) / g_calc_cols g)%Z)]%Qc.
Proof. exact sram_area. Qed.
Print Assumptions C56_actual.
Theorem C56_refuted :
  exists q g k ops cycles, provides g q /\ co_mvmus k <> [] /\
    forall h0 d h, core_report g k ops cycles h0 = (Ok d, h) ->
      map s_area (given "SRAM CIM Unit"%string (entries h d)) <>
        [rational (zlen (co_mvmus k) * 2 * num_sram (c_storage (k_mv (y_core (g_sys g)))))
          * (q SramArea + rational (c_size (k_mv (y_core (g_sys g))) / g_calc_cols g)%Z * q CalcArea)]%Qc.
Proof. exact sram_area_refuted. Qed.
Print Assumptions C56_refuted.
Example C56_case :
  filter (fun x => String.eqb (fst (fst x)) "SRAM CIM Unit") (shown (core_report (sampled digital) (core_init (y_core digital)) 1 1)) =
    [("SRAM CIM Unit"%string, 0, (0, 704, 344))].
Proof. vm_compute. reflexivity. Qed.

(** ** C63: the report accounts for everything *)
(** The report of a simulation sums the parts of all its nodes, and its summary is the total; no component of a compute tile is missing. *)
Theorem C63_simulation :
  forall q g, provides g q -> forall nodes, 0 < w_tiles (y_net (g_sys g)) ->
    yields (sim_report g nodes) (flat_map (fun x => node_parts q g (fst x) (snd x)) nodes).
Proof. exact sim_yields. Qed.
Print Assumptions C63_simulation.
Theorem C63_summary :
  forall r l h0 d h, yields r l -> r h0 = (Ok d, h) -> summary h d = sum_stats (map snd l).
Proof. exact yields_summary. Qed.
Print Assumptions C63_summary.
(** But memories, controllers, cores and cycles of tiles 0 and 1 are not reported. *)
Theorem C63_io_hidden :
  forall (g : rcfg exact_num) j n n', same_for_report n n' -> node_report g j n = node_report g j n'.
Proof. exact io_hidden. Qed.
Print Assumptions C63_io_hidden.
Theorem C63_refuted :
  exists g q j n n' i, provides g q /\ on_node (g_sys g) i /\
    total_operations (mstat (d_mem (t_dram (s_tile (nd_sys n) i)))) <> total_operations (mstat (d_mem (t_dram (s_tile (nd_sys n') i)))) /\
    total_requests (d_stat (t_dram (s_tile (nd_sys n) i))) <> total_requests (d_stat (t_dram (s_tile (nd_sys n') i))) /\
    nd_core_cycles n i 0 <> nd_core_cycles n' i 0 /\ node_report g j n = node_report g j n'.
Proof. exact hidden_refuted. Qed.
Print Assumptions C63_refuted.
Example C63_case :
  map (fun x => (fst x, fst (fst (snd x)))) (shown (node_report (sampled three) mvm_job mvm_end)) =
  [("NOC inter", 0, 0); ("NOC intra", 0, 0); ("Router", 3, 223); ("Router send internode", 0, 0); ("Router send intranode", 3, 0); ("Router receive", 3, 0);
   ("Tile Control Unit", 0, 0); ("Tile instruction memory", 1, 2); ("DRAM", 0, 0); ("DRAM Controller", 0, 0);
   ("Core Control Unit", 0, 0); ("Core instruction memory", 3, 6); ("SRAM", 1, 2); ("VFU", 0, 0); ("VFU MUL", 0, 0); ("VFU DIV", 0, 0);
   ("VFU ACT", 0, 0); ("VFU OTHERS", 0, 0); ("RRAM Xbar", 12, 24); ("DAC", 6, 12); ("ADC", 12, 24); ("Sample and Hold", 24, 48); ("MUX", 30, 60);
   ("SRAM CIM Unit", 12, 48); ("Input Register Array", 3, 6); ("Output Register Array", 13, 28); ("Shift and Add", 24, 48)]%string /\
  total_operations (mstat (d_mem (t_dram (s_tile (nd_sys mvm_end) 0)))) = 5.
Proof. vm_compute. split; reflexivity. Qed.

(** ** C64: when there is a report *)
(** For a node that computes: exactly if all needed sizes are in the parameter tables. *)
Theorem C64_sizes :
  forall value z cols port c j n, let g := MkRcfg (A := exact_num) (param_value (A := exact_num) value z) cols port c in
    computes g j n ->
    (sizes_known z (have_rram (c_storage (k_mv (y_core c)))) -> exists q, provides g q /\ yields (node_report g j n) (node_parts q g j n)) /\
    (~ sizes_known z (have_rram (c_storage (k_mv (y_core c)))) -> fails_with (node_report g j n) TypeError).
Proof. exact sizes_decide. Qed.
Print Assumptions C64_sizes.
Theorem C64_no_tiles :
  forall q g j n, provides g q -> w_tiles (y_net (g_sys g)) <= 0 -> fails_with (node_report g j n) KeyError.
Proof. exact no_tiles. Qed.
Print Assumptions C64_no_tiles.
Example C64_case :
  let report z := match fst (node_report (A := exact_num) (MkRcfg (A := exact_num) (param_value (A := exact_num) (fun _ n => rational n) z) 1 4 three) mvm_job mvm_end []) with
                  | Ok d => Ok (List.length d) | Raise e => Raise e end in
  report (MkSizes 1 8 128 64 4096 1024 131072 4) = Ok 27%nat /\ report (MkSizes 1 8 128 64 4096 1024 131072 6) = Raise TypeError /\
  report (MkSizes 3 8 128 64 4096 1024 131072 4) = Raise TypeError /\ report (MkSizes 1 8 128 64 4096 8192 131072 4) = Raise TypeError.
Proof. vm_compute. repeat split. Qed.

(** ** C65: reports can be repeated *)
(** A second report shows the same, shares no object with the first and leaves it as it was. *)
Theorem C65_twice :
  forall r l h0 d1 h1 d2 h2, yields r l -> r h0 = (Ok d1, h1) -> r h1 = (Ok d2, h2) ->
    entries h2 d1 = entries h1 d1 /\ (forall k, given k (entries h2 d2) = given k (entries h1 d1)) /\
    forall r1 r2, In r1 (map snd d1) -> In r2 (map snd d2) -> r1 <> r2.
Proof. exact yields_twice. Qed.
Print Assumptions C65_twice.
(** But a merged dictionary shares its objects with the result: the next merge changes it. *)
Theorem C65_sharing_refuted :
  exists (h : heap exact_num) d o e, let '(d1, h1) := dmerge d h o in let '(d2, h2) := dmerge d1 h1 e in
    entries h1 o = entries h o /\ entries h2 o <> entries h1 o.
Proof. exact alias_refuted. Qed.
Print Assumptions C65_sharing_refuted.
Example C65_case :
  (let r := node_report (sampled three) mvm_job mvm_end in
   match r [] with
   | (Ok d1, h1) => match r h1 with
                    | (Ok d2, h2) => (map (fun x => s_count (snd x)) (entries h2 d1), map (fun x => s_count (snd x)) (entries h2 d2))
                    | _ => ([], []) end
   | _ => ([], []) end) =
  ([0; 0; 3; 0; 3; 3; 0; 1; 0; 0; 0; 3; 1; 0; 0; 0; 0; 0; 12; 6; 12; 24; 30; 12; 3; 13; 24],
   [0; 0; 3; 0; 3; 3; 0; 1; 0; 0; 0; 3; 1; 0; 0; 0; 0; 0; 12; 6; 12; 24; 30; 12; 3; 13; 24]).
Proof. vm_compute. reflexivity. Qed.
