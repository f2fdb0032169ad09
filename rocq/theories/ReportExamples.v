(** Examples and counterexamples for the statistics. *)
From Verif Require Import PyBase PyLemmas ConfigModel MemoryModel VfuModel FloatModel MvmuModel CoreModel DramModel RouterModel SystemModel SystemSpec SystemExamples
  NodeModel NodeSpec NodeExamples StatsModel ReportModel ReportSpec StatsProofs ReportProofs ReportNode ReportClaims.
From Coq Require Import QArith Qcanon String Lia.
From Coq Require Import Permutation.
Open Scope Z_scope.

(** Some parameters. *)
Definition sample (p : param) : Qc :=
  rational (match p with
            | XbarLeak => 7 | AdcLeak => 11 | DacLeak => 13 | CcuLeak => 17 | AluLeak => 19 | SnaLeak => 23 | MuxLeak => 29
            | RecvLeak => 5 | RecvDyn => 31 | IntraDyn => 37 | IntraLeak => 8 | SramArea => 41 | CalcArea => 3 | CalcLeak => 43
            | _ => 2 end).
Definition sampled (c : sys_cfg) : rcfg exact_num := MkRcfg (A := exact_num) (fun p => Some (sample p)) 1 4 c.
Lemma sampled_provides c : provides (sampled c) sample.
Proof. intros p _. reflexivity. Qed.

(** ** C54: rounding *)
Definition floats (dyn : Z) : stats float_num := MkStats (A := float_num) 1 (f_of_Z dyn) f0 f0.
Definition one_each (l : list (stats float_num)) : list (list (string * option (stats float_num))) := map (fun s => [("DAC"%string, Some s)]) l.
Lemma merge_three (a b c : stats float_num) :
  merge_all [] (map build (one_each [a; b; c])) [] = (Ok [("DAC"%string, 0%nat)], [smerge (smerge a b) c; b; c]).
Proof. reflexivity. Qed.
Lemma float_order : exists l l' : list (list (string * option (stats float_num))), Permutation l l' /\
  exists d h d' h', merge_all [] (map build l) [] = (Ok d, h) /\ merge_all [] (map build l') [] = (Ok d', h') /\
    map s_dyn (given "DAC"%string (entries h d)) <> map s_dyn (given "DAC"%string (entries h' d')).
Proof.
  exists (one_each [floats 9007199254740992; floats 1; floats 1]), (one_each [floats 1; floats 1; floats 9007199254740992]). split.
  - apply (Permutation_map (fun s => [("DAC"%string, Some s)])). apply (Permutation_app_comm [_] [_; _]).
  - do 4 eexists. split; [apply merge_three|]. split; [apply merge_three|]. cbn [entries map deref nth given filter String.eqb Ascii.eqb Bool.eqb fst snd].
    intros F. apply (f_equal (map fnearest)) in F. cbn [map] in F.
    assert (G : fnearest (s_dyn (smerge (smerge (floats 9007199254740992) (floats 1)) (floats 1))) = 9007199254740992) by (vm_compute; reflexivity).
    assert (G' : fnearest (s_dyn (smerge (smerge (floats 1) (floats 1)) (floats 9007199254740992))) = 9007199254740994) by (vm_compute; reflexivity).
    rewrite G, G' in F. clear G G'. discriminate F.
Qed.

(** ** C55: input and output tiles *)
Lemma router_leak q g j n i h0 d h : provides g q -> i = 0 \/ i = 1 -> tile_of g j n i h0 = (Ok d, h) ->
  map s_leak (given "Router"%string (entries h d)) = [q RecvLeak].
Proof.
  intros P I0 E. destruct (tile_yields q g P j n i h0) as (x & y & F & _ & _ & S). rewrite E in F. injection F as <- <-. rewrite (S "Router"%string).
  assert (G : given "Router"%string (full_tile_parts q g j n i) = [snd (hd (""%string, @stats0 exact_num) (router_parts q (r_stat (n_router (s_net (nd_sys n)) i)) 1))]).
  { unfold full_tile_parts, tile_parts. destruct I0 as [-> | ->]; reflexivity. }
  rewrite G, sum_stats_one. cbn [map]. f_equal. cbn. rewrite rational_1. ring.
Qed.
Lemma rational_inj a b : rational a = rational b -> a = b.
Proof.
  intros E. apply (f_equal this) in E. unfold rational, Q2Qc, this in E. apply Qred_eq_iff in E. unfold Qeq, inject_Z in E. cbn in E. lia.
Qed.
Lemma io_leak_refuted : exists q g j t n i, provides g q /\ nd_reach (g_sys g) j t n /\ completed_run (g_sys g) (nd_sys n) /\ on_node (g_sys g) i /\
  forall h0 d h, tile_of g j n i h0 = (Ok d, h) ->
    map s_leak (given "Router"%string (entries h d)) <> [(q RecvLeak * rational (nd_tile_cycles n i))%Qc].
Proof.
  destruct mvm_reached as [t R]. exists sample, (sampled three), mvm_job, t, mvm_end, 0.
  split; [apply sampled_provides|]. split; [exact R|]. split; [exact mvm_completed|]. split; [vm_compute; split; congruence|].
  intros h0 d h E F. rewrite (router_leak sample (sampled three) mvm_job mvm_end 0 h0 d h (sampled_provides three) (or_introl eq_refl) E) in F.
  apply (f_equal (hd (rational 0))) in F. cbn [hd] in F. unfold sample in F. rewrite <- rational_mul in F. apply rational_inj in F. vm_compute in F. discriminate F.
Qed.

(** ** C56: the calculators' area *)
Lemma sram_area q g k ops cycles h0 d h : provides g q -> have_sram (c_storage (k_mv (y_core (g_sys g)))) = true -> co_mvmus k <> [] ->
  core_report g k ops cycles h0 = (Ok d, h) ->
  map s_area (given "SRAM CIM Unit"%string (entries h d)) =
    [rational (zlen (co_mvmus k) * 2 * num_sram (c_storage (k_mv (y_core (g_sys g)))))
      * (q SramArea + rational (c_size (k_mv (y_core (g_sys g))) / g_calc_cols g)%Z)]%Qc.
Proof.
  intros P HS NE E. destruct (core_yields q g P k ops cycles h0) as (x & y & F & _ & _ & S). rewrite E in F. injection F as <- <-. rewrite (S "SRAM CIM Unit"%string).
  unfold core_parts, units_parts. cbv zeta. destruct (co_mvmus k) as [|u us]; [congruence|]. rewrite HS. rewrite Bool.orb_true_r.
  destruct (have_rram (c_storage (k_mv (y_core (g_sys g))))).
  all: unfold given; cbn [filter app fst map snd part String.eqb Ascii.eqb Bool.eqb].
  all: rewrite sum_stats_one; cbn [map s_area]; f_equal; rewrite !rational_mul; ring.
Qed.
Lemma sram_area_refuted : exists q g k ops cycles, provides g q /\ co_mvmus k <> [] /\
  forall h0 d h, core_report g k ops cycles h0 = (Ok d, h) ->
    map s_area (given "SRAM CIM Unit"%string (entries h d)) <>
      [rational (zlen (co_mvmus k) * 2 * num_sram (c_storage (k_mv (y_core (g_sys g)))))
        * (q SramArea + rational (c_size (k_mv (y_core (g_sys g))) / g_calc_cols g)%Z * q CalcArea)]%Qc.
Proof.
  exists sample, (sampled digital), (core_init (y_core digital)), 1, 1. split; [apply sampled_provides|]. split; [vm_compute; discriminate|].
  intros h0 d h E F. rewrite (sram_area sample (sampled digital) (core_init (y_core digital)) 1 1 h0 d h (sampled_provides digital) eq_refl) in F; [|vm_compute; discriminate|exact E].
  apply (f_equal (hd (rational 0))) in F. cbn [hd] in F. unfold sample in F. rewrite <- !rational_mul, <- !rational_add, <- !rational_mul in F. apply rational_inj in F. vm_compute in F. discriminate F.
Qed.

(** ** C63: what is not reported *)
Lemma io_hidden (g : rcfg exact_num) j n n' : same_for_report n n' -> node_report g j n = node_report g j n'.
Proof.
  intros (N & B & T). unfold node_report. rewrite B. apply f_equal. f_equal. apply map_ext_in. intros i Hi. apply in_zrange in Hi.
  destruct (Z_lt_ge_dec i 2) as [L|L].
  - unfold tile_of, tile_report. replace ((i =? 0) || (i =? 1)) with true; [now rewrite N|].
    symmetry. apply Bool.orb_true_iff. assert (E : i = 0 \/ i = 1) by lia. destruct E as [-> | ->]; auto.
  - destruct (T i) as (T1 & T2 & T3); [lia|]. unfold tile_of. now rewrite N, T1, T2, T3.
Qed.
Definition idle_io (n0 n : node) : node :=
  MkNode (MkSys (s_net (nd_sys n)) (fun i => if i <? 2 then s_tile (nd_sys n0) i else s_tile (nd_sys n) i) (s_crash (nd_sys n)))
    (nd_start n) (nd_next n) (nd_busy n) (fun i => if i <? 2 then 0 else nd_tile_cycles n i) (fun i => if i <? 2 then fun _ => 0 else nd_core_cycles n i).
Lemma idle_same n0 n : same_for_report n (idle_io n0 n).
Proof.
  split; [reflexivity|]. split; [reflexivity|]. intros i Hi. cbn [idle_io nd_sys s_tile nd_tile_cycles nd_core_cycles]. replace (i <? 2) with false by lia. auto.
Qed.
Definition idle_end : node := idle_io mvm_first mvm_end.
Lemma hidden_refuted : exists g q j n n' i, provides g q /\ on_node (g_sys g) i /\
  total_operations (mstat (d_mem (t_dram (s_tile (nd_sys n) i)))) <> total_operations (mstat (d_mem (t_dram (s_tile (nd_sys n') i)))) /\
  total_requests (d_stat (t_dram (s_tile (nd_sys n) i))) <> total_requests (d_stat (t_dram (s_tile (nd_sys n') i))) /\
  nd_core_cycles n i 0 <> nd_core_cycles n' i 0 /\ node_report g j n = node_report g j n'.
Proof.
  exists (sampled three), sample, mvm_job, mvm_end, idle_end, 0. split; [apply sampled_provides|]. split; [vm_compute; split; congruence|].
  split; [vm_compute; congruence|]. split; [vm_compute; congruence|]. split; [vm_compute; congruence|]. apply io_hidden, idle_same.
Qed.

(** ** C65: shared objects *)
Definition unit_stats (z : Z) : xstats := MkStats (A := exact_num) z (rational 0) (rational 0) (rational 0).
Lemma alias_refuted : exists (h : heap exact_num) d o e, let '(d1, h1) := dmerge d h o in let '(d2, h2) := dmerge d1 h1 e in
  entries h1 o = entries h o /\ entries h2 o <> entries h1 o.
Proof.
  exists [unit_stats 1; unit_stats 10], [], [("DAC"%string, 0%nat)], [("DAC"%string, 1%nat)]. cbn [dmerge fold_left merge_item dget fst snd app].
  split; [reflexivity|]. intros E. apply (f_equal (map (fun x => s_count (snd x)))) in E. cbn in E. discriminate.
Qed.

(** What a report shows: name, activations, dynamic energy, leakage energy and area (integers in the examples). *)
Definition shown (r : rep exact_num) : list (string * Z * (Z * Z * Z)) :=
  match r [] with
  | (Ok d, h) => map (fun x : string * xstats => (fst x, s_count (snd x), (Qnum (this (s_dyn (snd x))), Qnum (this (s_leak (snd x))), Qnum (this (s_area (snd x)))))) (entries h d)
  | (Raise _, _) => []
  end.
