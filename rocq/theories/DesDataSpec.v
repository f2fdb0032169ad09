(** Independent specification: which programs use addresses that do not depend on data, when two jobs differ only in data, and
    what the simulations of such jobs have in common. *)
From Verif Require Import PyBase MemoryModel VfuModel MvmuModel CoreModel CoreSpec DramModel RouterModel SystemModel SystemSpec DesModel DesSpec DesIdleSpec DesDoneSpec.
Open Scope Z_scope.

(** What is known of the registers: the constant that a set instruction has written. *)
Definition known_regs := Z -> option Z.
Definition nothing : known_regs := fun _ => None.
Definition between (d n a : Z) : bool := (d <=? a) && (a <? d + n).
Definition put_known (m : known_regs) (d n : Z) (v : option Z) : known_regs := fun a => if between d n a then v else m a.
Definition learn (o : cop) (m : known_regs) : known_regs :=
  match o with
  | CSet d imm v => put_known m d v (Some (wrap32 imm))
  | CCopy d _ v => put_known m d v None
  | CVfu _ d _ _ v => put_known m d v None
  | CLoad d _ w v => put_known m d (w * v) None
  | CStore _ _ _ _ | CMvm _ | CHlt => m
  end.
(** A cache register with a known constant. *)
Definition is_fixed (c : core_cfg) (m : known_regs) (r : Z) : bool :=
  (cache_start c <=? r) && match m r with Some _ => true | None => false end.
(** Every load and store takes its address from a register that a set instruction has written last. *)
Fixpoint fixed_addresses (c : core_cfg) (m : known_regs) (prog : list cop) : bool :=
  match prog with
  | [] => true
  | o :: rest =>
      match o with CLoad _ r _ _ => is_fixed c m r | CStore d _ _ _ => is_fixed c m d | _ => true end
      && fixed_addresses c (learn o m) rest
  end.
Definition programs_fixed (c : sys_cfg) (j : job) : Prop :=
  forall i, on_node c i -> Forall (fun x => fixed_addresses (y_core c) nothing (snd x) = true) (j_cores j i).
(** Some core of the job divides. *)
Definition is_div (o : cop) : bool := match o with CVfu Vdiv _ _ _ _ => true | _ => false end.
Definition divides (c : sys_cfg) (j : job) : Prop :=
  exists i k p o, on_node c i /\ In (k, p) (j_cores j i) /\ In o p /\ is_div o = true.

(** The counters of a core from which its energy is computed, but not how often an ADC clamped. *)
Definition unit_counts (u : mvmu) : mstats * mstats * list Z :=
  let s := mv_stat u in
  (in_stat (mv_in u), out_stat (mv_out u),
   [dac_conversions s; dac_active_cycles s; rram_mvm_operations s; snh_pos_samples s; snh_neg_samples s; mux_pos_selections s; mux_neg_selections s;
    adc_conversions s; adc_active_cycles s; sram_mac_operations s; mux_sram_selections s; sna_operations s]).
Record same_activity (k k' : core) : Prop := {
  sac_cache : mstat (co_cache k) = mstat (co_cache k');
  sac_vfu : co_vfu k = co_vfu k';
  sac_units : map unit_counts (co_mvmus k) = map unit_counts (co_mvmus k') }.

(** Two jobs with the same programs, in whatever is stored in the cores and given as activation. *)
Record same_code (c : sys_cfg) (j j' : job) : Prop := {
  scd_tile : forall i, on_node c i -> j_prog j i = j_prog j' i;
  scd_core : forall i, on_node c i -> Forall2 (fun x y =>
    snd x = snd y /\ core_reached (y_core c) (fst x) /\ core_reached (y_core c) (fst y) /\ same_activity (fst x) (fst y)) (j_cores j i) (j_cores j' i);
  scd_activation : zlen (j_activation j) = zlen (j_activation j') }.

(** Same time, same events to come, same reported numbers, same cells written, same counters. *)
Record same_timing (s s' : sim) : Prop := {
  stm_queue : w_queue s = w_queue s';
  stm_numbers : numbers s = numbers s';
  stm_tiles : Forall2 (fun t t' =>
    y_valid (c_mem (x_ctl t)) = y_valid (c_mem (x_ctl t')) /\ mstat (y_mem (c_mem (x_ctl t))) = mstat (y_mem (c_mem (x_ctl t'))) /\
    Forall2 same_activity (map k_core (x_cores t)) (map k_core (x_cores t'))) (z_tiles (w_node s)) (z_tiles (w_node s')) }.
(** Both runs have returned or none has, and both have come to a standstill or none has. *)
Record ends_together (c : sys_cfg) (s s' : sim) : Prop := {
  sed_returned : returned c s <-> returned c s';
  sed_ticks : only_ticks s <-> only_ticks s' }.
