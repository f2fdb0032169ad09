(** Independent specification: what the simulations of all nodes with the same programs have in common. *)
From Verif Require Import PyBase MemoryModel CoreModel DramModel RouterModel SystemModel DesModel DesSpec DesDataSpec DesManyModel DesManySpec.

(** Same time, same events to come, and in each node the same state of its process, reported numbers, cells written and counters. *)
Record same_whole (x x' : whole) : Prop := {
  swh_now : v_now x = v_now x';
  swh_queue : v_queue x = v_queue x';
  swh_nodes : Forall2 (fun n n' => z_begin n = z_begin n' /\ z_fin n = z_fin n' /\ same_timing (MkDes 0 [] n) (MkDes 0 [] n')) (v_nodes x) (v_nodes x') }.
Definition same_codes (c : sys_cfg) (js js' : Z -> job) : Prop := forall k, in_run c k -> same_code c (js k) (js' k).
Definition all_fixed (c : sys_cfg) (js : Z -> job) : Prop := forall k, in_run c k -> programs_fixed c (js k).
Definition some_divides (c : sys_cfg) (js : Z -> job) : Prop := exists k, in_run c k /\ divides c (js k).
