(** Property theorems: register space and instructions of a core. *)
From Verif Require Import PyBase ConfigModel MemoryModel MemorySpec VfuModel VfuSpec FloatModel MvmuModel MvmuSpec
  MvmuExamples MvmuTop CoreModel CoreSpec CoreProofs CoreUse CoreInstr.
Open Scope Z_scope.

(** C09 (register addresses behave like one flat memory per region).  The address map is injective
    and defined exactly on the register space; a successful write changes exactly the addressed
    registers, each to the 32-bit value of its datum; the cache holds what was last written. *)
Theorem C09_no_aliasing :
  forall cfg ww c a b p, core_ok cfg ww c ->
    place_of c a = Some p -> place_of c b = Some p -> a = b.
Proof. intros cfg ww c a b p OK. exact (place_injective cfg ww c OK a b p). Qed.
Print Assumptions C09_no_aliasing.

Theorem C09_address_space :
  forall cfg ww c a, core_ok cfg ww c ->
    (place_of c a <> None <-> 0 <= a < 2 * (k_mvmus c * c_size (k_mv c)) + k_cache c).
Proof. intros cfg ww c a OK. exact (place_defined cfg ww c OK a). Qed.
Print Assumptions C09_address_space.

Theorem C09_write_changes_exactly_the_addressed_registers :
  forall cfg ww c k s d k', core_ok cfg ww c -> core_reached c k ->
    write_to_register c k s d = (Ok tt, k') ->
    (forall a p, s <= a < s + zlen d -> place_of c a = Some p -> is_int32_of (content k' p) (znth 0 d (a - s))) /\
    (forall a p, a < s \/ s + zlen d <= a -> place_of c a = Some p -> content k' p = content k p) /\
    same_rest k k'.
Proof. exact write_changes. Qed.
Print Assumptions C09_write_changes_exactly_the_addressed_registers.

Theorem C09_cache_holds_last_write :
  forall cfg ww c ops o, core_ok cfg ww c -> 0 <= o < k_cache c ->
    is_int32_of (content (core_run c (core_init c) ops) (PCache o)) (last_cached c (rev ops) o).
Proof. intros cfg ww c ops o OK. exact (cache_history cfg ww c OK ops o). Qed.
Print Assumptions C09_cache_holds_last_write.

(** Two units of 2 rows: inputs 0-3, outputs 4-7, cache 8-15. *)
Example C09_case :
  core_ok mixed_cfg 4 (pair_core 1 1) /\
  map (place_of (pair_core 1 1)) [-1; 0; 3; 4; 7; 8; 15; 16] =
    [None; Some (PIn 0 0); Some (PIn 1 1); Some (POut 0 0); Some (POut 1 1); Some (PCache 0); Some (PCache 7); None] /\
  (let k := core_run (pair_core 1 1) (core_init (pair_core 1 1)) [KWrite 2 [7; 9]; KWrite 10 [1; 2; 3]; KWrite 11 [2 ^ 31]] in
   map (content k) [PIn 0 1; PIn 1 0; PIn 1 1; PCache 1; PCache 2; PCache 3; PCache 4] = [0; 7; 9; 0; 1; - 2 ^ 31; 3]).
Proof. split; [apply pair_ok|]. vm_compute. auto. Qed.

(** C10 (output registers cannot be written and input registers cannot be read). *)
Theorem C10_outputs_never_written :
  forall cfg ww c k s d, core_ok cfg ww c -> core_reached c k ->
    forall u o, content (snd (write_to_register c k s d)) (POut u o) = content k (POut u o).
Proof. exact write_unchanged_outputs. Qed.
Print Assumptions C10_outputs_never_written.

Theorem C10_write_accepted_iff :
  forall cfg ww c k s d, core_ok cfg ww c -> core_reached c k -> 0 < zlen d ->
    (all_cache c s (zlen d) \/ one_input c s (zlen d) -> exists k', write_to_register c k s d = (Ok tt, k')) /\
    (~ (all_cache c s (zlen d) \/ one_input c s (zlen d)) -> write_to_register c k s d = (Raise IndexError, k)).
Proof. intros cfg ww c k s d OK. exact (write_decided cfg ww c OK k s d). Qed.
Print Assumptions C10_write_accepted_iff.

Theorem C10_empty_write_changes_nothing :
  forall cfg ww c k s, core_ok cfg ww c -> core_reached c k ->
    forall a p, place_of c a = Some p -> content (snd (write_to_register c k s [])) p = content k p.
Proof. exact write_empty. Qed.
Print Assumptions C10_empty_write_changes_nothing.

Theorem C10_read_accepted_iff :
  forall cfg ww c k s l, core_ok cfg ww c -> core_reached c k -> 0 < l ->
    (all_cache c s l \/ one_output c s l ->
       exists v k', read_from_register c k s l = (Ok v, k') /\ zlen v = l /\
         forall i p, 0 <= i < l -> place_of c (s + i) = Some p -> znth 0 v i = visible c k p) /\
    (~ (all_cache c s l \/ one_output c s l) -> read_from_register c k s l = (Raise IndexError, k)).
Proof. intros cfg ww c k s l OK. exact (read_decided cfg ww c OK k s l). Qed.
Print Assumptions C10_read_accepted_iff.

Theorem C10_reads_never_show_inputs :
  forall cfg ww c k s l v k', core_ok cfg ww c -> core_reached c k -> 0 < l ->
    read_from_register c k s l = (Ok v, k') ->
    zlen v = l /\ (forall a p, s <= a < s + l -> place_of c a = Some p ->
       (forall u o, p <> PIn u o) /\ znth 0 v (a - s) = visible c k p).
Proof. exact read_visible. Qed.
Print Assumptions C10_reads_never_show_inputs.

Theorem C10_reads_change_no_register :
  forall cfg ww c k s l, core_ok cfg ww c -> core_reached c k ->
    (forall p, content (snd (read_from_register c k s l)) p = content k p) /\
    same_rest k (snd (read_from_register c k s l)).
Proof. exact read_unchanged. Qed.
Print Assumptions C10_reads_change_no_register.

(** With no matrix unit the overlap test rejects a write that starts at the first cache cell. *)
Theorem C10_no_units_refuted :
  exists c k, 0 < c_size (k_mv c) /\ core_reached c k /\ all_cache c 0 1 /\
    write_to_register c k 0 [7] = (Raise IndexError, k).
Proof. exact bare_refuted. Qed.
Print Assumptions C10_no_units_refuted.

Example C10_case :
  let c := pair_core 1 1 in let k := core_init c in
  map (fun p => fst (write_to_register c k (fst p) (snd p)))
    [(0, [1; 2]); (1, [1; 2]); (3, [1; 2]); (7, [1; 2]); (8, [1; 2]); (15, [1; 2])] =
    [Ok tt; Raise IndexError; Raise IndexError; Raise IndexError; Ok tt; Raise IndexError] /\
  map (fun p => fst (read_from_register c k (fst p) (snd p))) [(3, 1); (4, 2); (5, 2); (7, 2); (8, 2); (-1, 1)] =
    [Raise IndexError; Ok [0; 0]; Raise IndexError; Raise IndexError; Ok [0; 0]; Raise IndexError].
Proof. vm_compute. auto. Qed.

(** C14 (a failing vector operation has no effect), at the core: the registers, the weights and the
    counters of the vector unit are unchanged when the vector unit fails; for any failure of the
    instruction the registers and weights are unchanged. *)
Theorem C14_core_vfu_failure :
  forall cfg ww c k op dest r1 r2 vec a b, core_ok cfg ww c -> core_reached c k ->
    fst (read_from_register c k r1 vec) = Ok a ->
    (forall r, r2 = Some r -> exists v, fst (read_from_register c k r vec) = Ok v /\ b = Some v) ->
    (r2 = None -> b = None) ->
    succeeds op a b = false ->
    exists e k', exec_local c k (CVfu op dest r1 r2 vec) = (Raise e, k') /\
      (forall p, content k' p = content k p) /\ same_rest k k'.
Proof. exact vfu_failure_wrap. Qed.
Print Assumptions C14_core_vfu_failure.

Theorem C14_core_any_failure :
  forall cfg ww c k op dest r1 r2 vec e k', core_ok cfg ww c -> core_reached c k ->
    exec_local c k (CVfu op dest r1 r2 vec) = (Raise e, k') ->
    (forall p, content k' p = content k p) /\ Forall2 same_cells (co_mvmus k) (co_mvmus k').
Proof. intros cfg ww c k op dest r1 r2 vec e k' OK. exact (vfu_failure_effect cfg ww c OK k op dest r1 r2 vec e k'). Qed.
Print Assumptions C14_core_any_failure.

Example C14_core_case :
  let c := pair_core 1 1 in
  let k := core_run c (core_init c) [KWrite 8 [6; 4; 2; 0]] in
  fst (exec_local c k (CVfu Vdiv 12 8 (Some 10) 2)) = Raise ZeroDivisionError /\
  map (content (snd (exec_local c k (CVfu Vdiv 12 8 (Some 10) 2)))) [PCache 4; PCache 5] = [0; 0] /\
  fst (exec_local c k (CVfu Vadd 3 8 (Some 10) 2)) = Raise IndexError.
Proof. vm_compute. auto. Qed.

(** C22 (no other matrix unit changes): a multiply instruction multiplies each unit as often as it
    is named and changes nothing else. *)
Theorem C22_other_units :
  forall c k xs k' j u, core_reached c k -> exec_local c k (CMvm xs) = (Ok tt, k') ->
    nth_error (co_mvmus k) j = Some u ->
    nth_error (co_mvmus k') j = Some (Nat.iter (count_occ Z.eq_dec xs (Z.of_nat j)) (execute_mvm (k_mv c)) u) /\
    co_cache k' = co_cache k /\ co_vfu k' = co_vfu k.
Proof. exact mvm_units. Qed.
Print Assumptions C22_other_units.

Example C22_core_case :
  let c := pair_core 1 1 in
  let k := core_run c pair_state [KWrite 2 [5; 3]; KWrite 0 [1; 1]] in
  let k' := snd (exec_local c k (CMvm [1])) in
  fst (exec_local c k (CMvm [1])) = Ok tt /\
  map (content k') [PIn 0 0; POut 0 0; PIn 1 0; POut 1 0; POut 1 1] = [1; 0; 0; -12; 5] /\
  fst (exec_local c k (CMvm [0; 2])) = Raise IndexError.
Proof. vm_compute. auto. Qed.

(** C23 (reading outputs discards the weight fraction bits by flooring), through register
    addresses. *)
Theorem C23_core_output_read :
  forall cfg ww c k s l u, core_ok cfg ww c -> core_reached c k -> 0 < l ->
    (forall a, s <= a < s + l -> exists o, place_of c a = Some (POut u o)) ->
    exists v k', read_from_register c k s l = (Ok v, k') /\ zlen v = l /\
      (forall a o, s <= a < s + l -> place_of c a = Some (POut u o) ->
         znth 0 v (a - s) = content k (POut u o) / 2 ^ c_weight_frac (k_mv c)) /\
      (forall p, content k' p = content k p).
Proof. exact output_read. Qed.
Print Assumptions C23_core_output_read.

Example C23_core_case :
  let c := pair_core 1 1 in
  let k := core_run c pair_state [KWrite 2 [5; 4]; KMvm [1]] in
  map (content k) [POut 1 0; POut 1 1] = [-26; 10] /\ fst (read_from_register c k 6 2) = Ok [-13; 5].
Proof. vm_compute. auto. Qed.

(** C30 (vector latency is the ALU latency times the number of ALU passes): true for unit latency,
    refuted in general; the actual value lies less than one latency above. *)
Theorem C30_unit_latency :
  forall c op dest r1 r2 v t, 0 < k_alus c -> k_alu_lat c = 1 -> is_ceil t v (k_alus c) ->
    exec_time c (CVfu op dest r1 r2 v) = Ok (k_alu_lat c * t).
Proof. exact vfu_time_one. Qed.
Print Assumptions C30_unit_latency.

Theorem C30_latency_refuted :
  exists c op dest r1 r2 v t, 0 < k_alus c /\ 0 <= v /\ is_ceil t v (k_alus c) /\
    exec_time c (CVfu op dest r1 r2 v) <> Ok (k_alu_lat c * t).
Proof. exact vfu_time_refuted. Qed.
Print Assumptions C30_latency_refuted.

Theorem C30_latency_bounds :
  forall c op dest r1 r2 v t, 0 < k_alus c -> 0 <= k_alu_lat c -> is_ceil t v (k_alus c) ->
    exists x, exec_time c (CVfu op dest r1 r2 v) = Ok x /\
      k_alu_lat c * t <= x /\ (0 < k_alu_lat c -> x < k_alu_lat c * (t + 1)).
Proof. exact vfu_time_bounds. Qed.
Print Assumptions C30_latency_bounds.

Example C30_case :
  is_ceil 3 5 2 /\ exec_time (pair_core 1 2) (CVfu Vadd 0 0 None 5) = Ok 3 /\
  exec_time (pair_core 3 2) (CVfu Vadd 0 0 None 4) = Ok 7 /\ is_ceil 2 4 2.
Proof. unfold is_ceil. cbn. repeat split; discriminate || reflexivity. Qed.

(** C58 (a copy, a multiply and a rectifier compute a network layer): the program
    copy; mvm; relu on unit i computes relu (W x) in fixed point, for every machine history in
    which the unit was loaded with W. *)
Theorem C58_layer :
  forall cfg ww c k i W u a b, core_ok cfg ww c ->
    core_reached c k -> 0 <= i < k_mvmus c -> nth_error (co_mvmus k) (Z.to_nat i) = Some u ->
    ideal cfg (k_mv c) -> c_dac_res (k_mv c) = 1 -> loaded (k_mv c) W u ->
    0 <= a -> a + c_size (k_mv c) <= k_cache c -> 0 <= b -> b + c_size (k_mv c) <= k_cache c ->
    0 <= v_width (k_vfu c) ->
    let n := c_size (k_mv c) in
    let frac := c_weight_frac (k_mv c) in
    let x := map (fun j => content k (PCache (a + j))) (zrange n) in
    Forall (fun row => no_saturation (k_mv c) cfg row x) W ->
    Forall (fun z => 0 <= z < 2 ^ c_act_width (k_mv c)) x ->
    Forall (Forall (fun w => weight_mag frac w < 2 ^ ww)) W ->
    exists k', exec_all c k (layer_program c i a b) = (Ok tt, k') /\
      (forall j, 0 <= j < n ->
         clamped (v_width (k_vfu c))
           (Z.max 0 (wrap32 (dot (map (fixed_weight frac) (znth [] W j)) x) / 2 ^ frac))
           (content k' (PCache (b + j)))) /\
      (forall o, 0 <= o < k_cache c -> o < b \/ b + n <= o -> content k' (PCache o) = content k (PCache o)).
Proof. intros cfg ww c k i W u a b OK. exact (layer cfg ww c OK k i W u a b). Qed.
Print Assumptions C58_layer.

(** Weights [3 -7; -1 5/2] in Q3.1, inputs 5, 3. *)
Example C58_case :
  core_ok mixed_cfg 4 (pair_core 1 1) /\ core_reached (pair_core 1 1) pair_state /\
  (exists u, nth_error (co_mvmus pair_state) 1 = Some u /\ loaded mixed mixed_w u) /\
  map (fun j => content pair_state (PCache (1 + j))) (zrange 2) = [5; 3] /\
  (let r := exec_all (pair_core 1 1) pair_state (layer_program (pair_core 1 1) 1 1 5) in
   fst r = Ok tt /\ map (fun j => content (snd r) (PCache j)) (zrange 8) = [0; 5; 3; 0; 0; 0; 2; 0]).
Proof. exact pair_layer. Qed.

(** C62 (register instructions compute what they say): on readable operands and a writable
    destination set, copy and the vector instructions succeed, the destination registers receive
    the immediate, the visible source or the exact clamped result of the visible operands, and no
    other register and no weight changes. *)
Theorem C62_set :
  forall cfg ww c k dest imm vec, core_ok cfg ww c -> core_reached c k -> 0 < vec -> writable c dest vec ->
    exists k', exec_local c k (CSet dest imm vec) = (Ok tt, k') /\ co_vfu k' = co_vfu k /\
      stored c k k' dest vec (fun _ v => is_int32_of v imm).
Proof. intros cfg ww c k dest imm vec OK. exact (set_good cfg ww c OK k dest imm vec). Qed.
Print Assumptions C62_set.

Theorem C62_copy :
  forall cfg ww c k dest read vec, core_ok cfg ww c -> core_reached c k -> 0 < vec -> readable c read vec -> writable c dest vec ->
    exists k', exec_local c k (CCopy dest read vec) = (Ok tt, k') /\ co_vfu k' = co_vfu k /\
      stored c k k' dest vec (fun i v => forall q, place_of c (read + i) = Some q -> v = visible c k q).
Proof. intros cfg ww c k dest read vec OK. exact (copy_good cfg ww c OK k dest read vec). Qed.
Print Assumptions C62_copy.

Theorem C62_vector :
  forall cfg ww c k op dest r1 r2 vec, core_ok cfg ww c -> core_reached c k -> 0 < vec ->
    0 <= v_width (k_vfu c) -> 0 <= v_frac (k_vfu c) -> arithmetic op = true ->
    readable c r1 vec -> readable c r2 vec -> writable c dest vec ->
    (forall i p q, 0 <= i < vec -> place_of c (r1 + i) = Some p -> place_of c (r2 + i) = Some q ->
       fits (v_frac (k_vfu c)) op (visible c k p) (visible c k q)) ->
    exists k', exec_local c k (CVfu op dest r1 (Some r2) vec) = (Ok tt, k') /\
      stored c k k' dest vec (fun i v => forall p q, place_of c (r1 + i) = Some p -> place_of c (r2 + i) = Some q ->
        exists x y, exact (v_frac (k_vfu c)) op (visible c k p) (visible c k q) x /\ clamped (v_width (k_vfu c)) x y /\ is_int32_of v y).
Proof. intros cfg ww c k op dest r1 r2 vec OK. exact (vector_exact cfg ww c OK k op dest r1 r2 vec). Qed.
Print Assumptions C62_vector.

Theorem C62_vector_unary :
  forall cfg ww c k op dest r1 vec, core_ok cfg ww c -> core_reached c k -> 0 < vec ->
    0 <= v_width (k_vfu c) -> 0 <= v_frac (k_vfu c) -> op = Vnot \/ op = Vrelu ->
    readable c r1 vec -> writable c dest vec ->
    exists k', exec_local c k (CVfu op dest r1 None vec) = (Ok tt, k') /\
      stored c k k' dest vec (fun i v => forall p, place_of c (r1 + i) = Some p ->
        exists x y, exact (v_frac (k_vfu c)) op (visible c k p) 0 x /\ clamped (v_width (k_vfu c)) x y /\ is_int32_of v y).
Proof. intros cfg ww c k op dest r1 vec OK. exact (vector_unary cfg ww c OK k op dest r1 vec). Qed.
Print Assumptions C62_vector_unary.

(** Whatever the operation, a vector instruction that succeeds stores the vector unit's result. *)
Theorem C62_vector_any :
  forall cfg ww c k op dest r1 r2 vec k', core_ok cfg ww c -> core_reached c k -> 0 < vec ->
    exec_local c k (CVfu op dest r1 r2 vec) = (Ok tt, k') ->
    exists a b r, zlen a = vec /\ (forall i, 0 <= i < vec -> exists p, place_of c (r1 + i) = Some p /\ znth 0 a i = visible c k p) /\
      match r2, b with
      | Some r2, Some b => zlen b = vec /\ forall i, 0 <= i < vec -> exists p, place_of c (r2 + i) = Some p /\ znth 0 b i = visible c k p
      | None, None => True
      | _, _ => False
      end /\
      vfu_calculate (k_vfu c) (co_vfu k) op a b = (Ok r, co_vfu k') /\ stored c k k' dest (zlen r) (fun i v => is_int32_of v (znth 0 r i)).
Proof. intros cfg ww c k op dest r1 r2 vec k' OK. exact (vector_any cfg ww c OK k op dest r1 r2 vec k'). Qed.
Print Assumptions C62_vector_any.

(** The cache of the pair is 0 5 3 0 ...: 5 - 3 goes to cell 4, both to the inputs of unit 0. *)
Example C62_case :
  let c := pair_core 1 1 in
  core_reached c pair_state /\
  (let r := exec_all c pair_state [CVfu Vsub 12 9 (Some 10) 1; CSet 13 (-6) 2; CCopy 0 12 2; CVfu Vrelu 15 13 None 1] in
   fst r = Ok tt /\ map (fun j => content (snd r) (PCache j)) (zrange 8) = [0; 5; 3; 0; 2; -6; -6; 0] /\
   map (fun j => content (snd r) (PIn 0 j)) (zrange 2) = [2; -6]).
Proof. split; [exact pair_reached|]. vm_compute. auto. Qed.
