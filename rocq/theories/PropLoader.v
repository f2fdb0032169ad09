(** Properties C49 to C51 and C66 to C68: the loaders. *)
From Verif Require Import PyBase ConfigModel MemoryModel VfuModel FloatModel MvmuModel MvmuExamples CoreModel DramModel RouterModel SystemModel SystemSpec NodeSpec
  LoaderModel LoaderSpec LoaderProofs LoaderWeights LoaderParse LoaderAct LoaderClaims LoaderExamples.
From Coq Require Import Reals Ascii String.
Open Scope Z_scope.

(** ** C49: operations are dispatched to the right unit in file order *)
Theorem C49_dispatch :
  forall x c data, sized c -> Forall (placed c) (valid_ops x data) ->
    exists a, load_operations x (build_architecture c) data = (Ok tt, a) /\ complete c a /\
      (forall n t, is_tile c n t -> at_prog (tile_at a n t) = for_tile c n t (valid_ops x data)) /\
      (forall n t k, is_core c n t k -> core_at c a n t k = (core_init (y_core c), for_core c n t k (valid_ops x data))).
Proof. exact dispatch_ok. Qed.
Print Assumptions C49_dispatch.
(** A second file appends to the programs. *)
Theorem C49_append :
  forall x c data a, complete c a -> Forall (placed c) (valid_ops x data) ->
    exists b, load_operations x a data = (Ok tt, b) /\ with_ops c a (valid_ops x data) b.
Proof. exact load_operations_ok. Qed.
Print Assumptions C49_append.
(** Each operation reaches exactly one program. *)
Theorem C49_once :
  forall c o, placed c o ->
    exists n t, is_tile c n t /\
      match o_instr o with
      | ITile i => for_tile c n t [o] = [i] /\ forall n' t', is_tile c n' t' -> (n', t') <> (n, t) -> for_tile c n' t' [o] = []
      | ICore _ i => exists k, is_core c n t k /\ for_core c n t k [o] = [i] /\
                       forall n' t' k', is_core c n' t' k' -> (n', t', k') <> (n, t, k) -> for_core c n' t' k' [o] = []
      end.
Proof. exact dispatch_once. Qed.
Print Assumptions C49_once.
Example C49_case :
  programs small (snd (load_operations strict (build_architecture small) sample_ops)) =
  [[([], [[]; []]); ([TSend 0 0 1 1], [[]; []])];
   [([], [[CVfu Vrelu 4 4 None 1]; [CSet 4 7 2; CCopy 6 4 2; CHlt]]); ([THalt], [[]; []])]].
Proof. reflexivity. Qed.

(** ** C50: out-of-range unit numbers are rejected *)
(** The first operation that names nothing ends loading with an IndexError; the earlier ones are loaded, the later ones are not. *)
Theorem C50_operations :
  forall x c a pre j post o, complete c a -> Forall (placed c) (valid_ops x pre) -> parse x j = Some o -> ~ placed c o ->
    exists b, load_operations x a (pre ++ j :: post)%list = (Raise IndexError, b) /\ with_ops c a (valid_ops x pre) b.
Proof. exact load_operations_out. Qed.
Print Assumptions C50_operations.
(** An array whose key does not name a unit is skipped. *)
Theorem C50_weights :
  forall c a key w, complete c a -> (forall n t k m, is_unit c n t k m -> ~ key_for key n t k m) -> load_weight_file c a [(key, w)] = a.
Proof. exact foreign_key. Qed.
Print Assumptions C50_weights.
(** Negative numbers count from the end. *)
Theorem C50_negative :
  forall c a o, complete c a -> placed c o ->
    load_op a o = load_op a (MkOp (if o_node o <? 0 then o_node o + w_nodes (y_net c) else o_node o)
                                  (if o_tile o <? 0 then o_tile o + w_tiles (y_net c) else o_tile o)
                                  match o_instr o with ICore k i => ICore (if k <? 0 then k + y_cores c else k) i | i => i end).
Proof. exact load_op_negative. Qed.
Print Assumptions C50_negative.
Theorem C50_refuted :
  exists x c j o, reasonable x /\ sized c /\ parse x j = Some o /\ o_tile o = -1 /\
    exists a, load_operations x (build_architecture c) [j] = (Ok tt, a) /\ at_prog (tile_at a 0 (w_tiles (y_net c) - 1)) = [THalt].
Proof. exact negative_accepted. Qed.
Print Assumptions C50_refuted.
Example C50_case :
  let r := load_operations strict (build_architecture small) [obj "halt" 0 1 []; obj "halt" 2 0 []; obj "halt" 1 1 []] in
  (fst r, programs small (snd r)) = (Raise IndexError, [[([], [[]; []]); ([THalt], [[]; []])]; [([], [[]; []]); ([], [[]; []])]]).
Proof. reflexivity. Qed.

(** ** C51: loading an activation fills exactly the head of the input tile *)
Theorem C51_loaded :
  forall frac v d, 0 <= frac <= 1023 -> fits frac v -> vlen v <= msize (d_mem d) ->
    zlen (cells (d_mem d)) = msize (d_mem d) -> zlen (d_valid d) = msize (d_mem d) ->
    activation_loaded frac v d (load_activation frac v d).
Proof. exact activation_ok. Qed.
Print Assumptions C51_loaded.
Theorem C51_too_long : forall frac v d, msize (d_mem d) < vlen v -> load_activation frac v d = d.
Proof. exact activation_long. Qed.
Print Assumptions C51_too_long.
(** The run of node 0 starts with it in tile 0. *)
Theorem C51_place :
  forall x c ops ws a n frac v now, sized c -> 0 <= n < w_nodes (y_net c) -> construct x c ops ws = Ok a ->
    let s := sys_start c now (job_of a n (fixed_activation frac v)) in
    forall t, on_node c t ->
      t_prog (s_tile s t) = for_tile c n t (valid_ops x ops) /\
      zlen (t_cores (s_tile s t)) = y_cores c /\
      (forall k p, 0 <= k -> nth_error (t_cores (s_tile s t)) (Z.to_nat k) = Some p -> cp_prog p = for_core c n t k (valid_ops x ops)) /\
      t_dram (s_tile s t) = dc_run now (if t =? 0 then load_activation frac (if n =? 0 then v else VInts []) (dram_init (y_size c)) else dram_init (y_size c)).
Proof. exact construct_starts. Qed.
Print Assumptions C51_place.
Example C51_case :
  let d := load_activation 1 (VFloats [fdiv (f_of_Z 3) (f_of_Z 4); fdiv (f_of_Z (-7)) (f_of_Z 4); f_of_Z 5]) (dram_init 5) in
  let d' := load_activation 3 (VInts [-2]) d in
  (cells (d_mem d), d_valid d, cells (d_mem d')) = ([1; -3; 10; 0; 0], [true; true; true; false; false], [-16; -3; 10; 0; 0]).
Proof. vm_compute. reflexivity. Qed.

(** ** C66: operations are parsed as they are written *)
(** An object with the fields of an operation, and any others, is that operation. *)
Theorem C66_described : forall x, reasonable x -> forall l o, describes l o -> parse x (JObj l) = Some o.
Proof. exact describes_parse. Qed.
Print Assumptions C66_described.
Theorem C66_complete :
  forall x l t o, has_field l ("type"%string, JStr t) -> parse x (JObj l) = Some o ->
    In t op_types /\ (forall f, In f (required t) -> field l f <> None).
Proof. exact parse_fields. Qed.
Print Assumptions C66_complete.
Theorem C66_other_fields : forall x l k v, ~ In k known_fields -> parse x (JObj (l ++ [(k, v)])%list) = parse x (JObj l).
Proof. exact parse_extra. Qed.
Print Assumptions C66_other_fields.
(** A misspelt optional field is ignored: the addition has no second operand. *)
Theorem C66_misspelt :
  forall x d r r2 v, reasonable x ->
    parse x (obj "vfu" 0 0 [("core", JInt 0); ("opcode", JStr "add"); ("dest", JInt d); ("read_1", JInt r); ("vec", JInt v); ("read2", JInt r2)]%string)
    = Some (MkOp 0 0 (ICore 0 (CVfu Vadd d r None v))).
Proof. exact misspelt. Qed.
Print Assumptions C66_misspelt.
(** Objects without a type are accepted, whatever pydantic does: a tile number alone is a halt. *)
Theorem C66_untyped_refuted : forall x, reasonable x -> parse x (JObj [("tile"%string, JInt 0)]) = Some (MkOp 0 0 (ITile THalt)).
Proof. exact untyped_halt. Qed.
Print Assumptions C66_untyped_refuted.
(** The fields of a load also fit other operations. *)
Theorem C66_ambiguous :
  exists l x x', reasonable x /\ reasonable x' /\ (forall j, as_int x j = as_int x' j) /\
    parse x (JObj l) = Some (MkOp 0 0 (ICore 1 (CLoad 2 3 1 1))) /\ parse x' (JObj l) = Some (MkOp 0 0 (ITile THalt)).
Proof. exact untyped_ambiguous. Qed.
Print Assumptions C66_ambiguous.
Example C66_case :
  map (parse strict) [obj "mvm" 0 1 [("core", JInt 2); ("xbar", JList [JInt 0; JInt 3])]; obj "mvm" 0 1 [("core", JInt 2); ("xbar", JInt 0)];
                      obj "set" 0 1 [("core", JInt 2); ("dest", JInt 1); ("imm", JInt 5); ("vec", JInt 1)];
                      obj "receive" 0 1 [("mem_addr", JInt 3); ("source_tile", JInt 1); ("width", JInt 2); ("vec", JInt 4)]; JList []]%string
  = [Some (MkOp 0 1 (ICore 2 (CMvm [0; 3]))); None; None; Some (MkOp 0 1 (ITile (TRecv 3 1 2 4))); None].
Proof. reflexivity. Qed.

(** ** C67: weights reach the unit that their key names *)
Theorem C67_keys : forall key n t k m, key_ids key = Some (n, t, k, m) <-> key_for key n t k m.
Proof. exact key_ids_iff. Qed.
Print Assumptions C67_keys.
Theorem C67_file : forall c file a, complete c a -> with_weights c a file (load_weight_file c a file).
Proof. exact load_file_ok. Qed.
Print Assumptions C67_file.
(** Of several arrays for a unit the last one counts, if it can be loaded. *)
Theorem C67_last :
  forall c ws w u, fst (load_weights c u w) = Ok tt -> loaded c (ws ++ [w])%list u = snd (load_weights c u w).
Proof. exact last_wins. Qed.
Print Assumptions C67_last.
Theorem C67_bad : forall c u w, fst (load_weights c u w) <> Ok tt -> snd (load_weights c u w) = u.
Proof. exact bad_array. Qed.
Print Assumptions C67_bad.
(** Different keys can name the same unit. *)
Theorem C67_keys_refuted : key_for "node0_tile1_core0_mvmu0" 0 1 0 0 /\ key_for "node00_tile1_core0_mvmu0" 0 1 0 0 /\ "node0_tile1_core0_mvmu0"%string <> "node00_tile1_core0_mvmu0"%string.
Proof. exact two_keys. Qed.
Print Assumptions C67_keys_refuted.
Example C67_case :
  map key_ids ["node1_tile12_core0_mvmu3"; "node1_tile12_core0_mvmu3x"; "node1_tile_core0_mvmu3"; "Node1_tile1_core0_mvmu3"; "node-1_tile1_core0_mvmu3"]%string
  = [Some (1, 12, 0, 3); None; None; None; None].
Proof. reflexivity. Qed.
Example C67_case_file :
  let w a b := [[f_of_Z a; f_of_Z 0]; [f_of_Z 0; f_of_Z b]] in
  let a := load_weight_file small (build_architecture small)
             [("node1_tile0_core1_mvmu0", w 1 (-1)); ("node1_tile0_core1_mvmu1", w 1 1); ("node1_tile0_core1_mvmu0", w (-1) 1); ("node0_tile0_core0_mvmu0", [[f0]])]%string in
  unit_at small a 1 0 1 0 = snd (load_weights sram3 (mvmu_init sram3) (w (-1) 1)) /\
  unit_at small a 1 0 0 0 = mvmu_init sram3 /\ unit_at small a 0 0 0 0 = mvmu_init sram3 /\
  unit_at small a 1 0 1 0 <> mvmu_init sram3.
Proof. vm_compute. repeat split. discriminate. Qed.

(** ** C68: the loaders prepare what a run needs *)
Theorem C68_accepts : forall x c ops ws, sized c -> (exists a, construct x c ops ws = Ok a) <-> Forall (placed c) (valid_ops x ops).
Proof. exact construct_iff. Qed.
Print Assumptions C68_accepts.
Theorem C68_error : forall x c ops ws e, sized c -> construct x c ops ws = Raise e -> e = IndexError.
Proof. exact construct_fails. Qed.
Print Assumptions C68_error.
Theorem C68_contents :
  forall x c ops ws a, sized c -> construct x c ops ws = Ok a ->
    complete c a /\
    (forall n t, is_tile c n t -> at_prog (tile_at a n t) = for_tile c n t (valid_ops x ops)) /\
    (forall n t k, is_core c n t k ->
       snd (core_at c a n t k) = for_core c n t k (valid_ops x ops) /\
       co_cache (fst (core_at c a n t k)) = mem_init (k_cache (y_core c)) /\ co_vfu (fst (core_at c a n t k)) = vstats0) /\
    (forall n t k m arrays, is_unit c n t k m -> arrays_for n t k m ws arrays ->
       unit_at c a n t k m = loaded (k_mv (y_core c)) arrays (mvmu_init (k_mv (y_core c)))).
Proof. exact construct_ok. Qed.
Print Assumptions C68_contents.
(** The hypothesis of the theorems about repeated runs (C52, C57) is met. *)
Theorem C68_fresh :
  forall x c ops ws a n act, sized c -> 0 <= k_cache (y_core c) -> 0 <= c_size (k_mv (y_core c)) -> 0 <= n < w_nodes (y_net c) ->
    construct x c ops ws = Ok a -> fresh_job c (job_of a n act).
Proof. exact construct_fresh. Qed.
Print Assumptions C68_fresh.
Example C68_case :
  match construct strict small sample_ops [] with
  | Ok a => (j_prog (job_of a 1 []) 1, map snd (j_cores (job_of a 1 []) 0)) = ([THalt], [[CVfu Vrelu 4 4 None 1]; [CSet 4 7 2; CCopy 6 4 2; CHlt]])
  | Raise _ => False
  end.
Proof. reflexivity. Qed.
