(** mvmu.py and blocks/{dac,rram_xbar,sram_cim_unit,snh,mux,adc,sna}.py. *)
From Verif Require Import PyBase DataConvert ConfigModel FloatModel MemoryModel.
Open Scope Z_scope.

(** Everything a matrix unit reads from the configuration.
    [c_dot] is the order in which numpy evaluates the float64 sums of blocks/rram_xbar.py:94-95.
    Simplifications: has_noise = False here (NoiseModel.v has the other case); lat values are
    integers. *)
Record mvmu_cfg := MkMvmuCfg {
  c_size : Z;              (* xbar_size *)
  c_cols : Z;              (* num_columns_per_adc *)
  c_storage : storage;     (* derived by Config.validate_and_calculate *)
  c_dac_res : Z; c_adc_res : Z;
  c_dac_lat : Z; c_adc_lat : Z;
  c_adc_differential : bool;
  c_act_width : Z; c_weight_frac : Z;
  c_vdd : f64; c_gmin : f64; c_gmax : f64;
  c_dot : list f64 -> list f64 -> f64 }.

(** MVMUConfig.num_adc_per_xbar: config.py:600. *)
Definition c_num_adc (c : mvmu_cfg) : Z := c_size c / c_cols c.
Definition c_num_xbar (c : mvmu_cfg) : Z := num_sram (c_storage c) + num_rram (c_storage c).

(** Counters of the analog and digital blocks.  The accumulated float conversion error of the ADC
    (blocks/adc.py:99,106,114) is in AdcModel. *)
Record mv_stats := MkMvStats {
  dac_conversions : Z; dac_active_cycles : Z;
  rram_mvm_operations : Z;
  snh_pos_samples : Z; snh_neg_samples : Z;
  mux_pos_selections : Z; mux_neg_selections : Z;
  adc_conversions : Z; adc_overflow_times : Z; adc_active_cycles : Z;
  sram_mac_operations : Z;
  mux_sram_selections : Z;
  sna_operations : Z }.
Definition mv_stats0 : mv_stats := MkMvStats 0 0 0 0 0 0 0 0 0 0 0 0 0.

(** MVMU: mvmu.py:25-68.  Matrices are indexed crossbar, row, column. *)
Record mvmu := MkMvmu {
  mv_in : inreg; mv_out : outreg;
  rram_pos : list (list (list f64)); rram_neg : list (list (list f64));
  sram_pos : list (list (list Z)); sram_neg : list (list (list Z));
  mv_stat : mv_stats }.

Definition zeros {A} (z : A) (k n : Z) : list (list (list A)) :=
  repeat (repeat (repeat z (Z.to_nat n)) (Z.to_nat n)) (Z.to_nat k).

(** MVMU.__init__: mvmu.py:25-68, blocks/rram_xbar.py:46-47, blocks/sram_cim_unit.py:50-51. *)
Definition mvmu_init (c : mvmu_cfg) : mvmu :=
  MkMvmu (inreg_init (c_size c)) (outreg_init (c_size c))
    (zeros f0 (num_rram (c_storage c)) (c_size c)) (zeros f0 (num_rram (c_storage c)) (c_size c))
    (zeros 0 (num_sram (c_storage c)) (c_size c)) (zeros 0 (num_sram (c_storage c)) (c_size c))
    mv_stats0.

(** Element-wise maps over a matrix, with exceptions (np.vectorize). *)
Fixpoint map_res {A B} (f : A -> res B) (l : list A) : res (list B) :=
  match l with
  | [] => Ok []
  | x :: t => match f x with
              | Raise e => Raise e
              | Ok y => match map_res f t with Raise e => Raise e | Ok ys => Ok (y :: ys) end
              end
  end.
Definition map2d {A B} (f : A -> B) (m : list (list A)) : list (list B) := map (map f) m.
Definition map2d_res {A B} (f : A -> res B) (m : list (list A)) : res (list (list B)) :=
  map_res (map_res f) m.
Definition zip2d {A B C} (f : A -> B -> C) (m1 : list (list A)) (m2 : list (list B)) : list (list C) :=
  map (fun p => map (fun q => f (fst q) (snd q)) (combine (fst p) (snd p))) (combine m1 m2).

(** Shape check weights.shape != (n, n). *)
Definition is_square {A} (n : Z) (m : list (list A)) : bool :=
  (zlen m =? n) && forallb (fun r => zlen r =? n) m.

(** int_weights of mvmu.py:88: np.vectorize gives an int64 array, a larger magnitude raises.  Simplification: np.vectorize takes the type
    from its first result; if this needs 64 bits or more the type is another one, which is not modelled. *)
Definition to_fixed_int64 (frac : Z) (w : f64) : res Z :=
  match float_to_fixed (fabs w) frac with
  | Raise e => Raise e
  | Ok v => if v <? 2 ^ 63 then Ok v else Raise OverflowError
  end.

(** Loop body of mvmu.py:98-120 for crossbar k: the float weights of an RRAM crossbar, or the
    integer weights of an SRAM crossbar. *)
Inductive xbar_weights := XRram (m : list (list f64)) | XSram (m : list (list Z)).

(** signs * xbar_int_weights assigned into int8 (mvmu.py:119): the sign is -1, 0 or 1 here. *)
Definition sign_Z (w : f64) : Z := fnearest (fsign w).

Definition load_xbar (c : mvmu_cfg) (weights : list (list f64)) (int_weights : list (list Z)) (k : nat)
  : res xbar_weights :=
  let s := c_storage c in
  match map2d_res (fun v => extract_bits v (nth k (stored_bit s) 0) (nth (S k) (stored_bit s) 0)) int_weights with
  | Raise e => Raise e
  | Ok sl =>
      if nth k (is_xbar_rram s) false then
        match map2d_res (fun v => int_to_conductance v (nth k (bits_per_cell s) 0) (c_gmin c) (c_gmax c)) sl with
        | Raise e => Raise e
        | Ok g => Ok (XRram (zip2d (fun w x => fmul (fsign w) x) weights g))
        end
      else Ok (XSram (zip2d (fun w x => sign_Z w * x) weights sl))
  end.

Definition rram_of (l : list xbar_weights) : list (list (list f64)) :=
  flat_map (fun x => match x with XRram m => [m] | XSram _ => [] end) l.
Definition sram_of (l : list xbar_weights) : list (list (list Z)) :=
  flat_map (fun x => match x with XSram m => [m] | XRram _ => [] end) l.

(** MVMU.load_weights: mvmu.py:73-126, with blocks/rram_xbar.py:52-60 and
    blocks/sram_cim_unit.py:58-67. *)
Definition load_weights (c : mvmu_cfg) (u : mvmu) (weights : list (list f64)) : res unit * mvmu :=
  if negb (is_square (c_size c) weights) then (Raise ValueError, u)
  else
    match map2d_res (to_fixed_int64 (c_weight_frac c)) weights with
    | Raise e => (Raise e, u)
    | Ok int_weights =>
        match map_res (load_xbar c weights int_weights) (seq 0 (Z.to_nat (c_num_xbar c))) with
        | Raise e => (Raise e, u)
        | Ok xs =>
            let rw := rram_of xs in
            let sw := sram_of xs in
            (Ok tt,
             MkMvmu (mv_in u) (mv_out u)
               (if have_rram (c_storage c) then map (map2d fmax0) rw else rram_pos u)
               (if have_rram (c_storage c) then map (map2d (fun x => fmax0 (fopp x))) rw else rram_neg u)
               (if have_sram (c_storage c) then map (map2d (fun x => if x =? 1 then 1 else 0)) sw else sram_pos u)
               (if have_sram (c_storage c) then map (map2d (fun x => if x =? -1 then 1 else 0)) sw else sram_neg u)
               (mv_stat u))
        end
    end.

(** DACArray.convert: blocks/dac.py:51-70 (element). *)
Definition dac_convert (c : mvmu_cfg) (d : Z) : f64 :=
  let max_value := Z.shiftl 1 (c_dac_res c) - 1 in
  fmul (fclip01 (fdiv (f_of_Z d) (f_of_Z max_value))) (c_vdd c).

(** ADCArray.current_step of the crossbar with the given bits per cell: blocks/adc.py:61-75. *)
Definition adc_step (c : mvmu_cfg) (bits : Z) : f64 :=
  let voltage_step := fdiv (c_vdd c) (f_of_Z (2 ^ c_dac_res c - 1)) in
  let conductance_range := fsub (c_gmax c) (c_gmin c) in
  let conductance_steps := fdiv conductance_range (f_of_Z (2 ^ bits - 1)) in
  fmul voltage_step conductance_steps.

(** The integer before clamping: blocks/adc.py:93-98 (element). *)
Definition adc_int (step pos neg : f64) : Z := np_rint (fdiv pos step) - np_rint (fdiv neg step).

(** max_value: blocks/adc.py:49. *)
Definition adc_max (c : mvmu_cfg) : Z := Z.shiftl 1 (c_adc_res c) - 1.

(** blocks/adc.py:109 *)
Definition adc_clip (c : mvmu_cfg) (v : Z) : Z := clipZ (- adc_max c) (adc_max c) v.

(** blocks/adc.py:102-103 *)
Definition adc_overflows (c : mvmu_cfg) (v : Z) : bool := (adc_max c <? v) || (v <? - adc_max c).

(** Size of the ADC array: blocks/adc.py:53-59. *)
Definition adc_size (c : mvmu_cfg) : Z :=
  num_rram (c_storage c) * c_num_adc c * (if c_adc_differential c then 1 else 2).

(** ADCArray.convert: blocks/adc.py:80-117.  Rows are the RRAM crossbars, [steps] their current
    steps.  Returns the clipped values and the counters. *)
Definition count_true {A} (f : A -> bool) (l : list A) : Z := zlen (filter f l).
Definition adc_convert (c : mvmu_cfg) (steps : list f64) (pos neg : list (list f64)) (st : mv_stats)
  : list (list Z) * mv_stats :=
  let ints := map (fun q => map (fun p => adc_int (fst q) (fst p) (snd p)) (combine (fst (snd q)) (snd (snd q))))
                  (combine steps (combine pos neg)) in
  let overflow_count := zsum (map (count_true (adc_overflows c)) ints) in
  (map2d (adc_clip c) ints,
   MkMvStats (dac_conversions st) (dac_active_cycles st) (rram_mvm_operations st)
     (snh_pos_samples st) (snh_neg_samples st) (mux_pos_selections st) (mux_neg_selections st)
     (adc_conversions st + adc_size c) (adc_overflow_times st + overflow_count)
     (adc_active_cycles st + c_adc_lat c)
     (sram_mac_operations st) (mux_sram_selections st) (sna_operations st)).

(** bits_per_cell of the RRAM crossbars: blocks/adc.py:63-66. *)
Definition rram_bits (s : storage) : list Z :=
  map fst (filter snd (combine (bits_per_cell s) (is_xbar_rram s))).

(** MuxArray.select: blocks/mux.py:55-70: row-major reshape, then [:, :, index]. *)
Definition mux_select {A} (c : mvmu_cfg) (d : A) (input : list (list A)) (index : Z) : list (list A) :=
  map (fun row => map (fun m => znth d row (m * c_cols c + index)) (zrange (c_num_adc c))) input.

(** einsum of integers: blocks/sram_cim_unit.py:91-94, int32 accumulation. *)
Definition sram_row (pos neg input : list Z) : Z :=
  wrap32 (wrap32 (dot pos input) - wrap32 (dot neg input)).

(** Merging of the crossbar outputs: mvmu.py:177-191.  Simplification: the float64 temporary of the
    mixed case is modelled by integers (exact below 2^53). *)
Definition scatter_rows (rows : list (list Z)) (idx : list Z) (vals : list (list Z)) : list (list Z) :=
  fold_left (fun rs iv => upd rs (Z.to_nat (fst iv)) (snd iv)) (combine idx vals) rows.
Definition merge_outputs (c : mvmu_cfg) (adc_output sram_output : list (list Z)) : list (list Z) :=
  let s := c_storage c in
  if negb (have_sram s) then adc_output
  else if negb (have_rram s) then sram_output
  else
    let z := repeat (repeat 0 (Z.to_nat (c_num_adc c))) (Z.to_nat (c_num_xbar c)) in
    scatter_rows (scatter_rows z (rram_to_output_map s) adc_output) (sram_to_output_map s) sram_output.

(** SNAArray.calculate: blocks/sna.py:49-88, one ADC position: int64 arithmetic on the column of
    all crossbars. *)
Definition sna_sum (positions column : list Z) : Z :=
  fold_left (fun acc pv => wrap64 (acc + wrap64 (Z.shiftl (snd pv) (fst pv)))) (combine positions column) 0.
Definition sna_calculate (c : mvmu_cfg) (input : list (list Z)) (current : list Z) (bits : Z) : list Z :=
  map (fun m => wrap64 (wrap64 (Z.shiftl (sna_sum (stored_bit (c_storage c))
                                            (map (fun row => znth 0 row m) input)) bits)
                        + znth 0 current m))
      (zrange (c_num_adc c)).

(** The mask of mvmu.py:194: np.arange(j, n, c). *)
Definition adc_mask (c : mvmu_cfg) (j : Z) : list Z :=
  map (fun m => j + m * c_cols c) (zrange (c_num_adc c)).

(** Counter updates of one input slice: blocks/dac.py:67-68, blocks/rram_xbar.py:98,
    blocks/snh.py:52, blocks/sram_cim_unit.py:97-99. *)
Definition count_slice (c : mvmu_cfg) (st : mv_stats) : mv_stats :=
  let s := c_storage c in
  let r (x : Z) := if have_rram s then x else 0 in
  let q (x : Z) := if have_sram s then x else 0 in
  MkMvStats (dac_conversions st + r (c_size c)) (dac_active_cycles st + r (c_dac_lat c))
    (rram_mvm_operations st + r (num_rram s * 2))
    (snh_pos_samples st + r (num_rram s * c_size c)) (snh_neg_samples st + r (num_rram s * c_size c))
    (mux_pos_selections st) (mux_neg_selections st)
    (adc_conversions st) (adc_overflow_times st) (adc_active_cycles st)
    (sram_mac_operations st + q (num_sram s * 2 * c_size c))
    (mux_sram_selections st) (sna_operations st).

(** Counter updates of one mux position: blocks/mux.py:68, blocks/sna.py:86. *)
Definition count_column (c : mvmu_cfg) (st : mv_stats) : mv_stats :=
  let s := c_storage c in
  let r (x : Z) := if have_rram s then x else 0 in
  let q (x : Z) := if have_sram s then x else 0 in
  MkMvStats (dac_conversions st) (dac_active_cycles st) (rram_mvm_operations st)
    (snh_pos_samples st) (snh_neg_samples st)
    (mux_pos_selections st + r (num_rram s * c_num_adc c))
    (mux_neg_selections st + r (num_rram s * c_num_adc c))
    (adc_conversions st) (adc_overflow_times st) (adc_active_cycles st)
    (sram_mac_operations st)
    (mux_sram_selections st + q (num_sram s * c_num_adc c))
    (sna_operations st + (c_num_xbar c * c_num_adc c + c_num_adc c)).

(** Loop body of mvmu.py:163-201 for mux position j. *)
Definition mvm_column (c : mvmu_cfg) (i : Z) (xpos xneg : list (list f64)) (sout : list (list Z))
  (acc : outreg * mv_stats) (j : Z) : outreg * mv_stats :=
  let '(out, st) := acc in
  let s := c_storage c in
  let '(adc_output, st1) :=
    if have_rram s
    then adc_convert c (map (adc_step c) (rram_bits s)) (mux_select c f0 xpos j) (mux_select c f0 xneg j) st
    else ([], st) in
  let sram_output := if have_sram s then mux_select c 0 sout j else [] in
  let calculation_output := merge_outputs c adc_output sram_output in
  let mask := adc_mask c j in
  match outreg_read out mask with
  | (Ok current_output, out1) =>
      let sna_output := sna_calculate c calculation_output current_output i in
      (snd (outreg_write out1 sna_output mask), count_column c st1)
  | (Raise _, out1) => (out1, st1)   (* unreachable: the mask is in range *)
  end.

(** Loop body of mvmu.py:141-201 for input slice i. *)
Definition mvm_slice (c : mvmu_cfg) (u : mvmu) (i : Z) : mvmu :=
  let s := c_storage c in
  let '(d, in1) := inreg_read (mv_in u) (c_dac_res c) in
  let v := map (dac_convert c) d in
  let xpos := map (map (fun row => c_dot c row v)) (rram_pos u) in
  let xneg := map (map (fun row => c_dot c row v)) (rram_neg u) in
  let sout := map (fun pn => map (fun q => sram_row (fst q) (snd q) d) (combine (fst pn) (snd pn)))
                  (combine (sram_pos u) (sram_neg u)) in
  let '(out, st) := fold_left (mvm_column c i xpos xneg sout) (zrange (c_cols c))
                      (mv_out u, count_slice c (mv_stat u)) in
  MkMvmu in1 out (rram_pos u) (rram_neg u) (sram_pos u) (sram_neg u) st.

(** num_iterations: mvmu.py:140, int(np.ceil(width / resolution)) as an exact ceiling
    (the float quotient is exact enough for widths and resolutions below 2^26). *)
Definition num_iterations (c : mvmu_cfg) : Z := (c_act_width c + c_dac_res c - 1) / c_dac_res c.

(** MVMU.execute_mvm: mvmu.py:128-201. *)
Definition execute_mvm (c : mvmu_cfg) (u : mvmu) : mvmu :=
  let u0 := MkMvmu (mv_in u) (outreg_clean (mv_out u)) (rram_pos u) (rram_neg u)
              (sram_pos u) (sram_neg u) (mv_stat u) in
  fold_left (mvm_slice c) (zrange (num_iterations c)) u0.

(** MVMU.write_to_inreg: mvmu.py:203-205. *)
Definition write_to_inreg (u : mvmu) (start : Z) (value : list Z) : res unit * mvmu :=
  let '(r, i) := inreg_write (mv_in u) value start in
  (r, MkMvmu i (mv_out u) (rram_pos u) (rram_neg u) (sram_pos u) (sram_neg u) (mv_stat u)).

(** MVMU.read_from_outreg: mvmu.py:207-217. *)
Definition read_from_outreg (c : mvmu_cfg) (u : mvmu) (start length : Z) : res (list Z) * mvmu :=
  let indices := map (fun k => start + k) (zrange length) in
  let '(r, o) := outreg_read (mv_out u) indices in
  (match r with Ok l => Ok (map (fun x => Z.shiftr x (c_weight_frac c)) l) | Raise e => Raise e end,
   MkMvmu (mv_in u) o (rram_pos u) (rram_neg u) (sram_pos u) (sram_neg u) (mv_stat u)).

(** MVMU.reset: mvmu.py:219-230.  Without RRAM crossbars the attribute rram_xbar_array does not
    exist and the first statement raises.  The SRAM counters are not reset. *)
Definition mvmu_reset (c : mvmu_cfg) (u : mvmu) : res unit * mvmu :=
  if negb (have_rram (c_storage c)) then (Raise AttributeError, u)
  else (Ok tt,
        MkMvmu (inreg_reset (mv_in u)) (outreg_reset (mv_out u)) (rram_pos u) (rram_neg u)
          (sram_pos u) (sram_neg u)
          (MkMvStats 0 0 0 0 0 0 0 0 0 0
             (sram_mac_operations (mv_stat u)) (mux_sram_selections (mv_stat u)) 0)).
