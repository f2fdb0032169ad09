(** Independent specification of a matrix unit: which integers the cells of the crossbars stand
    for, and the integer every output register gets.  The meaning of a float64 is its real value
    (Flocq's B2R); nothing here uses the model's functions apart from its record of parameters. *)
From Verif Require Import PyBase ConfigModel ConfigSpec MemoryModel FloatModel FloatSpec MvmuModel.
From Flocq Require Import IEEE754.BinarySingleNaN Core.
From Coq Require Import Reals.
Open Scope Z_scope.

(** ** Stored weights *)

(** Magnitude of a weight in units of 2^-frac, nearest integer, ties to even. *)
Definition weight_mag (frac : Z) (w : f64) : Z := ZnearestE (Rabs (B2R w) * bpow radix2 frac).
Definition weight_sgn (w : f64) : Z :=
  if Rlt_bool (B2R w) 0 then -1 else if Rlt_bool 0 (B2R w) then 1 else 0.

(** The signed integer that fits in the cells: the low [ww] bits of the magnitude. *)
Definition stored_weight (ww frac : Z) (w : f64) : Z := weight_sgn w * (weight_mag frac w mod 2 ^ ww).

(** The signed content of the cell of crossbar k. *)
Definition cell_of (cfg : list bitcfg) (frac : Z) (k : nat) (w : f64) : Z :=
  weight_sgn w * (weight_mag frac w / 2 ^ bits_below cfg k mod 2 ^ cell_bits (nth k cfg SLC)).

(** ** Input slices *)

(** Bits [res*i, res*(i+1)) of an integer in two's complement. *)
Definition in_slice (res i x : Z) : Z := x / 2 ^ (res * i) mod 2 ^ res.

(** ** What a multiply computes *)

(** Converter of an RRAM crossbar: saturates symmetrically.  SRAM crossbars have none. *)
Definition converted (adc_res : Z) (b : bitcfg) (v : Z) : Z :=
  if is_sram b then v else Z.max (- (2 ^ adc_res - 1)) (Z.min (2 ^ adc_res - 1) v).

Definition sum_below (n : nat) (f : nat -> Z) : Z := zsum (map f (seq 0 n)).

(** Sum of one crossbar row for one input slice. *)
Definition row_sum (c : mvmu_cfg) (cfg : list bitcfg) (k : nat) (i : Z) (row : list f64) (x : list Z) : Z :=
  dot (map (cell_of cfg (c_weight_frac c) k) row) (map (in_slice (c_dac_res c) i) x).

(** Number of input slices. *)
Definition slices (c : mvmu_cfg) : Z := (c_act_width c + c_dac_res c - 1) / c_dac_res c.

(** The value accumulated for one output row: slice i weighs 2^i, crossbar k weighs 2^(its bit
    position). *)
Definition mvm_value (c : mvmu_cfg) (cfg : list bitcfg) (row : list f64) (x : list Z) : Z :=
  sum_below (Z.to_nat (slices c)) (fun i =>
    2 ^ Z.of_nat i *
    sum_below (length cfg) (fun k =>
      2 ^ bits_below cfg k *
      converted (c_adc_res c) (nth k cfg SLC) (row_sum c cfg k (Z.of_nat i) row x))).

(** No converter saturates for these weights and inputs. *)
Definition no_saturation (c : mvmu_cfg) (cfg : list bitcfg) (row : list f64) (x : list Z) : Prop :=
  forall i k, 0 <= i < slices c -> (k < length cfg)%nat -> is_sram (nth k cfg SLC) = false ->
    Z.abs (row_sum c cfg k i row x) <= 2 ^ c_adc_res c - 1.

(** The product of a row of stored weights with an input vector. *)
Definition product (ww frac : Z) (row : list f64) (x : list Z) : Z :=
  dot (map (stored_weight ww frac) row) x.

(** The integer nearest to w * 2^frac in magnitude, with the sign of w: the fixed-point value. *)
Definition fixed_weight (frac : Z) (w : f64) : Z := weight_sgn w * weight_mag frac w.

(** What an input code counts for: slice i weighs 2^i whatever the resolution. *)
Definition input_value (c : mvmu_cfg) (x : Z) : Z :=
  sum_below (Z.to_nat (slices c)) (fun i => 2 ^ Z.of_nat i * in_slice (c_dac_res c) (Z.of_nat i) x).

(** Number of values the converters of a multiply clamp. *)
Definition saturations (c : mvmu_cfg) (cfg : list bitcfg) (W : list (list f64)) (x : list Z) : Z :=
  sum_below (Z.to_nat (slices c)) (fun i =>
    sum_below (length W) (fun r =>
      sum_below (length cfg) (fun k =>
        if is_sram (nth k cfg SLC) then 0
        else if 2 ^ c_adc_res c - 1 <? Z.abs (row_sum c cfg k (Z.of_nat i) (nth r W []) x) then 1 else 0))).

(** The weight a client can measure in the cells: position (r, j) of crossbar k holds pos - neg,
    in units of gmax / (2^bits - 1) for RRAM.  [before cfg k p] counts the crossbars of kind p
    before k, i.e. the position of crossbar k in the array of its kind. *)
Definition before (p : bitcfg -> bool) (cfg : list bitcfg) (k : nat) : nat := length (filter p (firstn k cfg)).
Definition at3 {A} (d : A) (m : list (list (list A))) (k r j : nat) : A := nth j (nth r (nth k m []) []) d.
Definition measured_cell (c : mvmu_cfg) (cfg : list bitcfg) (u : mvmu) (k r j : nat) : Z :=
  let b := nth k cfg SLC in
  if is_sram b then
    at3 0 (sram_pos u) (before is_sram cfg k) r j - at3 0 (sram_neg u) (before is_sram cfg k) r j
  else
    let q := before (fun b => negb (is_sram b)) cfg k in
    ZnearestE ((B2R (at3 f0 (rram_pos u) q r j) - B2R (at3 f0 (rram_neg u) q r j))
               / (B2R (c_gmax c) / IZR (2 ^ cell_bits b - 1)))%R.
Definition measured_weight (c : mvmu_cfg) (cfg : list bitcfg) (u : mvmu) (r j : nat) : Z :=
  sum_below (length cfg) (fun k => 2 ^ bits_below cfg k * measured_cell c cfg u k r j).

(** ** Configurations *)

(** A configuration the loader accepts (cf. C02), with the ranges the hardware can have. *)
Record mvmu_ok (cfg : list bitcfg) (ww : Z) (c : mvmu_cfg) : Prop := {
  ok_storage : validate_storage cfg ww = Ok (c_storage c);
  ok_xbars : cfg <> [];
  ok_size : 0 < c_size c;
  ok_cols : 0 < c_cols c;
  ok_div : c_size c mod c_cols c = 0;
  ok_dac : 1 <= c_dac_res c <= 31;
  ok_adc : 0 <= c_adc_res c;
  ok_act : 1 <= c_act_width c;
  ok_frac : 0 <= c_weight_frac c <= 1023 }.

(** Supply voltage and maximum conductance: positive, of moderate magnitude. *)
Definition moderate_pos (x : f64) : Prop :=
  is_finite x = true /\ (bpow radix2 (-200) <= B2R x <= bpow radix2 200)%R.

(** The ideal analog case: zero minimum conductance, no noise, sums evaluated in any order, a
    crossbar small enough that float64 rounding cannot reach half a step. *)
Record analog_ok (c : mvmu_cfg) : Prop := {
  an_vdd : moderate_pos (c_vdd c);
  an_gmax : moderate_pos (c_gmax c);
  an_gmin : is_finite (c_gmin c) = true /\ B2R (c_gmin c) = 0%R;
  an_dot : forall a b, length a = length b -> sumprod (combine a b) (c_dot c a b);
  an_size : c_size c * (15 * (2 ^ c_dac_res c - 1)) * (c_size c + 12) < 2 ^ 51 }.

(** RRAM crossbars need the ideal analog case; a purely digital unit needs nothing. *)
Definition ideal (cfg : list bitcfg) (c : mvmu_cfg) : Prop :=
  existsb (fun b => negb (is_sram b)) cfg = true -> analog_ok c.

(** ** Clients *)

(** The calls a core makes on a matrix unit. *)
Inductive mvop :=
| OLoad (w : list (list f64)) | OWrite (start : Z) (v : list Z) | OMvm
| ORead (start len : Z) | OReset.

Definition mv_step (c : mvmu_cfg) (u : mvmu) (o : mvop) : mvmu :=
  match o with
  | OLoad w => snd (load_weights c u w)
  | OWrite s v => snd (write_to_inreg u s v)
  | OMvm => execute_mvm c u
  | ORead s l => snd (read_from_outreg c u s l)
  | OReset => snd (mvmu_reset c u)
  end.
Definition mv_run (c : mvmu_cfg) (u : mvmu) (ops : list mvop) : mvmu := fold_left (mv_step c) ops u.

Definition not_load (o : mvop) : Prop := match o with OLoad _ => False | _ => True end.

(** u is a unit that was created, used in any way, then successfully loaded with w, and since then
    used in any way except loading. *)
Definition loaded (c : mvmu_cfg) (w : list (list f64)) (u : mvmu) : Prop :=
  exists before after,
    fst (load_weights c (mv_run c (mvmu_init c) before) w) = Ok tt /\
    Forall not_load after /\
    u = mv_run c (mv_run c (mvmu_init c) (before ++ [OLoad w])) after.

(** Contents of the registers. *)
Definition inputs (u : mvmu) : list Z := in_regs (mv_in u).
Definition outputs (u : mvmu) : list Z := out_regs (mv_out u).

(** u is a unit that was created and then used in any way. *)
Definition reached (c : mvmu_cfg) (u : mvmu) : Prop := exists ops, u = mv_run c (mvmu_init c) ops.

(** Same stored weights. *)
Definition same_cells (u v : mvmu) : Prop :=
  rram_pos u = rram_pos v /\ rram_neg u = rram_neg v /\ sram_pos u = sram_pos v /\ sram_neg u = sram_neg v.

(** The number of crossbars of each kind. *)
Definition rrams (cfg : list bitcfg) : Z := zlen (filter (fun b => negb (is_sram b)) cfg).
Definition srams (cfg : list bitcfg) : Z := zlen (filter is_sram cfg).
(** x if there is a crossbar of the kind, else 0. *)
Definition when (k x : Z) : Z := if 0 <? k then x else 0.
