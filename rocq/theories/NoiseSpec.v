(** Specification of noisy multiplies: how far noise can move a conversion, in real numbers. *)
From Verif Require Import PyBase ConfigModel ConfigSpec MemoryModel FloatModel FloatSpec MvmuModel MvmuSpec NoiseModel.
From Flocq Require Import IEEE754.BinarySingleNaN Core.
From Coq Require Import Reals.
Open Scope Z_scope.

(** ** Clients of a unit with noise *)
Inductive nvop :=
| NLoad (w : list (list f64)) | NWrite (start : Z) (v : list Z) | NMvm (draw : Z -> noise)
| NRead (start len : Z) | NReset.

Definition nv_step (c : mvmu_cfg) (u : mvmu) (o : nvop) : mvmu :=
  match o with
  | NLoad w => snd (load_weights c u w)
  | NWrite s v => snd (write_to_inreg u s v)
  | NMvm draw => execute_mvm_noisy c draw u
  | NRead s l => snd (read_from_outreg c u s l)
  | NReset => snd (mvmu_reset c u)
  end.
Definition nv_run (c : mvmu_cfg) (u : mvmu) (ops : list nvop) : mvmu := fold_left (nv_step c) ops u.
Definition nv_not_load (o : nvop) : Prop := match o with NLoad _ => False | _ => True end.

(** u is a unit that was created and used in any way, with any draws. *)
Definition nreached (c : mvmu_cfg) (u : mvmu) : Prop := exists ops, u = nv_run c (mvmu_init c) ops.

(** u is a unit that was created, used in any way, successfully loaded with w, and since then used
    in any way except loading, with any draws. *)
Definition nloaded (c : mvmu_cfg) (w : list (list f64)) (u : mvmu) : Prop :=
  exists before after,
    fst (load_weights c (nv_run c (mvmu_init c) before) w) = Ok tt /\
    Forall nv_not_load after /\
    u = nv_run c (nv_run c (mvmu_init c) (before ++ [NLoad w])) after.

(** ** Noise *)
Definition noise_range (c : mvmu_cfg) (e : nat -> nat -> nat -> f64) : Prop :=
  forall q r j, is_finite (e q r j) = true /\ (Rabs (B2R (e q r j)) <= B2R (c_gmax c))%R.
(** Finite, at most the maximum conductance. *)
Definition draws_ok (c : mvmu_cfg) (draw : Z -> noise) : Prop :=
  forall i, 0 <= i < slices c -> noise_range c (n_pos (draw i)) /\ noise_range c (n_neg (draw i)).

(** The crossbar is small enough that float64 rounding stays below 1/1024 of a step. *)
Definition noise_size (c : mvmu_cfg) : Prop := c_size c * (15 * (2 ^ c_dac_res c - 1)) * (c_size c + 16) < 2 ^ 40.

Fixpoint rsum_below (n : nat) (f : nat -> R) : R :=
  match n with O => 0%R | S m => (rsum_below m f + f m)%R end.

(** Noise that reaches one row, in units of a conductance step: the noise of each cell weighs as
    much as the input code of its column. *)
Definition row_noise (c : mvmu_cfg) (bits : Z) (e : nat -> f64) (d : list Z) : R :=
  (rsum_below (length d) (fun j => Rabs (B2R (e j)) * IZR (nth j d 0%Z))
   / (B2R (c_gmax c) / IZR (2 ^ bits - 1)))%R.

(** Of crossbar k, row r in slice i, for one of the two planes. *)
Definition plane_noise (c : mvmu_cfg) (cfg : list bitcfg) (e : nat -> nat -> nat -> f64) (k r : nat) (i : Z) (x : list Z) : R :=
  row_noise c (cell_bits (nth k cfg SLC)) (e (before (fun b => negb (is_sram b)) cfg k) r)
    (map (in_slice (c_dac_res c) i) x).
Definition pos_noise (c : mvmu_cfg) (cfg : list bitcfg) (draw : Z -> noise) (x : list Z) (k r : nat) (i : Z) : R :=
  plane_noise c cfg (n_pos (draw i)) k r i x.
Definition neg_noise (c : mvmu_cfg) (cfg : list bitcfg) (draw : Z -> noise) (x : list Z) (k r : nat) (i : Z) : R :=
  plane_noise c cfg (n_neg (draw i)) k r i x.

(** Every plane of every row gets less than 511/1024 of a step. *)
Definition quiet (c : mvmu_cfg) (cfg : list bitcfg) (draw : Z -> noise) (x : list Z) : Prop :=
  forall i k r, 0 <= i < slices c -> (k < length cfg)%nat -> is_sram (nth k cfg SLC) = false -> (r < Z.to_nat (c_size c))%nat ->
    (pos_noise c cfg draw x k r i < 511 / 1024 /\ neg_noise c cfg draw x k r i < 511 / 1024)%R.

(** Output row r when crossbar k is off by e i k in slice i. *)
Definition mvm_value_off (c : mvmu_cfg) (cfg : list bitcfg) (row : list f64) (x : list Z) (e : nat -> nat -> Z) : Z :=
  sum_below (Z.to_nat (slices c)) (fun i =>
    2 ^ Z.of_nat i *
    sum_below (length cfg) (fun k =>
      2 ^ bits_below cfg k *
      converted (c_adc_res c) (nth k cfg SLC) (row_sum c cfg k (Z.of_nat i) row x + e i k))).

(** Most that noise can move output row r. *)
Definition noise_bound (c : mvmu_cfg) (cfg : list bitcfg) (draw : Z -> noise) (x : list Z) (r : nat) : R :=
  rsum_below (Z.to_nat (slices c)) (fun i =>
    bpow radix2 (Z.of_nat i) *
    rsum_below (length cfg) (fun k =>
      bpow radix2 (bits_below cfg k) *
      (if is_sram (nth k cfg SLC) then 0
       else pos_noise c cfg draw x k r (Z.of_nat i) + neg_noise c cfg draw x k r (Z.of_nat i) + (1 + / 512))))%R.

(** All noise is at most eps, and so little that a full row of it stays below 511/1024 of a step in
    every crossbar. *)
Definition uniform (c : mvmu_cfg) (cfg : list bitcfg) (draw : Z -> noise) (eps : R) : Prop :=
  (forall i q r j, (0 <= i < slices c)%Z ->
     is_finite (n_pos (draw i) q r j) = true /\ is_finite (n_neg (draw i) q r j) = true /\
     Rabs (B2R (n_pos (draw i) q r j)) <= eps /\ Rabs (B2R (n_neg (draw i) q r j)) <= eps)%R /\
  (forall b, In b cfg -> is_sram b = false ->
     1024 * eps * IZR (c_size c * (2 ^ c_dac_res c - 1)) * IZR (2 ^ cell_bits b - 1) < 511 * B2R (c_gmax c))%R.
