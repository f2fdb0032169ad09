(** blocks/rram_xbar.py:87-92: crossbars with has_noise = True. *)
From Verif Require Import PyBase FloatModel MemoryModel ConfigModel MvmuModel.
Open Scope Z_scope.

(** The arrays drawn by rng.normal(0, noise_sigma, shape) in one call of execute_mvm
    (blocks/rram_xbar.py:88-90), by crossbar, row and column.
    Simplification: the generator is not modelled, the draws are arbitrary float64 values. *)
Record noise := MkNoise { n_pos : nat -> nat -> nat -> f64; n_neg : nat -> nat -> nat -> f64 }.

(** Element-wise map with the index. *)
Fixpoint mapi {A B} (f : nat -> A -> B) (l : list A) : list B :=
  match l with [] => [] | x :: t => f 0%nat x :: mapi (fun j => f (S j)) t end.

(** pos_mat, neg_mat: blocks/rram_xbar.py:89-90. *)
Definition with_noise (m : list (list (list f64))) (e : nat -> nat -> nat -> f64) : list (list (list f64)) :=
  mapi (fun q mat => mapi (fun r row => mapi (fun j g => fadd g (e q r j)) row) mat) m.

(** The unit with pos_mat and neg_mat in the place of the stored matrices. *)
Definition noisy_unit (u : mvmu) (ns : noise) : mvmu :=
  MkMvmu (mv_in u) (mv_out u) (with_noise (rram_pos u) (n_pos ns)) (with_noise (rram_neg u) (n_neg ns))
    (sram_pos u) (sram_neg u) (mv_stat u).

(** Loop body of mvmu.py:141-201 for input slice i with has_noise = True: the analog results come
    from the disturbed matrices (blocks/rram_xbar.py:91-92), which are local to the call; the stored
    ones stay. *)
Definition noisy_slice (c : mvmu_cfg) (draw : Z -> noise) (u : mvmu) (i : Z) : mvmu :=
  let v := mvm_slice c (noisy_unit u (draw i)) i in
  MkMvmu (mv_in v) (mv_out v) (rram_pos u) (rram_neg u) (sram_pos u) (sram_neg u) (mv_stat v).

(** MVMU.execute_mvm (mvmu.py:128-201) with has_noise = True; [draw i] are the arrays drawn for
    input slice i. *)
Definition execute_mvm_noisy (c : mvmu_cfg) (draw : Z -> noise) (u : mvmu) : mvmu :=
  let u0 := MkMvmu (mv_in u) (outreg_clean (mv_out u)) (rram_pos u) (rram_neg u)
              (sram_pos u) (sram_neg u) (mv_stat u) in
  fold_left (noisy_slice c draw) (zrange (num_iterations c)) u0.
