(** What the example mlp_l4_mnist is to compute: a network with 784 inputs, hidden layers of 1024, 512 and 200 neurons, and 10 outputs. *)
From Verif Require Import PyBase ConfigModel FloatModel VfuModel MvmuModel MvmuSpec CoreModel CoreSpec RouterModel SystemModel SystemSpec LoaderModel LoaderSpec MvmuAccept
  MlpProgram.
Open Scope Z_scope.

Section Network.
(** The parameters of the cores, and the 98 weight arrays of 128 times 128. *)
Context (c : core_cfg) (cfg : list bitcfg) (w : Z -> list (list f64)).
(** Addition and rectification of the vector units. *)
Definition saturated (x : Z) : Z := Z.max (- 2 ^ v_width (k_vfu c)) (Z.min (2 ^ v_width (k_vfu c) - 1) x).
Definition sum (a b : Z) : Z := saturated (wrap32 (a + b)).
Definition rectified (a : Z) : Z := saturated (Z.max 0 a).
(** What a core reads from output [j] of array [u] after a multiply with the inputs [x]. *)
Definition array_value (u j : Z) (x : list Z) : Z := wrap32 (mvm_value (k_mv c) cfg (znth [] (w u) j) x) / 2 ^ c_weight_frac (k_mv c).
(** 128 entries of a vector, continued by zeros. *)
Definition part (x : list Z) (p : Z) : list Z := map (fun i => znth 0 x (128 * p + i)) (zrange 128).
(** Entry [e] of a product: [parts] arrays for each block of 128 outputs, from number [first] on, and their sum. *)
Definition neuron (first parts : Z) (x : list Z) (e : Z) : Z :=
  let term p := array_value (first + e / 128 * parts + p) (e mod 128) (part x p) in
  fold_left (fun acc p => sum (term p) acc) (map (Z.add 1) (zrange (parts - 1))) (term 0).
Definition dense (first parts outs : Z) (x : list Z) : list Z := map (neuron first parts x) (zrange outs).
Definition hidden (first parts outs : Z) (x : list Z) : list Z := map rectified (dense first parts outs x).
Definition mlp (x : list Z) : list Z := dense 96 2 10 (hidden 88 4 200 (hidden 56 8 512 (hidden 0 7 1024 x))).
End Network.

(** The same network in plain integer arithmetic, with weights in units of 2^-frac: the sums of products of each array are divided by
    2^frac (rounding down), and nothing saturates or overflows. *)
Section Exact.
Context (frac : Z) (w : Z -> list (list f64)).
Definition exact_product (u j : Z) (x : list Z) : Z := dot (map (fixed_weight frac) (znth [] (w u) j)) x.
Definition exact_product_of (first parts : Z) (x : list Z) (e p : Z) : Z := exact_product (first + e / 128 * parts + p) (e mod 128) (part x p).
(** The sum over the first [m] parts. *)
Definition exact_sum (first parts : Z) (x : list Z) (e m : Z) : Z := zsum (map (fun p => exact_product_of first parts x e p / 2 ^ frac) (zrange m)).
Definition exact_dense (first parts outs : Z) (x : list Z) : list Z := map (fun e => exact_sum first parts x e parts) (zrange outs).
Definition exact_hidden (first parts outs : Z) (x : list Z) : list Z := map (Z.max 0) (exact_dense first parts outs x).
Definition exact_mlp (x : list Z) : list Z := exact_dense 96 2 10 (exact_hidden 88 4 200 (exact_hidden 56 8 512 (exact_hidden 0 7 1024 x))).
End Exact.
(** In a layer nothing saturates or overflows: inputs and weights fit, no converter clips, and products and partial sums are in range. *)
Record layer_fits (c : core_cfg) (cfg : list bitcfg) (ww : Z) (w : Z -> list (list f64)) (first parts outs : Z) (x : list Z) : Prop := {
  lf_inputs : Forall (fun v => 0 <= v < 2 ^ c_act_width (k_mv c)) x;
  lf_weights : forall e p, 0 <= e < outs -> 0 <= p < parts ->
    Forall (fun v => weight_mag (c_weight_frac (k_mv c)) v < 2 ^ ww) (znth [] (w (first + e / 128 * parts + p)) (e mod 128));
  lf_converters : forall e p, 0 <= e < outs -> 0 <= p < parts -> no_saturation (k_mv c) cfg (znth [] (w (first + e / 128 * parts + p)) (e mod 128)) (part x p);
  lf_products : forall e p, 0 <= e < outs -> 0 <= p < parts -> int32 (exact_product_of (c_weight_frac (k_mv c)) w first parts x e p);
  lf_sums : forall e m, 0 <= e < outs -> 1 < m <= parts ->
    - 2 ^ v_width (k_vfu c) <= exact_sum (c_weight_frac (k_mv c)) w first parts x e m < 2 ^ v_width (k_vfu c) }.
Definition mlp_fits (c : core_cfg) (cfg : list bitcfg) (ww : Z) (w : Z -> list (list f64)) (x : list Z) : Prop :=
  let hidden := exact_hidden (c_weight_frac (k_mv c)) w in
  let h1 := hidden 0 7 1024 x in let h2 := hidden 56 8 512 h1 in let h3 := hidden 88 4 200 h2 in
  layer_fits c cfg ww w 0 7 1024 x /\ layer_fits c cfg ww w 56 8 512 h1 /\ layer_fits c cfg ww w 88 4 200 h2 /\ layer_fits c cfg ww w 96 2 10 h3.

(** The parts that the example asks for: examples/mlp_l4_mnist/config.yaml has these numbers of nodes, tiles, cores, units and columns and this cache. *)
Record mlp_shape (c : sys_cfg) : Prop := {
  ms_nodes : 1 <= w_nodes (y_net c);
  ms_tiles : w_tiles (y_net c) = 5;
  ms_cores : y_cores c = 8;
  ms_units : k_mvmus (y_core c) = 6;
  ms_size : c_size (k_mv (y_core c)) = 128;
  ms_cache : k_cache (y_core c) = 4096;
  ms_memory : 4200 <= y_size c }.
(** The file holds the arrays [w]: array [u] is the last for unit [u mod 6] of core [u mod 48 / 6] of tile [2 + u / 48]. *)
Definition mlp_weights (c : sys_cfg) (file : list (String.string * list (list f64))) (w : Z -> list (list f64)) : Prop :=
  forall u, 0 <= u < 98 ->
    (exists earlier, arrays_for 0 (2 + u / 48) (u mod 48 / 6) (u mod 6) file (earlier ++ [w u])) /\ loadable 128 (c_weight_frac (k_mv (y_core c))) (w u).
(** The simulator [a] was made from the example's operations for a configuration and weights like that; the units are ideal. *)
Record mlp_setup (x : lax) (c : sys_cfg) (cfg : list bitcfg) (ww : Z) (file : list (String.string * list (list f64))) (w : Z -> list (list f64)) (a : arch) : Prop := {
  su_lax : reasonable x;
  su_shape : mlp_shape c;
  su_units : mvmu_ok cfg ww (k_mv (y_core c));
  su_ideal : ideal cfg (k_mv (y_core c));
  su_vfu : 0 <= v_width (k_vfu (y_core c)) <= 31;
  su_latencies : usable_latencies c;
  su_weights : mlp_weights c file w;
  su_made : construct x c mlp_ops file = Ok a }.
