(** The example with the shipped configuration, and with weights for which the result can be seen. *)
From Verif Require Import PyBase PyLemmas ConfigModel ConfigSpec MemoryModel VfuModel FloatModel FloatSpec FloatProofs MvmuModel MvmuSpec MvmuLoad MvmuUse MvmuExamples CoreModel CoreSpec RouterModel
  SystemModel SystemSpec LoaderModel LoaderSpec LoaderWeights LoaderClaims MvmuAccept SetupModel SetupSpec SetupProofs SetupValues SetupParams SetupBuild SetupExamples SymCore MlpProgram MlpSpec MlpLoad MlpClaims MlpExact.
From Flocq Require Import IEEE754.BinarySingleNaN Core.
From Coq Require Import ZifyBool ZifyNat Reals Lra String Ascii.
Open Scope Z_scope.
Open Scope list_scope.

Lemma shipped_fits x rate sigma dot act : plain x -> nearest (5 / 1000) rate -> (forall a b, List.length a = List.length b -> sumprod (combine a b) (dot a b)) ->
  exists cf y, load_config x (JObj (shipped rate sigma)) = Ok cf /\ sys_cfg_of dot act cf = Some y /\ cf_bits cf = [MLC; MLC; MLC; MLC] /\
    mlp_shape y /\ mvmu_ok (cf_bits cf) 8 (k_mv (y_core y)) /\ ideal (cf_bits cf) (k_mv (y_core y)) /\ usable_latencies y /\
    v_width (k_vfu (y_core y)) = 16 /\ c_act_width (k_mv (y_core y)) = 16 /\ c_weight_frac (k_mv (y_core y)) = 8 /\ c_dac_res (k_mv (y_core y)) = 1 /\ c_adc_res (k_mv (y_core y)) = 8.
Proof.
  intros P HR SP. destruct (shipped_config x rate sigma P HR) as (cf & H & Se & _ & N & B & Q & S & _ & _ & V & M & _ & _).
  pose proof (shipped_layout rate sigma) as L. destruct (ready _ _ _ _ dot act H L Se (conj eq_refl eq_refl)) as (_ & y & Y & CO & UL & _ & AN).
  exists cf, y. split; [exact H|]. split; [exact Y|]. split; [exact B|]. pose proof (described _ _ _ _ H L) as De.
  injection N as N1 N2 N3 N4. injection Q as Q1 Q2 Q3 Q4. injection S as S1 S2 S3 S4. injection M as M1 M2.
  assert (V1 : cf_vdd cf = f_of_Z 1) by exact (f_equal (fun p => fst (fst p)) V). assert (V2 : cf_gmin cf = f_of_Z 0) by exact (f_equal (fun p => snd (fst p)) V).
  assert (V3 : cf_gmax cf = f_of_Z 1) by exact (f_equal snd V). clear V.
  assert (AW : cf_awidth cf = 16) by (pose proof (proj2 (de_activations _ _ _ De)); lia).
  assert (WW : cf_wwidth cf = 8) by (pose proof (proj2 (de_weights _ _ _ De)); lia).
  assert (F : w_nodes (y_net y) = cf_nodes cf /\ w_tiles (y_net y) = cf_tiles cf /\ y_cores y = cf_cores cf /\ k_mvmus (y_core y) = cf_mvmus cf /\
     c_size (k_mv (y_core y)) = cf_size cf /\ k_cache (y_core y) = cf_data cf /\ y_size y = cf_edram cf /\ v_width (k_vfu (y_core y)) = cf_awidth cf /\
     c_act_width (k_mv (y_core y)) = cf_awidth cf /\ c_weight_frac (k_mv (y_core y)) = cf_wfrac cf /\ c_dac_res (k_mv (y_core y)) = cf_dac_res cf /\ c_adc_res (k_mv (y_core y)) = cf_adc_res cf).
  { unfold sys_cfg_of in Y. destruct (ticks cf LFetch), (ticks cf LData), (ticks cf LEdram), (ticks cf LIntra), (ticks cf LInter), (ticks cf LDac), (ticks cf LAdc); try discriminate.
    injection Y as <-. repeat split. }
  destruct F as (F1 & F2 & F3 & F4 & F5 & F6 & F7 & F8 & F9 & F10 & F11 & F12). clear Y.
  split; [constructor; lia|]. rewrite WW in CO. split; [apply CO|]. split.
  - intros _. apply AN; [rewrite V1|rewrite V3|rewrite V2|exact SP].
    + apply moderate_Z; lia.
    + apply moderate_Z; lia.
    + now apply (B2R_small 0).
  - split; [exact UL|]. lia.
Qed.

(** ** A weight file *)
Definition digit (n : Z) : string := String (ascii_of_nat (Z.to_nat (48 + n))) "".
Definition mlp_key (u : Z) : string := "node0_tile" ++ digit (2 + u / 48) ++ "_core" ++ digit (u mod 48 / 6) ++ "_mvmu" ++ digit (u mod 6).
Definition mlp_file (w : Z -> list (list f64)) : list (string * list (list f64)) := map (fun u => (mlp_key u, w u)) (zrange 98).
Definition key_right (u : Z) : bool :=
  match key_ids (mlp_key u) with Some (n, t, k, m) => (n =? 0) && (t =? 2 + u / 48) && (k =? u mod 48 / 6) && (m =? u mod 6) | None => false end.
Lemma keys_right : forallb key_right (zrange 98) = true.
Proof. vm_compute. reflexivity. Qed.
Lemma filter_eq v n : 0 <= v < n -> filter (Z.eqb v) (zrange n) = [v].
Proof.
  intros H. assert (E : forall m : nat, filter (Z.eqb v) (zrange (Z.of_nat m)) = if v <? Z.of_nat m then [v] else []).
  { induction m as [|m IH]; [cbn; now replace (v <? 0) with false by lia|]. replace (Z.of_nat (S m)) with (Z.of_nat m + 1) by lia. rewrite zrange_snoc by lia.
    rewrite filter_app, IH. cbn [filter]. destruct (v =? Z.of_nat m) eqn:E1.
    - replace (v <? Z.of_nat m) with false by lia. replace (v <? Z.of_nat m + 1) with true by lia. cbn. f_equal. lia.
    - replace (v <? Z.of_nat m + 1) with (v <? Z.of_nat m) by lia. apply app_nil_r. }
  specialize (E (Z.to_nat n)). rewrite Z2Nat.id in E by lia. rewrite E. now replace (v <? n) with true by lia.
Qed.
Lemma mlp_file_arrays w u : 0 <= u < 98 -> arrays_for 0 (2 + u / 48) (u mod 48 / 6) (u mod 6) (mlp_file w) [w u].
Proof.
  intros U. pose proof keys_right as K. rewrite forallb_forall in K. unfold mlp_file.
  replace [w u] with (map w (filter (Z.eqb u) (zrange 98))) by now rewrite filter_eq.
  assert (B : forall v, In v (zrange 98) -> 0 <= v < 98) by (intros v I; now apply in_zrange in I).
  induction (zrange 98) as [|v l IH]; [constructor|]. specialize (IH (fun v' I => K v' (or_intror I)) (fun v' I => B v' (or_intror I))).
  specialize (K v (or_introl eq_refl)). specialize (B v (or_introl eq_refl)). unfold key_right in K.
  destruct (key_ids (mlp_key v)) as [[[[n t] k] m]|] eqn:E; [|discriminate]. cbn [map filter]. destruct (u =? v) eqn:UV.
  - replace v with u in * by lia. cbn [map]. apply AFTake; [|exact IH]. apply key_ids_iff. rewrite E. repeat f_equal; lia.
  - apply AFSkip; [|exact IH]. intros KF. apply key_ids_iff in KF. rewrite E in KF. remember (2 + u / 48) as T eqn:HT. injection KF as -> -> -> ->.
    assert (K1 : u / 48 = v / 48) by lia. assert (K2 : u mod 48 / 6 = v mod 48 / 6) by lia. assert (K3 : u mod 6 = v mod 6) by lia. assert (NE : u <> v) by lia.
    clear - U B K1 K2 K3 NE. Z.to_euclidean_division_equations. lia.
Qed.
Lemma mlp_weights_file c w : (forall u, 0 <= u < 98 -> loadable 128 (c_weight_frac (k_mv (y_core c))) (w u)) -> mlp_weights c (mlp_file w) w.
Proof. intros L u U. split; [exists []; now apply mlp_file_arrays|now apply L]. Qed.

(** ** Weights that halve the first 128 entries of each layer *)
Definition half : f64 := fdiv (f_of_Z 1) (f_of_Z 2).
Definition row (v : f64) (j : Z) : list f64 := map (fun i => if i =? j then v else f0) (zrange 128).
Definition halving (u : Z) : list (list f64) :=
  map (row (if (u =? 0) || (u =? 56) || (u =? 88) || (u =? 96) then half else f0)) (zrange 128).
Lemma half_value : is_finite half = true /\ B2R half = (1 / 2)%R.
Proof. split; [reflexivity|]. vm_compute. lra. Qed.
Lemma half_mag : weight_mag 8 half = 128.
Proof.
  unfold weight_mag. rewrite (proj2 half_value). rewrite Rabs_pos_eq by lra. apply (Znearest_imp _ _ 128). change (bpow radix2 8) with 256%R.
  replace (1 / 2 * 256 - 128)%R with 0%R by lra. rewrite Rabs_R0. lra.
Qed.
Lemma half_sgn : weight_sgn half = 1.
Proof. unfold weight_sgn. rewrite (proj2 half_value). rewrite Rlt_bool_false by lra. now rewrite Rlt_bool_true by lra. Qed.
Lemma f0_sgn : weight_sgn f0 = 0.
Proof. unfold weight_sgn. cbn. now rewrite !Rlt_bool_false by lra. Qed.
Lemma f0_mag frac : weight_mag frac f0 = 0.
Proof. apply weight_zero, f0_sgn. Qed.

Lemma dot_row (g : f64 -> Z) v j y : g f0 = 0 -> 0 <= j < 128 -> zlen y = 128 -> PyBase.dot (map g (row v j)) y = g v * znth 0 y j.
Proof.
  intros G J L. unfold row. rewrite map_map. unfold zrange. rewrite map_map.
  assert (E : forall n s y, (List.length y = n)%nat -> PyBase.dot (map (fun i => g (if Z.of_nat i =? j then v else f0)) (seq s n)) y =
    if (Z.of_nat s <=? j) && (j <? Z.of_nat (s + n)) then g v * znth 0 y (j - Z.of_nat s) else 0).
  { clear y L. induction n as [|n IH]; intros s y L.
    - destruct y; [|discriminate]. cbn [seq map PyBase.dot]. now replace ((Z.of_nat s <=? j) && (j <? Z.of_nat (s + 0))) with false by lia.
    - destruct y as [|z y]; [discriminate|]. cbn [seq map PyBase.dot]. rewrite IH by (cbn in L; lia). destruct (Z.of_nat s =? j) eqn:E.
      + replace ((Z.of_nat (S s) <=? j) && (j <? Z.of_nat (S s + n))) with false by lia. replace ((Z.of_nat s <=? j) && (j <? Z.of_nat (s + S n))) with true by lia.
        replace (j - Z.of_nat s) with 0 by lia. cbn. lia.
      + rewrite G. replace ((Z.of_nat s <=? j) && (j <? Z.of_nat (s + S n))) with ((Z.of_nat (S s) <=? j) && (j <? Z.of_nat (S s + n))) by lia.
        destruct ((Z.of_nat (S s) <=? j) && (j <? Z.of_nat (S s + n))) eqn:E'; [|lia].
        unfold znth. replace (Z.to_nat (j - Z.of_nat s)) with (S (Z.to_nat (j - Z.of_nat (S s)))) by lia. cbn [nth]. lia. }
  rewrite E by (unfold zlen in L; lia). replace ((Z.of_nat 0 <=? j) && (j <? Z.of_nat (0 + Z.to_nat 128))) with true by lia. f_equal. f_equal. lia.
Qed.
Definition first_of (u : Z) : bool := (u =? 0) || (u =? 56) || (u =? 88) || (u =? 96).
Lemma halving_row u j : 0 <= j < 128 -> znth [] (halving u) j = row (if first_of u then half else f0) j.
Proof. intros J. unfold halving. now rewrite znth_map_zrange. Qed.
Lemma zlen_part x p : zlen (part x p) = 128.
Proof. unfold part. rewrite zlen_map. now rewrite zlen_zrange. Qed.
Lemma halving_product u j x : 0 <= j < 128 -> zlen x = 128 -> exact_product 8 halving u j x = if first_of u then 128 * znth 0 x j else 0.
Proof.
  intros J L. unfold exact_product. rewrite halving_row by exact J. unfold fixed_weight.
  rewrite dot_row; [|now rewrite f0_sgn|exact J|exact L]. destruct (first_of u); [rewrite half_sgn, half_mag; lia|now rewrite f0_sgn].
Qed.
Lemma halving_loadable u : loadable 128 8 (halving u).
Proof.
  unfold loadable, halving. rewrite zlen_map, zlen_zrange by lia. split; [reflexivity|]. apply Forall_forall. intros r I. apply in_map_iff in I as (j & <- & I).
  unfold row. rewrite zlen_map, zlen_zrange by lia. split; [reflexivity|]. apply Forall_forall. intros v V. apply in_map_iff in V as (i & <- & _).
  assert (H : is_finite half = true /\ weight_mag 8 half < 2 ^ 63) by (split; [apply half_value|rewrite half_mag; lia]).
  assert (Z0 : is_finite f0 = true /\ weight_mag 8 f0 < 2 ^ 63) by (split; [reflexivity|rewrite f0_mag; lia]).
  destruct (i =? j); [|exact Z0]. destruct (_ || _); assumption.
Qed.

(** One layer with these weights. *)
Definition halved (n : Z) (x : list Z) : list Z := map (fun e => if e <? 128 then znth 0 x e / 2 else 0) (zrange n).
Lemma halving_of first parts x e p : In (first, parts) [(0, 7); (56, 8); (88, 4); (96, 2)] -> 0 <= e < 128 * (if first =? 96 then 1 else if first =? 88 then 2 else if first =? 56 then 4 else 8) -> 0 <= p < parts ->
  exact_product_of 8 halving first parts x e p = if (e <? 128) && (p =? 0) then 128 * znth 0 x e else 0.
Proof.
  intros I E P. unfold exact_product_of. rewrite halving_product; [|apply Z.mod_pos_bound; lia|apply zlen_part].
  assert (FE : first_of (first + e / 128 * parts + p) = (e <? 128) && (p =? 0)).
  { unfold first_of. cbn [In] in I. assert (0 <= e / 128) by (apply Z.div_pos; lia). assert (e / 128 = 0 <-> e < 128) by (Z.to_euclidean_division_equations; lia).
    assert (e / 128 < (if first =? 96 then 1 else if first =? 88 then 2 else if first =? 56 then 4 else 8)) by (apply Z.div_lt_upper_bound; lia).
    destruct I as [[= <- <-]|[[= <- <-]|[[= <- <-]|[[= <- <-]|[]]]]]; cbn [Z.eqb Pos.eqb] in *; lia. }
  rewrite FE. destruct ((e <? 128) && (p =? 0)) eqn:B; [|reflexivity]. assert (p = 0) by lia. subst p. rewrite Z.mod_small by lia. unfold part.
  rewrite znth_map_zrange by lia. do 2 f_equal.
Qed.
Lemma halving_sum first parts x e m : In (first, parts) [(0, 7); (56, 8); (88, 4); (96, 2)] -> 0 <= e < 128 * (if first =? 96 then 1 else if first =? 88 then 2 else if first =? 56 then 4 else 8) -> 1 <= m <= parts ->
  exact_sum 8 halving first parts x e m = if e <? 128 then znth 0 x e / 2 else 0.
Proof.
  intros I E M. unfold exact_sum.
  assert (G : forall k : nat, Z.of_nat k < parts -> zsum (map (fun p => exact_product_of 8 halving first parts x e p / 2 ^ 8) (zrange (Z.of_nat k + 1))) = if e <? 128 then znth 0 x e / 2 else 0).
  { induction k as [|k IH]; intros K.
    - cbn [Z.of_nat]. rewrite zrange_snoc by lia. cbn [zrange Z.to_nat seq map app zsum fold_right]. rewrite (halving_of first parts) by (assumption || lia). rewrite andb_true_r.
      destruct (e <? 128); [|reflexivity]. change (2 ^ 8) with (128 * 2). rewrite Z.div_mul_cancel_l by lia. lia.
    - replace (Z.of_nat (S k)) with (Z.of_nat k + 1) by lia. rewrite zrange_snoc by lia. rewrite map_app. cbn [map]. rewrite zsum_snoc, IH by lia.
      rewrite (halving_of first parts) by (assumption || lia). replace (Z.of_nat k + 1 =? 0) with false by lia. rewrite andb_false_r. change (0 / 2 ^ 8) with 0. lia. }
  specialize (G (Z.to_nat (m - 1)) ltac:(lia)). replace (Z.of_nat (Z.to_nat (m - 1)) + 1) with m in G by lia. exact G.
Qed.
Lemma halving_layer first parts outs x : In (first, parts) [(0, 7); (56, 8); (88, 4); (96, 2)] -> 0 <= outs <= 128 * (if first =? 96 then 1 else if first =? 88 then 2 else if first =? 56 then 4 else 8) ->
  exact_dense 8 halving first parts outs x = halved outs x.
Proof.
  intros I O. unfold exact_dense, halved. apply map_ext_in. intros e E. apply in_zrange in E. apply halving_sum; [exact I|lia|].
  cbn [In] in I. destruct I as [[= <- <-]|[[= <- <-]|[[= <- <-]|[[= <- <-]|[]]]]]; lia.
Qed.
Lemma halved_range n x b : 0 < b -> Forall (fun v => 0 <= v < b) x -> Forall (fun v => 0 <= v < b) (halved n x).
Proof.
  intros B H. apply Forall_forall. intros v I. unfold halved in I. apply in_map_iff in I as (e & <- & _). destruct (e <? 128); [|lia].
  destruct (znth_in_or 0 x e) as [E| ->]; [|cbn; lia]. rewrite Forall_forall in H. specialize (H _ E). Z.to_euclidean_division_equations. lia.
Qed.
Lemma max_halved n x b : Forall (fun v => 0 <= v < b) (halved n x) -> map (Z.max 0) (halved n x) = halved n x.
Proof. intros H. rewrite <- (map_id (halved n x)) at 2. apply map_ext_in. intros v I. rewrite Forall_forall in H. specialize (H v I). lia. Qed.

Section Halving.
Context (c : core_cfg) (cfg : list bitcfg).
Context (OK : mvmu_ok cfg 8 (k_mv c)) (CB : cfg = [MLC; MLC; MLC; MLC]) (VW : v_width (k_vfu c) = 16) (AW : c_act_width (k_mv c) = 16) (WF : c_weight_frac (k_mv c) = 8)
  (R1 : c_dac_res (k_mv c) = 1) (AR : c_adc_res (k_mv c) = 8).
Lemma halving_fits first parts outs x : In (first, parts) [(0, 7); (56, 8); (88, 4); (96, 2)] ->
  0 <= outs <= 128 * (if first =? 96 then 1 else if first =? 88 then 2 else if first =? 56 then 4 else 8) ->
  Forall (fun v => 0 <= v < 2 ^ 16) x -> layer_fits c cfg 8 halving first parts outs x.
Proof.
  intros I O IX.
  assert (XR : forall e, 0 <= znth 0 x e < 2 ^ 16).
  { intros e. destruct (znth_in_or 0 x e) as [E| ->]; [|cbn; lia]. rewrite Forall_forall in IX. now apply IX. }
  constructor.
  - now rewrite AW.
  - intros e p E P. rewrite WF, halving_row by (apply Z.mod_pos_bound; lia). apply Forall_forall. intros v V. unfold row in V. apply in_map_iff in V as (i & <- & _).
    destruct (i =? e mod 128); [|rewrite f0_mag; lia]. destruct (first_of _); [rewrite half_mag|rewrite f0_mag]; lia.
  - intros e p E P i k HI HK _. rewrite halving_row by (apply Z.mod_pos_bound; lia). unfold row_sum. rewrite WF, R1, AR.
    assert (C0 : cell_of cfg 8 k f0 = 0) by (unfold cell_of; now rewrite f0_sgn).
    rewrite dot_row; [|exact C0|apply Z.mod_pos_bound; lia|rewrite zlen_map; apply zlen_part].
    assert (CH : 0 <= cell_of cfg 8 k (if first_of (first + e / 128 * parts + p) then half else f0) <= 3).
    { destruct (first_of _); [|rewrite C0; lia]. unfold cell_of. rewrite half_sgn, half_mag. subst cfg. destruct k as [|[|[|[|k]]]]; [vm_compute; split; discriminate..|cbn in HK; lia]. }
    assert (SL : 0 <= znth 0 (map (in_slice 1 i) (part x p)) (e mod 128) <= 1).
    { rewrite (SymCore.znth_map _ 0) by (rewrite zlen_part; apply Z.mod_pos_bound; lia). unfold in_slice. change (2 ^ 1) with 2.
      pose proof (Z.mod_pos_bound (znth 0 (part x p) (e mod 128) / 2 ^ (1 * i)) 2 ltac:(lia)). lia. }
    change (2 ^ 8 - 1) with 255. nia.
  - intros e p E P. rewrite WF, (halving_of first parts) by (assumption || lia). specialize (XR e). change (2 ^ 16) with 65536 in XR. unfold int32. destruct (_ && _); lia.
  - intros e m E M. rewrite WF, VW, (halving_sum first parts) by (assumption || lia). specialize (XR e). change (2 ^ 16) with 65536 in *. destruct (e <? 128); [|lia].
    Z.to_euclidean_division_equations. lia.
Qed.
Lemma halving_mlp x : Forall (fun v => 0 <= v < 2 ^ 16) x -> mlp_fits c cfg 8 halving x /\ exact_mlp 8 halving x = map (fun e => znth 0 x e / 16) (zrange 10).
Proof.
  intros IX. pose proof (halved_range 1024 x (2 ^ 16) ltac:(lia) IX) as H1. pose proof (halved_range 512 _ (2 ^ 16) ltac:(lia) H1) as H2.
  pose proof (halved_range 200 _ (2 ^ 16) ltac:(lia) H2) as H3.
  unfold mlp_fits, exact_mlp. rewrite WF. unfold exact_hidden.
  rewrite (halving_layer 0 7 1024) by (cbn; auto; lia). rewrite (max_halved _ _ _ H1). rewrite (halving_layer 56 8 512) by (cbn; auto; lia). rewrite (max_halved _ _ _ H2).
  rewrite (halving_layer 88 4 200) by (cbn; auto; lia). rewrite (max_halved _ _ _ H3). rewrite (halving_layer 96 2 10) by (cbn; auto; lia). split.
  - split; [|split; [|split]]; apply halving_fits; cbn; auto; lia.
  - unfold halved at 1. apply map_ext_in. intros e E. apply in_zrange in E. replace (e <? 128) with true by lia. unfold halved.
    rewrite !znth_map_zrange by lia. replace (e <? 128) with true by lia. Z.to_euclidean_division_equations. lia.
Qed.
End Halving.

(** The example with these weights and any image. *)
Definition no_activation (o : vop) (z : Z) : Z := z.
Lemma halving_runs x lx rate sigma : plain x -> nearest (5 / 1000) rate -> reasonable lx ->
  exists cf y a, load_config x (JObj (shipped rate sigma)) = Ok cf /\ sys_cfg_of dot_lr no_activation cf = Some y /\
    mlp_setup lx y (cf_bits cf) 8 (mlp_file halving) halving a /\
    forall v, vlen v = 784 -> Forall (fun z => 0 <= z < 2 ^ 16) (fixed_activation 8 v) ->
      (forall t s, sreach y (job_of a 0 (fixed_activation 8 v)) t s -> completed_run y s ->
         firstn 10 (cells (DramModel.d_mem (t_dram (s_tile s 1)))) = map (fun e => znth 0 (fixed_activation 8 v) e / 16) (zrange 10)) /\
      exists t s, sreach y (job_of a 0 (fixed_activation 8 v)) t s /\ completed_run y s.
Proof.
  intros P N R. destruct (shipped_fits x rate sigma dot_lr no_activation P N (fun a b _ => dot_lr_sumprod a b)) as (cf & y & H & Y & B & SH & OK & ID & UL & VW & AW & WF & R1 & AR).
  destruct (mlp_loads lx y (mlp_file halving) R SH) as (_ & a & A). exists cf, y, a. split; [exact H|]. split; [exact Y|].
  assert (SU : mlp_setup lx y (cf_bits cf) 8 (mlp_file halving) halving a).
  { constructor; try assumption; [lia|]. apply mlp_weights_file. intros u _. rewrite WF. apply halving_loadable. }
  split; [exact SU|]. intros v V F. split; [|exact (mlp_completes _ _ _ _ _ _ _ _ _ SU V)].
  intros t s RE C. rewrite (proj2 (mlp_result _ _ _ _ _ _ _ _ _ _ _ SU V RE) C). destruct (halving_mlp (y_core y) (cf_bits cf) OK B VW AW WF R1 AR _ F) as (FI & E).
  rewrite (mlp_exact (y_core y) (cf_bits cf) 8 halving OK R1 ltac:(lia) _ FI), WF. exact E.
Qed.
