(** The example without saturation: plain integer arithmetic. *)
From Verif Require Import PyBase PyLemmas ConfigModel ConfigSpec MemoryModel VfuModel FloatModel MvmuModel MvmuSpec MvmuUse CoreModel SymCore MlpSpec MlpLoad.
From Flocq Require Import IEEE754.BinarySingleNaN Core.
From Coq Require Import ZifyBool ZifyNat Reals.
Open Scope Z_scope.

Lemma zrange_snoc n : 0 <= n -> zrange (n + 1) = zrange n ++ [n].
Proof.
  intros H. unfold zrange. replace (Z.to_nat (n + 1)) with (S (Z.to_nat n)) by lia. rewrite seq_S, map_app. cbn [map Nat.add]. now rewrite Z2Nat.id by lia.
Qed.
Lemma zsum_snoc l x : zsum (l ++ [x]) = zsum l + x.
Proof. unfold zsum. rewrite fold_right_app. cbn [fold_right]. induction l as [|y l IH]; cbn [fold_right]; lia. Qed.

Section Exact.
Context (c : core_cfg) (cfg : list bitcfg) (ww : Z) (w : Z -> list (list f64)).
Context (OK : mvmu_ok cfg ww (k_mv c)) (R1 : c_dac_res (k_mv c) = 1) (HW : 0 <= v_width (k_vfu c) <= 31).
Notation frac := (c_weight_frac (k_mv c)).
Notation aw := (c_act_width (k_mv c)).

Lemma znth_in_or {A} (d : A) l i : In (znth d l i) l \/ znth d l i = d.
Proof. unfold znth. destruct (nth_in_or_default (Z.to_nat i) l d); auto. Qed.
Lemma part_range x p : Forall (fun v => 0 <= v < 2 ^ aw) x -> Forall (fun v => 0 <= v < 2 ^ aw) (part x p).
Proof.
  intros H. pose proof (ok_act _ _ _ OK). assert (0 < 2 ^ aw) by (apply Z.pow_pos_nonneg; lia).
  rewrite Forall_forall in *. intros v I. unfold part in I. apply in_map_iff in I as (i & <- & _).
  destruct (znth_in_or 0 x (128 * p + i)) as [E| ->]; [now apply H|lia].
Qed.
Lemma value_exact u j x : Forall (fun v => 0 <= v < 2 ^ aw) x -> Forall (fun v => weight_mag frac v < 2 ^ ww) (znth [] (w u) j) ->
  no_saturation (k_mv c) cfg (znth [] (w u) j) x -> int32 (exact_product frac w u j x) -> array_value c cfg w u j x = exact_product frac w u j x / 2 ^ frac.
Proof.
  intros IX IW NS I32. unfold array_value. rewrite (value_product cfg ww (k_mv c) OK _ _ NS). unfold product.
  assert (E1 : map (input_value (k_mv c)) x = x).
  { transitivity (map (fun v => v mod 2 ^ aw) x); [apply map_ext; intros v; now apply (input_value_1 cfg ww)|]. now apply map_mod_small. }
  assert (E2 : map (stored_weight ww frac) (znth [] (w u) j) = map (fixed_weight frac) (znth [] (w u) j)).
  { apply map_ext_in. intros v I. rewrite Forall_forall in IW. apply stored_exact. now apply IW. }
  rewrite E1, E2. fold (exact_product frac w u j x). now rewrite wrap32_id.
Qed.

Lemma neuron_exact first parts outs x e : 1 < parts -> layer_fits c cfg ww w first parts outs x -> 0 <= e < outs ->
  neuron c cfg w first parts x e = exact_sum frac w first parts x e parts.
Proof.
  intros P [IX IW NS I32 SU] E. unfold neuron. cbv zeta.
  assert (T : forall p, 0 <= p < parts -> array_value c cfg w (first + e / 128 * parts + p) (e mod 128) (part x p) = exact_product_of frac w first parts x e p / 2 ^ frac).
  { intros p Hp. apply value_exact; [now apply part_range|now apply IW|now apply NS|now apply I32]. }
  assert (G : forall m : nat, Z.of_nat m < parts ->
    fold_left (fun acc p => sum c (array_value c cfg w (first + e / 128 * parts + p) (e mod 128) (part x p)) acc) (map (Z.add 1) (zrange (Z.of_nat m)))
      (array_value c cfg w (first + e / 128 * parts + 0) (e mod 128) (part x 0)) = exact_sum frac w first parts x e (Z.of_nat m + 1)).
  { induction m as [|m IH]; intros Hm.
    - cbn [Z.of_nat zrange Z.to_nat seq map fold_left]. rewrite (T 0) by lia. unfold exact_sum. rewrite (zrange_snoc 0) by lia. cbn [zrange Z.to_nat seq map app zsum fold_right]. lia.
    - replace (Z.of_nat (S m)) with (Z.of_nat m + 1) by lia. rewrite (zrange_snoc (Z.of_nat m)) by lia. rewrite map_app, fold_left_app. cbn [map fold_left].
      rewrite IH by lia. rewrite T by lia. unfold exact_sum at 2. rewrite (zrange_snoc (Z.of_nat m + 1)) by lia. rewrite map_app. cbn [map]. rewrite zsum_snoc.
      fold (exact_sum frac w first parts x e (Z.of_nat m + 1)).
      pose proof (SU e (Z.of_nat m + 1 + 1) E ltac:(lia)) as B. unfold exact_sum in B. rewrite (zrange_snoc (Z.of_nat m + 1)) in B by lia. rewrite map_app in B. cbn [map] in B.
      rewrite zsum_snoc in B. fold (exact_sum frac w first parts x e (Z.of_nat m + 1)) in B. replace (1 + Z.of_nat m) with (Z.of_nat m + 1) by lia.
      assert (2 ^ v_width (k_vfu c) <= 2 ^ 31) by (apply Z.pow_le_mono_r; lia). change (2 ^ 31) with 2147483648 in *.
      unfold sum, saturated. rewrite wrap32_id by (unfold int32; lia). lia. }
  specialize (G (Z.to_nat (parts - 1)) ltac:(lia)). rewrite Z2Nat.id in G by lia. rewrite G. f_equal. lia.
Qed.
Lemma dense_exact first parts outs x : 1 < parts -> layer_fits c cfg ww w first parts outs x ->
  dense c cfg w first parts outs x = exact_dense frac w first parts outs x.
Proof. intros P F. unfold dense, exact_dense. apply map_ext_in. intros e I. apply in_zrange in I. now apply (neuron_exact first parts outs). Qed.
Lemma hidden_exact first parts outs x : 1 < parts -> layer_fits c cfg ww w first parts outs x ->
  hidden c cfg w first parts outs x = exact_hidden frac w first parts outs x.
Proof.
  intros P F. unfold hidden, exact_hidden. rewrite (dense_exact first parts outs x P F). apply map_ext_in. intros v I.
  unfold exact_dense in I. apply in_map_iff in I as (e & <- & I). apply in_zrange in I. pose proof (lf_sums _ _ _ _ _ _ _ _ F e parts I ltac:(lia)).
  unfold rectified, saturated. assert (0 < 2 ^ v_width (k_vfu c)) by (apply Z.pow_pos_nonneg; lia). lia.
Qed.
Lemma mlp_exact x : mlp_fits c cfg ww w x -> mlp c cfg w x = exact_mlp frac w x.
Proof.
  intros (F1 & F2 & F3 & F4). unfold mlp, exact_mlp. rewrite (hidden_exact 0 7 1024 x) by (assumption || lia). rewrite (hidden_exact 56 8 512) by (assumption || lia).
  rewrite (hidden_exact 88 4 200) by (assumption || lia). apply dense_exact; [lia|exact F4].
Qed.
End Exact.

(** How far the sums of quotients are from the quotient of the sum. *)
Lemma exact_sum_near frac w first parts x e m : 0 <= frac -> 0 <= m ->
  let total := zsum (map (exact_product_of frac w first parts x e) (zrange m)) in
  exact_sum frac w first parts x e m * 2 ^ frac <= total <= exact_sum frac w first parts x e m * 2 ^ frac + m * (2 ^ frac - 1).
Proof.
  intros F M. cbv zeta. unfold exact_sum. assert (P : 0 < 2 ^ frac) by (apply Z.pow_pos_nonneg; lia).
  replace m with (Z.of_nat (Z.to_nat m)) by lia. induction (Z.to_nat m) as [|k IH]; [cbn; lia|].
  replace (Z.of_nat (S k)) with (Z.of_nat k + 1) by lia. rewrite zrange_snoc by lia. rewrite !map_app. cbn [map]. rewrite !zsum_snoc.
  pose proof (Z.div_mod (exact_product_of frac w first parts x e (Z.of_nat k)) (2 ^ frac) ltac:(lia)) as D.
  pose proof (Z.mod_pos_bound (exact_product_of frac w first parts x e (Z.of_nat k)) (2 ^ frac) P). nia.
Qed.
