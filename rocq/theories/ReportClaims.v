(** What the properties say about the statistics. *)
From Verif Require Import PyBase PyLemmas ConfigModel MemoryModel VfuModel FloatModel MvmuModel CoreModel DramModel RouterModel SystemModel SystemExamples
  NodeModel NodeExamples StatsModel ReportModel ReportSpec StatsProofs ReportProofs ReportNode.
From Coq Require Import QArith Qcanon String Lia.
From Coq Require Import Permutation.
Open Scope Z_scope.

(** ** Order and grouping; the summary *)
Lemma tree_order t t' (h h' : heap exact_num) d d' e e' : each_leaf (fun l => NoDup (map fst l)) t -> each_leaf (fun l => NoDup (map fst l)) t' ->
  Permutation (leaves t) (leaves t') -> evaluate t h = (d, e) -> evaluate t' h' = (d', e') ->
  forall k, given k (entries e d) = given k (entries e' d').
Proof.
  intros L L' PM E E' k. destruct (tree_merge t h L) as (x & y & F & _ & _ & S). rewrite E in F. injection F as <- <-.
  destruct (tree_merge t' h' L') as (x & y & F & _ & _ & S'). rewrite E' in F. injection F as <- <-.
  pose proof (shows_perm _ _ _ _ PM S k) as G. now rewrite G, (S' k).
Qed.

Lemma split_sum k (l : list (string * xstats)) :
  sum_stats (map snd l) = smg (sum_stats (given k l)) (sum_stats (map snd (filter (fun x => negb (String.eqb (fst x) k)) l))).
Proof.
  induction l as [|[x s] l IH]; [symmetry; apply smerge_0_l|]. unfold given. cbn [map snd filter fst]. destruct (String.eqb x k); cbn [negb map snd].
  - rewrite !sum_stats_cons, IH. apply smerge_assoc.
  - rewrite !sum_stats_cons, IH. unfold given. rewrite !smerge_assoc. f_equal. apply smerge_comm.
Qed.
Lemma given_filter k k' (l : list (string * xstats)) : k <> k' -> given k' (filter (fun x => negb (String.eqb (fst x) k)) l) = given k' l.
Proof.
  intros N. unfold given. induction l as [|[x s] l IH]; [reflexivity|]. cbn [filter fst]. destruct (String.eqb_spec x k) as [->|]; cbn [negb].
  - rewrite (proj2 (String.eqb_neq k k') N). exact IH.
  - cbn [filter fst]. destruct (String.eqb x k'); cbn; [f_equal|]; exact IH.
Qed.
Lemma given_gone k (l : list (string * xstats)) : given k (filter (fun x => negb (String.eqb (fst x) k)) l) = [].
Proof.
  unfold given. induction l as [|[x s] l IH]; [reflexivity|]. cbn [filter fst]. destruct (String.eqb x k) eqn:E; cbn [negb]; [exact IH|].
  cbn [filter fst]. now rewrite E.
Qed.
Lemma total_sum : forall (e : list (string * xstats)) l, NoDup (map fst e) ->
  (forall k, given k e = match given k l with [] => [] | vs => [sum_stats vs] end) -> sum_stats (map snd e) = sum_stats (map snd l).
Proof.
  induction e as [|[k s] e IH]; intros l ND H.
  - destruct l as [|[k s] l]; [reflexivity|]. specialize (H k). unfold given in H. cbn in H. rewrite String.eqb_refl in H. discriminate.
  - cbn [map fst] in ND. inversion ND as [|? ? NI ND']; subst. cbn [map snd]. rewrite sum_stats_cons, (split_sum k l).
    assert (G0 : given k e = []).
    { unfold given. clear - NI. induction e as [|[x y] e IHe]; [reflexivity|]. cbn. destruct (String.eqb_spec x k) as [->|].
      - exfalso. apply NI. now left.
      - apply IHe. intros F. apply NI. now right. }
    assert (Gk : given k ((k, s) :: e) = [s]) by (unfold given; cbn; rewrite String.eqb_refl; cbn; f_equal; exact G0).
    f_equal.
    + specialize (H k). rewrite Gk in H. destruct (given k l) as [|v vs]; [discriminate|]. now injection H.
    + apply IH; [exact ND'|]. intros k'. destruct (string_dec k k') as [<-|N].
      * now rewrite given_gone, G0.
      * rewrite (given_filter k k' l N). rewrite <- H. unfold given. cbn. now rewrite (proj2 (String.eqb_neq k k') N).
Qed.
Lemma shows_summary d h l : NoDup (map fst d) -> shows d h l -> summary h d = sum_stats (map snd l).
Proof.
  intros ND S. rewrite summary_sum. apply total_sum; [|exact S]. unfold entries. rewrite map_map. exact ND.
Qed.
Lemma tree_summary t h d h' : each_leaf (fun l => NoDup (map fst l)) t -> evaluate t h = (d, h') -> summary h' d = sum_stats (map snd (leaves t)).
Proof.
  intros L E. destruct (tree_merge t h L) as (x & y & F & _ & O & S). rewrite E in F. injection F as <- <-. apply shows_summary; [apply O|exact S].
Qed.
Lemma yields_summary r l h0 d h : yields r l -> r h0 = (Ok d, h) -> summary h d = sum_stats (map snd l).
Proof.
  intros Y E. destruct (Y h0) as (x & y & F & _ & O & S). rewrite E in F. injection F as <- <-. apply shows_summary; [apply O|exact S].
Qed.

(** ** Repeated reports *)
Lemma yields_twice r l h0 d1 h1 d2 h2 : yields r l -> r h0 = (Ok d1, h1) -> r h1 = (Ok d2, h2) ->
  entries h2 d1 = entries h1 d1 /\ (forall k, given k (entries h2 d2) = given k (entries h1 d1)) /\ forall r1 r2, In r1 (map snd d1) -> In r2 (map snd d2) -> r1 <> r2.
Proof.
  intros Y E1 E2. destruct (Y h0) as (x & y & F & K1 & O1 & S1). rewrite E1 in F. injection F as <- <-.
  destruct (Y h1) as (x & y & F & K2 & O2 & S2). rewrite E2 in F. injection F as <- <-.
  destruct O1 as (_ & _ & O1). destruct O2 as (_ & _ & O2). rewrite Forall_forall in O1, O2. split; [|split].
  - unfold entries. apply map_ext_in. intros kv Hkv. f_equal. apply (proj2 K2). now apply O1.
  - intros k. now rewrite (S1 k), (S2 k).
  - intros r1 r2 H1 H2. apply in_map_iff in H1 as (a & <- & Ha). apply in_map_iff in H2 as (b & <- & Hb). specialize (O1 a Ha). specialize (O2 b Hb). lia.
Qed.

(** ** Missing parameters *)
Section Missing.
Context (value : param -> Z -> Qc) (z : sizes) (cols port : Z) (c : sys_cfg).
Let g : rcfg exact_num := MkRcfg (A := exact_num) (param_value (A := exact_num) value z) cols port c.
Let rram := have_rram (c_storage (k_mv (y_core c))).

Lemma in_table_iff l x : in_table (l, x) = true <-> In x l.
Proof.
  unfold in_table. cbn. rewrite existsb_exists. split; [intros (y & H & E); apply Z.eqb_eq in E; now subst|].
  intros H. exists x. split; [exact H|apply Z.eqb_refl].
Qed.
Definition looked_up (p : param) : Qc := match param_value (A := exact_num) value z p with Some x => x | None => rational 0 end.
Lemma sizes_provide : sizes_known z rram -> provides g looked_up.
Proof.
  intros (S1 & S2 & S3 & S4 & S5 & S6 & S7) p H. cbn [g_param g]. unfold looked_up.
  assert (X : exists x, param_value (A := exact_num) value z p = Some x); [|destruct X as [x ->]; reflexivity].
  unfold param_value.
  destruct p; cbn [table_of rram_only] in *; (eexists; reflexivity) ||
    (cbn [g_sys g] in H; fold rram in H;
     match goal with |- exists x, (if ?b then _ else _) = _ => assert (T : b = true); [apply in_table_iff|rewrite T; eexists; reflexivity] end;
     first [exact S1 | exact S2 | exact S3 | exact S4 | exact S5 | exact S6 | apply (proj1 (S7 (H eq_refl))) | apply (proj2 (S7 (H eq_refl)))]).
Qed.

Lemma none_fails r it k : reports r it -> In (k, None) it -> fails_with r TypeError.
Proof.
  intros R I0 h0. specialize (R h0). unfold outcome in R. assert (N : all_some it = None) by (apply all_some_none; eauto).
  rewrite N in R. destruct R as (h & -> & _). eauto.
Qed.
Lemma param_none p t : table_of z p = Some t -> in_table t = false -> g_param g p = None.
Proof. intros E F. cbn [g g_param]. unfold param_value. now rewrite E, F. Qed.

Lemma scaled_none k cycles l : In (k, None) l -> In (k, None) (scaled cycles l).
Proof. intros H. unfold scaled. apply in_map_iff. now exists (k, None). Qed.
Lemma concat_in {B} (x : B) l ll : In x l -> In l ll -> In x (List.concat ll).
Proof. intros H1 H2. apply in_concat. eauto. Qed.

(** Where a tile's or core's item is found in the node's. *)
Lemma tile_in_node j n i x : 0 <= i < w_tiles (y_net c) -> In x (full_tile_items g j n i) -> In x (node_items g j n).
Proof.
  intros B H. unfold node_items. apply in_or_app. left. apply in_or_app. right. eapply concat_in; [exact H|].
  apply (in_map (full_tile_items g j n)). now apply in_zrange.
Qed.
Lemma own_in_tile j n i k : 2 <= i ->
  In (k, None) (tile_own g (zlen (j_prog j i)) (nd_tile_cycles n i) ++ dram_stats g (mstat (d_mem (t_dram (s_tile (nd_sys n) i))))) ->
  In (k, None) (full_tile_items g j n i).
Proof.
  intros B H. unfold full_tile_items, tile_items. replace ((i =? 0) || (i =? 1)) with false by (symmetry; apply Bool.orb_false_intro; lia).
  apply in_or_app. left. apply scaled_none. apply in_app_or in H. apply in_or_app. destruct H as [H|H]; [now left|right]. apply in_or_app. now left.
Qed.
Lemma core_in_tile j n i x k : 2 <= i -> In x (cores_of j n i) -> In (k, None) (core_list g (fst (fst x)) (snd (fst x)) (snd x)) ->
  In (k, None) (full_tile_items g j n i).
Proof.
  intros B Hx H. unfold full_tile_items. replace ((i =? 0) || (i =? 1)) with false by (symmetry; apply Bool.orb_false_intro; lia).
  apply in_or_app. right. eapply concat_in; [|apply in_map; exact Hx]. now apply scaled_none.
Qed.
Lemma unit_in_core k ops cycles u name : In u (co_mvmus k) -> In (name, None) (List.concat (mvmu_items g u)) -> In (name, None) (core_list g k ops cycles).
Proof.
  intros Hu H. unfold core_list. do 3 (apply in_or_app; right). eapply concat_in; [exact H|]. apply (in_map (fun u => List.concat (mvmu_items g u))). exact Hu.
Qed.

Lemma missing_item j n : computes g j n -> ~ sizes_known z rram -> exists k, In (k, None) (node_items g j n).
Proof.
  intros (i & x & u & B & Hx & Hu) N.
  assert (T : forall p t, table_of z p = Some t -> In (snd t) (fst t) \/ g_param g p = None).
  { intros p [l y] E. destruct (in_table (l, y)) eqn:F; [left; now apply in_table_iff|right]. now apply (param_none p (l, y)). }
  assert (UP : forall k, In (k, None) (List.concat (mvmu_items g u)) -> exists k, In (k, None) (node_items g j n)).
  { intros k H. exists k. apply (tile_in_node j n i); [cbn in B; lia|]. apply (core_in_tile j n i x); [lia|exact Hx|]. now apply (unit_in_core _ _ _ u). }
  assert (CP : forall k, In (k, None) (core_list g (fst (fst x)) (snd (fst x)) (snd x)) -> exists k, In (k, None) (node_items g j n)).
  { intros k H. exists k. apply (tile_in_node j n i); [cbn in B; lia|]. apply (core_in_tile j n i x); [lia|exact Hx|exact H]. }
  destruct (T IntraDyn _ eq_refl) as [P1|P1]; cbn [fst snd] in P1.
  2: { exists "Router"%string. unfold node_items. apply in_or_app. right. left. now rewrite P1. }
  destruct (T EdramDyn _ eq_refl) as [P2|P2]; cbn [fst snd] in P2.
  2: { exists "DRAM"%string. apply (tile_in_node j n i); [cbn in B; lia|]. apply own_in_tile; [lia|]. apply in_or_app. right. left. unfold mk. now rewrite P2. }
  destruct (T TInstrDyn _ eq_refl) as [P3|P3]; cbn [fst snd] in P3.
  2: { exists "Tile instruction memory"%string. apply (tile_in_node j n i); [cbn in B; lia|]. apply own_in_tile; [lia|]. apply in_or_app. left. right. left. now rewrite P3. }
  destruct (T CInstrDyn _ eq_refl) as [P4|P4]; cbn [fst snd] in P4.
  2: { apply (CP "Core instruction memory"%string). unfold core_list. apply in_or_app. left. right. left. now rewrite P4. }
  destruct (T DataDyn _ eq_refl) as [P5|P5]; cbn [fst snd] in P5.
  2: { apply (CP "SRAM"%string). unfold core_list. apply in_or_app. right. apply in_or_app. left. left. now rewrite P5. }
  destruct (T OutDyn _ eq_refl) as [P6|P6]; cbn [fst snd] in P6.
  2: { apply (UP "Output Register Array"%string). unfold mvmu_items. rewrite !concat_app. apply in_or_app. right. apply in_or_app. right.
       cbn [List.concat]. apply in_or_app. right. apply in_or_app. left. left. now rewrite P6. }
  assert (R : rram = true /\ ~ (In (z_dac z) [1; 2; 4; 8; 16] /\ In (z_adc z) [1; 2; 4; 8; 16])).
  { destruct rram eqn:E.
    - split; [reflexivity|]. intros D. apply N. split; [exact P1|]. split; [exact P2|]. split; [exact P3|]. split; [exact P4|]. split; [exact P5|]. split; [exact P6|]. auto.
    - exfalso. apply N. split; [exact P1|]. split; [exact P2|]. split; [exact P3|]. split; [exact P4|]. split; [exact P5|]. split; [exact P6|]. discriminate. }
  destruct R as [R N'].
  destruct (T DacDyn _ eq_refl) as [P7|P7]; cbn [fst snd] in P7.
  2: { apply (UP "DAC"%string). unfold mvmu_items. cbn [g_sys g]. fold rram. rewrite R. rewrite concat_app. apply in_or_app. left.
       cbn [List.concat]. apply in_or_app. right. apply in_or_app. left. left. now rewrite P7. }
  destruct (T AdcDyn _ eq_refl) as [P8|P8]; cbn [fst snd] in P8.
  2: { apply (UP "ADC"%string). unfold mvmu_items. cbn [g_sys g]. fold rram. rewrite R. rewrite concat_app. apply in_or_app. left.
       cbn [List.concat]. apply in_or_app. right. apply in_or_app. right. apply in_or_app. left. left. now rewrite P8. }
  exfalso. apply N'. split; assumption.
Qed.

Lemma sizes_decide j n : computes g j n ->
  (sizes_known z rram -> exists q, provides g q /\ yields (node_report g j n) (node_parts q g j n)) /\
  (~ sizes_known z rram -> fails_with (node_report g j n) TypeError).
Proof.
  intros C. assert (W : 0 < w_tiles (y_net (g_sys g))) by (destruct C as (i & _ & _ & B & _); lia). split.
  - intros S. exists looked_up. split; [now apply sizes_provide|]. apply node_yields; [now apply sizes_provide|exact W].
  - intros N. destruct (missing_item j n C N) as [k H]. apply (none_fails _ _ k (node_reports g j n W) H).
Qed.
End Missing.

Lemma no_tiles q g j n : provides g q -> w_tiles (y_net (g_sys g)) <= 0 -> fails_with (node_report g j n) KeyError.
Proof.
  intros P W h0. unfold node_report. assert (E : zrange (w_tiles (y_net (g_sys g))) = []) by (unfold zrange; replace (Z.to_nat _) with 0%nat by lia; reflexivity).
  rewrite E. cbn [map]. unfold add_router_energy, start_merge.
  pose proof (noc_reports g (nd_busy n) h0) as R. unfold outcome in R.
  assert (A : all_some (scaled (nd_busy n) (noc_stats g)) = Some (match all_some (scaled (nd_busy n) (noc_stats g)) with Some v => v | None => [] end)).
  { unfold noc_stats. rewrite (known q g P InterLeak eq_refl), (known q g P InterArea eq_refl), (known q g P IntraLeak eq_refl), (known q g P IntraArea eq_refl). reflexivity. }
  rewrite A in R. destruct R as (d & h & -> & K & O & V). cbn [merge_all]. rewrite (known q g P IntraDyn eq_refl). cbn [vmul vint].
  exists h. specialize (V "Router"%string). unfold val_of in V.
  assert (T : total "Router"%string match all_some (scaled (nd_busy n) (noc_stats g)) with Some v => v | None => [] end = None).
  { apply total_absent. destruct (all_some (scaled (nd_busy n) (noc_stats g))) as [v|] eqn:AS; [|intros []]. rewrite (all_some_keys _ _ AS).
    unfold scaled, noc_stats. rewrite map_map. cbn. intuition discriminate. }
  rewrite T in V. destruct (dget d "Router"%string); [discriminate|reflexivity].
Qed.
