(** The report of cores, tiles, nodes and of the simulation. *)
From Verif Require Import PyBase PyLemmas ConfigModel MemoryModel VfuModel FloatModel MvmuModel CoreModel DramModel RouterModel SystemModel NodeModel
  StatsModel ReportModel ReportSpec StatsProofs ReportProofs.
From Coq Require Import QArith Qcanon String Lia.
From Coq Require Import Permutation.
Open Scope Z_scope.

Ltac nodup_names := repeat (constructor; [cbn; intuition discriminate|]); constructor.

Lemma all_some_concat_map {B} (f : B -> items) (v : B -> list (string * xstats)) l : (forall x, In x l -> all_some (f x) = Some (v x)) ->
  all_some (List.concat (map f l)) = Some (flat_map v l).
Proof.
  induction l as [|x l IH]; intros H; [reflexivity|]. cbn [map List.concat flat_map]. rewrite all_some_app, (H x) by now left.
  rewrite IH; [reflexivity|]. intros y Hy. apply H. now right.
Qed.
Lemma Forall2_map_same {B C D} (R : C -> D -> Prop) (f : B -> C) (h : B -> D) l : (forall x, In x l -> R (f x) (h x)) -> Forall2 R (map f l) (map h l).
Proof. induction l as [|x l IH]; intros H; constructor; [apply H; now left|]. apply IH. intros y Hy. apply H. now right. Qed.

Section Items.
Context (g : rcfg exact_num).
Let mv := k_mv (y_core (g_sys g)).

(** ** Cores *)
Definition core_list (k : core) (ops cycles : Z) : items :=
  core_own g ops cycles ++ sram_stats g (mstat (co_cache k)) ++ vfu_stats g (co_vfu k) ++
  List.concat (map (fun u => List.concat (mvmu_items g u)) (co_mvmus k)).
Definition core_items (k : core) (ops cycles : Z) : items := scaled cycles (core_list k ops cycles).
Lemma core_reports k ops cycles : reports (core_report g k ops cycles) (core_items k ops cycles).
Proof.
  unfold core_report, core_items. apply with_leakage_reports. unfold core_list.
  apply (start_merge_reports (build (core_own g ops cycles)) _ _
    (sram_stats g (mstat (co_cache k)) :: vfu_stats g (co_vfu k) :: map (fun u => List.concat (mvmu_items g u)) (co_mvmus k))).
  - apply build_reports. nodup_names.
  - constructor; [apply build_reports; nodup_names|]. constructor; [apply build_reports; nodup_names|].
    apply Forall2_map_same. intros u _. apply mvmu_reports.
Qed.

(** ** Tiles *)
Definition tile_items (id : Z) (d : dram) (s : rstats) (ops cycles : Z) : items :=
  if (id =? 0) || (id =? 1) then router_stats g s
  else scaled cycles (tile_own g ops cycles ++ dram_stats g (mstat (d_mem d)) ++ ctrl_stats g (d_stat d) ++ router_stats g s).
Lemma tile_reports id d r ops cycles cores its : Forall2 reports cores its ->
  reports (tile_report g id d r ops cycles cores)
    (tile_items id d (r_stat r) ops cycles ++ (if (id =? 0) || (id =? 1) then [] else List.concat its)).
Proof.
  intros F. unfold tile_report, tile_items. destruct ((id =? 0) || (id =? 1)).
  - rewrite app_nil_r. apply build_reports. nodup_names.
  - apply start_merge_reports; [|exact F]. apply with_leakage_reports.
    pose proof (start_merge_reports (build (tile_own g ops cycles)) (tile_own g ops cycles)
      [build (dram_stats g (mstat (d_mem d))); build (ctrl_stats g (d_stat d)); build (router_stats g (r_stat r))]
      [dram_stats g (mstat (d_mem d)); ctrl_stats g (d_stat d); router_stats g (r_stat r)]) as S.
    cbn [List.concat] in S. rewrite app_nil_r in S. apply S.
    + apply build_reports. nodup_names.
    + repeat constructor; apply build_reports; nodup_names.
Qed.

Definition full_tile_items (j : job) (n : node) (i : Z) : items :=
  tile_items i (t_dram (s_tile (nd_sys n) i)) (r_stat (n_router (s_net (nd_sys n)) i)) (zlen (j_prog j i)) (nd_tile_cycles n i) ++
  (if (i =? 0) || (i =? 1) then [] else List.concat (map (fun x => core_items (fst (fst x)) (snd (fst x)) (snd x)) (cores_of j n i))).
Lemma tile_of_reports j n i : reports (tile_of g j n i) (full_tile_items j n i).
Proof.
  unfold tile_of, full_tile_items. apply tile_reports. unfold cores_of. rewrite map_map. cbn [fst snd].
  apply Forall2_map_same. intros x _. apply core_reports.
Qed.

(** ** The node *)
Definition energy_item (e : val exact_num) : option xstats :=
  option_map (fun x => MkStats (A := exact_num) 0 x (rational 0) (rational 0)) e.
Lemma router_energy e r it : In "Router"%string (map fst it) -> reports r it ->
  reports (add_router_energy e r) (it ++ [("Router"%string, energy_item e)]).
Proof.
  intros IN R h0. specialize (R h0). unfold add_router_energy. rewrite all_some_app. unfold outcome in R.
  destruct (all_some it) as [v|] eqn:AS.
  - destruct R as (d & h & -> & K & O & V). destruct e as [e|]; cbn [all_some energy_item option_map].
    + assert (T : exists s, total "Router"%string v = Some s).
      { rewrite <- (all_some_keys it v AS) in IN. unfold total. destruct (given "Router"%string v) as [|s l] eqn:G; [|eauto].
        exfalso. apply in_map_iff in IN as ([k s] & E & Hin). cbn in E. subst k.
        assert (F : In s (given "Router"%string v)); [|rewrite G in F; destruct F].
        unfold given. apply in_map_iff. exists ("Router"%string, s). split; [reflexivity|]. apply filter_In. split; [exact Hin|reflexivity]. }
      destruct T as [s T]. pose proof (V "Router"%string) as VR. rewrite T in VR. unfold val_of in VR.
      destruct (dget d "Router"%string) as [i|] eqn:D; [|discriminate]. cbn in VR. injection VR as VR.
      destruct O as (O1 & O2 & O3). rewrite Forall_forall in O3. pose proof (O3 _ (dget_in d _ i D)) as B. cbn [snd] in B.
      eexists d, _. split; [reflexivity|]. split; [|split].
      * split; [rewrite length_upd; apply K|]. intros x Hx. rewrite deref_upd by lia. destruct (Nat.eqb_spec x i) as [->|]; [lia|]. now apply (proj2 K).
      * split; [exact O1|]. split; [exact O2|]. rewrite length_upd. now apply Forall_forall.
      * intros k. rewrite (val_of_upd d h "Router"%string i _ k O2 D) by lia. rewrite total_app, <- V.
        rewrite (total_cons "Router"%string _ [] k) by (constructor; [intros []|constructor]).
        destruct (String.eqb_spec "Router"%string k) as [<-|N].
        -- unfold val_of. rewrite D. cbn [option_map oplus]. f_equal. rewrite VR. apply stats_eq; cbn [s_count s_dyn s_leak s_area smerge nadd exact_num]; rewrite ?r0; first [reflexivity | lia | symmetry; apply Qcplus_0_r].
        -- change (total k []) with (@None xstats). now destruct (val_of d h k).
    + exists h. auto.
  - destruct R as (h & -> & K). cbn. exists h. auto.
Qed.

Definition node_items (j : job) (n : node) : items :=
  (scaled (nd_busy n) (noc_stats g) ++ List.concat (map (full_tile_items j n) (zrange (w_tiles (y_net (g_sys g)))))) ++
  [("Router"%string, energy_item (vmul (g_param g IntraDyn) (vint (nd_busy n))))].

Lemma tile_has_router j n i : In "Router"%string (map fst (full_tile_items j n i)).
Proof.
  unfold full_tile_items, tile_items. rewrite map_app. apply in_or_app. left. destruct ((i =? 0) || (i =? 1)).
  - now left.
  - unfold scaled. rewrite map_map. cbn. tauto.
Qed.
Lemma noc_reports z : reports (with_leakage (merge_all [] [build (noc_stats g)]) z) (scaled z (noc_stats g)).
Proof.
  apply with_leakage_reports. pose proof (merge_all_reports [build (noc_stats g)] [noc_stats g]) as M. cbn [List.concat] in M.
  rewrite app_nil_r in M. apply M. constructor; [|constructor]. apply build_reports. nodup_names.
Qed.

Lemma node_reports j n : 0 < w_tiles (y_net (g_sys g)) -> reports (node_report g j n) (node_items j n).
Proof.
  intros W. unfold node_report, node_items. apply router_energy.
  - rewrite map_app. apply in_or_app. right.
    assert (Z0 : In 0 (zrange (w_tiles (y_net (g_sys g))))) by (apply in_zrange; lia).
    induction (zrange (w_tiles (y_net (g_sys g)))) as [|i l IH]; [destruct Z0|]. cbn [map List.concat]. rewrite map_app. apply in_or_app.
    left. apply tile_has_router.
  - apply start_merge_reports.
    + apply noc_reports.
    + apply Forall2_map_same. intros i _. apply tile_of_reports.
Qed.
End Items.

(** ** With all parameters *)
Definition agrees (it : items) (l : list (string * xstats)) : Prop := exists v, all_some it = Some v /\ forall k, total k v = total k l.
Lemma agrees_app a b l m : agrees a l -> agrees b m -> agrees (a ++ b) (l ++ m).
Proof.
  intros (v & E1 & T1) (w & E2 & T2). exists (v ++ w). rewrite all_some_app, E1, E2. split; [reflexivity|]. intros k. now rewrite !total_app, T1, T2.
Qed.
Lemma agrees_eq it l : all_some it = Some l -> agrees it l.
Proof. intros E. now exists l. Qed.
Lemma agrees_flat {B} (f : B -> items) (h : B -> list (string * xstats)) l : (forall x, agrees (f x) (h x)) ->
  agrees (List.concat (map f l)) (flat_map h l).
Proof. intros H. induction l as [|x l IH]; [now apply agrees_eq|]. cbn [map List.concat flat_map]. now apply agrees_app. Qed.
Lemma agrees_yields r it l : reports r it -> agrees it l -> yields r l.
Proof.
  intros R (v & E & T) h0. specialize (R h0). unfold outcome in R. rewrite E in R. destruct R as (d & h & -> & K & O & V).
  exists d, h. split; [reflexivity|]. split; [exact K|]. split; [exact O|]. apply shows_iff; [apply O|]. intros k. now rewrite V, T.
Qed.

Section Known.
Context (q : param -> Qc) (g : rcfg exact_num) (P : provides g q).

Ltac params := repeat match goal with |- context [g_param g ?p] => rewrite (known q g P p eq_refl) end.
Ltac part_eq := apply stats_eq; cbn [s_count s_dyn s_leak s_area smerge nadd nmul ndiv nint exact_num scale]; rewrite ?r0, ?rational_1; first [reflexivity | lia | ring].

Lemma core_agrees k ops cycles : agrees (core_items g k ops cycles) (core_parts q g k ops cycles).
Proof.
  unfold core_items, core_list, core_parts. cbv zeta. unfold scaled. rewrite !map_app, !app_assoc. apply agrees_app.
  - unfold core_own, sram_stats, vfu_stats. params. apply agrees_eq.
    cbn [all_some scaled map option_map fst snd mk mk_count vmul vadd vdiv vint app]. unfold part. apply f_equal.
    repeat (apply f_equal2; [apply f_equal2; [reflexivity|part_eq]|]). reflexivity.
  - exists (map (fun x => (fst x, scale cycles (snd x))) (flat_map (mvmu_vals q g) (co_mvmus k))). split.
    + rewrite all_some_map. rewrite (all_some_concat_map _ (mvmu_vals q g)); [reflexivity|]. intros u _. now apply mvmu_known.
    + intros x. now apply units_total.
Qed.

Lemma router_agrees s cycles : agrees (scaled cycles (router_stats g s)) (router_parts q s cycles).
Proof.
  unfold router_stats, router_parts. params. apply agrees_eq.
  cbn [all_some scaled map option_map fst snd mk mk_count vmul vadd vdiv vint app]. unfold part. apply f_equal.
  repeat (apply f_equal2; [apply f_equal2; [reflexivity|part_eq]|]). reflexivity.
Qed.
Lemma scale_1 s : scale 1 s = s.
Proof. destruct s. unfold scale. cbn. f_equal. rewrite rational_1. ring. Qed.
Lemma scaled_1 l : scaled 1 l = l.
Proof.
  unfold scaled. induction l as [|[k [s|]] l IH]; cbn; [reflexivity| |]; rewrite IH; [now rewrite scale_1|reflexivity].
Qed.

Lemma tile_agrees id d s ops cycles : agrees (tile_items g id d s ops cycles) (tile_parts q id d s ops cycles).
Proof.
  unfold tile_items, tile_parts. destruct ((id =? 0) || (id =? 1)).
  - rewrite <- (scaled_1 (router_stats g s)). apply router_agrees.
  - unfold scaled. rewrite !app_assoc, map_app. apply agrees_app; [|apply router_agrees].
    unfold tile_own, dram_stats, ctrl_stats. params. apply agrees_eq.
    cbn [all_some scaled map option_map fst snd mk mk_count vmul vadd vdiv vint app]. unfold part. apply f_equal.
    repeat (apply f_equal2; [apply f_equal2; [reflexivity|part_eq]|]). reflexivity.
Qed.
Lemma full_tile_agrees j n i : agrees (full_tile_items g j n i) (full_tile_parts q g j n i).
Proof.
  unfold full_tile_items, full_tile_parts. apply agrees_app; [apply tile_agrees|]. destruct ((i =? 0) || (i =? 1)); [now apply agrees_eq|].
  apply agrees_flat. intros x. apply core_agrees.
Qed.

Lemma agrees_perm it l m : Permutation l m -> agrees it l -> agrees it m.
Proof.
  intros PM (v & E & T). exists v. split; [exact E|]. intros k. rewrite T. unfold total.
  assert (G : Permutation (given k l) (given k m)).
  { unfold given. apply Permutation_map. clear - PM. induction PM; cbn.
    - constructor.
    - destruct (String.eqb _ k); [now constructor|assumption].
    - destruct (String.eqb (fst y) k), (String.eqb (fst x) k); try reflexivity. constructor.
    - etransitivity; eassumption. }
  destruct (given k l) as [|x xs], (given k m) as [|y ys]; auto.
  - apply Permutation_nil in G. discriminate.
  - symmetry in G. apply Permutation_nil in G. discriminate.
  - f_equal. now apply sum_stats_perm.
Qed.

Lemma node_agrees j n : agrees (node_items g j n) (node_parts q g j n).
Proof.
  unfold node_items, node_parts, noc_parts.
  set (T := flat_map (full_tile_parts q g j n) (zrange (w_tiles (y_net (g_sys g))))).
  eapply agrees_perm; [|apply agrees_app; [apply agrees_app; [|apply agrees_flat; intros i; apply full_tile_agrees]|]].
  3: { unfold energy_item. rewrite (known q g P IntraDyn eq_refl). apply agrees_eq. reflexivity. }
  2: { unfold noc_stats. params. apply agrees_eq.
       cbn [all_some scaled map option_map fst snd mk mk_count vmul vadd vdiv vint app]. reflexivity. }
  fold T. rewrite <- app_assoc. cbn [app]. apply perm_skip.
  cbn [scale s_count s_dyn s_leak s_area].
  apply perm_skip. rewrite Permutation_app_comm. cbn [app]. unfold part.
  assert (E : (@MkStats exact_num 0 (q IntraDyn * rational (nd_busy n))%Qc (rational 0) (rational 0)) =
              (@MkStats exact_num 0 (q IntraDyn * rational (nd_busy n))%Qc (0 * rational 0)%Qc 0%Qc)).
  { apply stats_eq; cbn [s_count s_dyn s_leak s_area]; rewrite ?r0; first [reflexivity | ring]. }
  cbn [nmul exact_num nint]. rewrite E. reflexivity.
Qed.

Lemma core_yields k ops cycles : yields (core_report g k ops cycles) (core_parts q g k ops cycles).
Proof. eapply agrees_yields; [apply core_reports|apply core_agrees]. Qed.
Lemma tile_yields j n i : yields (tile_of g j n i) (full_tile_parts q g j n i).
Proof. eapply agrees_yields; [apply tile_of_reports|apply full_tile_agrees]. Qed.
Lemma node_yields j n : 0 < w_tiles (y_net (g_sys g)) -> yields (node_report g j n) (node_parts q g j n).
Proof. intros W. eapply agrees_yields; [now apply node_reports|apply node_agrees]. Qed.
Lemma sim_yields nodes : 0 < w_tiles (y_net (g_sys g)) -> yields (sim_report g nodes) (flat_map (fun x => node_parts q g (fst x) (snd x)) nodes).
Proof.
  intros W. eapply agrees_yields; [apply merge_all_reports|apply agrees_flat; intros x; apply node_agrees].
  apply Forall2_map_same. intros x _. now apply node_reports.
Qed.
End Known.
