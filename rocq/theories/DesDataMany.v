(** The simulations of all nodes with two sets of jobs that differ only in data. *)
From Verif Require Import PyBase PyLemmas ConfigModel MemoryModel CoreModel CoreSpec DramModel RouterModel SystemModel SystemSpec DesModel DesSpec DesShape DesDataSpec DesData DesDataRun
  DesManyModel DesManySpec DesManyClaims DesDataManySpec.
From Coq Require Import ZifyBool ZifyNat.
Open Scope Z_scope.

Section All.
Context (cfg : list bitcfg) (ww : Z) (c : sys_cfg) (OK : core_ok cfg ww (y_core c)) (D : Prop).
Notation RK := (tracked (y_core c) D).
Notation may := (div_error D).
Notation RM := same_cells_but.
Notation NA := (node_alike RK RM).
Inductive many_alike : whole -> whole -> Prop := ma t q l l' o : Forall2 NA l l' -> many_alike (MkMany t q l o) (MkMany t q l' o).

Lemma nodes_at l l' k n : Forall2 NA l l' -> the_node l k = Some n -> exists n', the_node l' k = Some n' /\ NA n n'.
Proof.
  intros H. unfold the_node. destruct (k <? 0); [discriminate|]. generalize (Z.to_nat k) as i. induction H as [|x y l l' HA _ IH]; intros [|i] E; cbn in *; try discriminate; [|eauto].
  injection E as ->. eauto.
Qed.
Lemma nodes_put l l' k n n' : Forall2 NA l l' -> NA n n' -> Forall2 NA (put_node l k n) (put_node l' k n').
Proof.
  intros H HN. unfold put_node. generalize (Z.to_nat k) as i. induction H as [|x y l l' HA H IH]; intros [|i]; cbn; constructor; auto.
Qed.
Lemma over_same n n' : NA n n' -> process_over n = process_over n'.
Proof. now intros []. Qed.
Lemma all_over l l' : Forall2 NA l l' -> forallb process_over l = forallb process_over l'.
Proof. induction 1 as [|x y l l' HA _ IH]; [reflexivity|]. cbn [forallb]. now rewrite IH, (over_same _ _ HA). Qed.

Lemma fire_many_alike now e l l' m new o : Forall2 NA l l' -> fire_many (real c) c now e l = MGo m new o ->
  (exists m', fire_many (real c) c now e l' = MGo m' new o /\ Forall2 NA m m') \/ (exists x, fire_many (real c) c now e l' = MRaise x /\ may x).
Proof.
  intros H. destruct e as [k|k e|]; cbn [fire_many].
  - destruct (the_node l k) as [n|] eqn:E; [|discriminate]. destruct (nodes_at _ _ _ _ H E) as (n' & -> & HN). intros [= <- <- <-]. left. eexists. split.
    + assert (LT : length (z_tiles n') = length (z_tiles n)) by (destruct HN as [a a' ? ? ? ? ? F]; cbn [z_tiles]; symmetry; clear - F; induction F; cbn [length]; congruence).
      replace (node_events (z_tiles n')) with (node_events (z_tiles n)); [reflexivity|]. unfold node_events. rewrite LT. destruct (z_tiles n), (z_tiles n'); try discriminate; reflexivity.
    + apply nodes_put; [exact H|]. destruct HN. unfold node_start. cbn [z_tiles]. now constructor.
  - destruct (the_node l k) as [n|] eqn:E; [|destruct e; discriminate]. destruct (nodes_at _ _ _ _ H E) as (n' & E' & HN). rewrite E'.
    assert (G : forall e, match fire (real c) c now e n with DGo n1 new => MGo (put_node l k n1) (tag k new) false | DRaise x => MRaise x | DStuck => MStuck end = MGo m new o ->
      (exists m', match fire (real c) c now e n' with DGo n1 new => MGo (put_node l' k n1) (tag k new) false | DRaise x => MRaise x | DStuck => MStuck end = MGo m' new o /\ Forall2 NA m m') \/
      (exists x, match fire (real c) c now e n' with DGo n1 new => MGo (put_node l' k n1) (tag k new) false | DRaise x => MRaise x | DStuck => MStuck end = @MRaise core cells_valid x /\ may x)).
    { clear e. intros e. pose proof (fire_alike _ _ _ _ _ _ _ (times_refl c) (real_follows cfg ww c OK D) now e _ _ HN) as Q.
      destruct (fire (real c) c now e n) as [n1 l1| |]; try discriminate. intros [= <- <- <-]. destruct (fire (real c) c now e n') as [n1' l1'|x|]; [left|right; eauto|destruct Q]. destruct Q as [Q <-].
      eexists. split; [reflexivity|]. now apply nodes_put. }
    destruct e; try exact (G _). clear G. replace (z_fin n') with (z_fin n) by (now destruct HN). destruct (z_fin n); try discriminate. intros [= <- <- <-]. left.
    assert (HP : Forall2 NA (put_node l k (set_fin n FCond)) (put_node l' k (set_fin n' FCond))) by (apply nodes_put; [exact H|]; destruct HN; now constructor).
    eexists. split; [|exact HP]. now rewrite (all_over _ _ HP).
  - intros [= <- <- <-]. left. eauto.
Qed.
Lemma many_step_alike x x' r : many_alike x x' -> many_step (real c) c x = YStep r ->
  (exists r', many_step (real c) c x' = YStep r' /\ many_alike r r') \/ (exists e, many_step (real c) c x' = YRaise e /\ may e).
Proof.
  intros [t q l l' o H]. unfold many_step. cbn [v_over v_queue v_nodes]. destruct o; [discriminate|]. destruct q as [|y q]; [discriminate|].
  destruct (fire_many (real c) c (e_time y) (e_ev y) l) as [m new o| |] eqn:E; try discriminate. intros [= <-].
  destruct (fire_many_alike _ _ _ _ _ _ _ H E) as [(m' & -> & HM)|(e & -> & M)]; [left; eexists; split; [reflexivity|now constructor]|right; eauto].
Qed.
Lemma many_over x : many_returned c x <-> v_over x = true.
Proof.
  unfold many_returned, many_step. destruct (v_over x); [tauto|]. split; [|discriminate]. destruct (v_queue x); [discriminate|]. destruct (fire_many _ _ _ _ _); discriminate.
Qed.
Lemma many_alike_same x x' : many_alike x x' -> same_whole x x' /\ (many_returned c x <-> many_returned c x').
Proof.
  intros [t q l l' o H]. split; [|rewrite !many_over; reflexivity]. constructor; [reflexivity|reflexivity|]. cbn [v_nodes]. induction H as [|n n' l l' HN _ IH]; constructor; [|exact IH].
  split; [now destruct HN|]. split; [now destruct HN|]. apply (alike_timing c D). now constructor.
Qed.

Context (js js' : Z -> job) (SC : same_codes c js js') (FX : all_fixed c js) (SZ : 0 <= y_size c) (HD : some_divides c js -> D).
Lemma many_start t0 : many_alike (many_first c t0 js) (many_first c t0 js').
Proof.
  unfold many_first, many_begin. rewrite !map_length, !map_map.
  set (mk := fun (js : Z -> job) (m : Z) => MkDNode (map (fun i => tile_new (cells_new c (j_activation (js m)) i) (j_cores (js m) i) (j_prog (js m) i)) (zrange (w_tiles (y_net c)))) t0 t0 0 true FRunning : dnode core cells_valid).
  assert (F : Forall2 NA (map (mk js) (zrange (w_nodes (y_net c)))) (map (mk js') (zrange (w_nodes (y_net c))))).
  { assert (HI : Forall (in_run c) (zrange (w_nodes (y_net c)))) by (apply Forall_forall; intros k K; now apply in_zrange).
    induction HI as [|k l K _ IH]; [constructor|]. cbn [map]. constructor; [|exact IH].
    assert (HD' : forall i q p o, on_node c i -> In (q, p) (j_cores (js k) i) -> In o p -> is_div o = true -> D) by (intros i q p o N I J Q; apply HD; exists k; split; [exact K|]; exists i, q, p, o; auto).
    pose proof (data_start c D (js k) (js' k) (SC k K) (FX k K) SZ HD' t0) as A. unfold des_first, des_begin in A. inversion A as [? ? ? ? N]; subst. exact N. }
  replace (match map (fun m => map (fun i => tile_new (cells_new c (j_activation (js' m)) i) (j_cores (js' m) i) (j_prog (js' m) i)) (zrange (w_tiles (y_net c)))) (zrange (w_nodes (y_net c))) with [] => true | _ => false end)
    with (match map (fun m => map (fun i => tile_new (cells_new c (j_activation (js m)) i) (j_cores (js m) i) (j_prog (js m) i)) (zrange (w_tiles (y_net c)))) (zrange (w_nodes (y_net c))) with [] => true | _ => false end)
    by (now destruct (zrange (w_nodes (y_net c)))).
  constructor. exact F.
Qed.
Lemma many_reach_alike t0 x : many_reach c js t0 x ->
  (exists x', many_reach c js' t0 x' /\ many_alike x x') \/ (exists x' e, many_reach c js' t0 x' /\ many_raised c x' e /\ may e).
Proof.
  induction 1 as [|x r R IH E]; [left; eexists; split; [constructor|apply many_start]|]. destruct IH as [(x' & R' & A)|Q]; [|now right].
  destruct (many_step_alike _ _ _ A E) as [(r' & E' & A')|(e & E' & M)]; [left|right].
  - exists r'. split; [exact (many_reach_step c js' t0 x' r' R' E')|exact A'].
  - exists x', e. split; [exact R'|]. split; [exact E'|exact M].
Qed.
Lemma many_next_alike t0 n : ~ D -> forall x, many_run (real c) c n (many_first c t0 js) = (x, YStep x) -> exists x', many_run (real c) c n (many_first c t0 js') = (x', YStep x') /\ many_alike x x'.
Proof.
  intros ND x G. pose proof (many_start t0) as A. revert A G. generalize (many_first c t0 js) as a, (many_first c t0 js') as a'. induction n as [|n IH]; intros a a' A G; cbn [many_run] in *.
  - injection G as <-. exists a'. now split.
  - destruct (many_step (real c) c a) as [r| | | |] eqn:E; try discriminate. destruct (many_step_alike _ _ _ A E) as [(r' & E' & A')|(e & _ & _ & M)]; [|contradiction].
    rewrite E'. exact (IH r r' A' G).
Qed.
End All.

Lemma many_runs_add c n s s' r : many_run (real c) c n s = (s', YStep s') -> many_step (real c) c s' = YStep r -> many_run (real c) c (n + 1) s = (r, YStep r).
Proof.
  revert s. induction n as [|n IH]; intros s E H; cbn [many_run Nat.add] in *; [injection E as ->; now rewrite H|]. destruct (many_step (real c) c s); try discriminate. now apply IH.
Qed.
Lemma many_runs c js t0 x : many_reach c js t0 x -> exists n, many_run (real c) c n (many_first c t0 js) = (x, YStep x).
Proof. induction 1 as [|x r _ (n & IH) E]; [exists 0%nat; reflexivity|]. exists (n + 1)%nat. exact (many_runs_add _ _ _ _ _ IH E). Qed.
Lemma many_runs_reach c js t0 n : forall s x, many_reach c js t0 s -> many_run (real c) c n s = (x, YStep x) -> many_reach c js t0 x.
Proof.
  induction n as [|n IH]; intros s x R E; cbn [many_run] in E; [injection E as <-; exact R|]. destruct (many_step (real c) c s) as [r| | | |] eqn:Q; try discriminate.
  apply (IH r); [exact (many_reach_step _ _ _ _ _ R Q)|exact E].
Qed.
Theorem timing_of_all cfg ww c js js' t0 : core_ok cfg ww (y_core c) -> 0 <= y_size c -> same_codes c js js' -> all_fixed c js ->
  forall x, many_reach c js t0 x ->
  (exists x', many_reach c js' t0 x' /\ same_whole x x' /\ (many_returned c x <-> many_returned c x')) \/
  (some_divides c js /\ exists x', many_reach c js' t0 x' /\ many_raised c x' ZeroDivisionError).
Proof.
  intros OK SZ SC FX x R. destruct (many_reach_alike cfg ww c OK (some_divides c js) js js' SC FX SZ (fun H => H) t0 x R) as [(x' & R' & A)|(x' & e & R' & Q & -> & HD)]; [left|right].
  - exists x'. split; [exact R'|]. exact (many_alike_same _ _ _ _ A).
  - split; [exact HD|]. exists x'. now split.
Qed.
Theorem errors_of_all cfg ww c js js' t0 : core_ok cfg ww (y_core c) -> 0 <= y_size c -> same_codes c js js' -> all_fixed c js -> ~ some_divides c js ->
  forall x, many_reach c js t0 x ->
  exists x', many_reach c js' t0 x' /\ same_whole x x' /\ (many_returned c x <-> many_returned c x') /\ ((exists e, many_raised c x e) <-> exists e, many_raised c x' e).
Proof.
  intros OK SZ SC FX ND x R. destruct (many_runs _ _ _ _ R) as (n & G). destruct (many_next_alike cfg ww c OK (some_divides c js) js js' SC FX SZ (fun H => H) t0 n ND x G) as (x' & G' & A).
  assert (SC' : same_codes c js' js) by (intros k K; now apply code_sym, SC). assert (FX' : all_fixed c js') by (intros k K; exact (fixed_same _ _ _ (SC k K) (FX k K))).
  assert (HD' : some_divides c js' -> some_divides c js) by (intros (k & K & Q); exists k; split; [exact K|]; exact (divides_same _ _ _ (SC k K) Q)).
  destruct (many_next_alike cfg ww c OK (some_divides c js) js' js SC' FX' SZ HD' t0 n ND x' G') as (x2 & G2 & A'). assert (x2 = x) as -> by congruence.
  pose proof (many_runs_reach _ _ _ _ _ _ (many_reach_first c js' t0) G') as R'. destruct (many_alike_same _ _ _ _ A) as (SW & RT).
  exists x'. split; [exact R'|]. split; [exact SW|]. split; [exact RT|]. split; intros (e & E).
  - destruct (many_goes_on c js' t0 x' R') as [(r & Q)|[Q|Q]]; [|exact Q|apply RT in Q; unfold many_returned, many_raised in *; congruence].
    destruct (many_step_alike cfg ww c OK (some_divides c js) _ _ _ A' Q) as [(r' & E' & _)|(e' & _ & _ & M)]; [unfold many_raised in *; congruence|contradiction].
  - destruct (many_goes_on c js t0 x R) as [(r & Q)|[Q|Q]]; [|exact Q|apply RT in Q; unfold many_returned, many_raised in *; congruence].
    destruct (many_step_alike cfg ww c OK (some_divides c js) _ _ _ A Q) as [(r' & E' & _)|(e' & _ & _ & M)]; [unfold many_raised in *; congruence|contradiction].
Qed.
