(** The simulation of all nodes: the claims. *)
From Coq Require Import Permutation Sorting.Sorted.
From Verif Require Import PyBase PyLemmas MemoryModel CoreModel DramModel DramProofs RouterModel SystemModel SystemSpec StatsProofs NodeModel NodeSpec
  DesModel DesSpec DesRel DesCore DesQueue DesRun DesClaims DesWait DesWaitQueue DesHeap DesIdle DesLate DesLateRel DesManyModel DesManySpec DesManyQueue DesMany DesManyRun.

Section Claims.
Variables (c : sys_cfg) (js : Z -> job) (t0 : Z).
Notation P := (real c).
Notation any := (fun _ : cop => True).

Lemma any_jobs : forall k, in_run c k -> forall i, on_node c i -> Forall (fun kp => Forall any (snd kp)) (j_cores (js k) i).
Proof. intros k _. apply any_job. Qed.
Lemma many_inv x : many_reach c js t0 x -> inv any c js t0 x.
Proof. apply reach_inv. exact any_jobs. Qed.

Theorem many_alone x k n : many_reach c js t0 x -> in_run c k -> node_of x k = Some n -> process_over n = false -> exists s, sim_reach c (js k) t0 s /\ part_is x k s.
Proof.
  intros H Hk HN HP. destruct (iv_nodes _ _ _ _ _ (many_inv x H) k Hk) as [a b H1 H2 H3 H4 H5|s H1 H2 H3 H4 H5 H6|n2 t' H1 H2 H3 H4 H5 H6].
  - exists (des_first c t0 (js k)). split; [constructor|]. split; [exact H1|]. split; [rewrite H5; unfold des_first, des_begin; cbn; lia|]. left. exists t0, Urgent. rewrite H3. apply in_or_app. right. now left.
  - exists s. split; [exact H2|]. split; [exact H3|]. split; [exact H5|]. now right.
  - rewrite HN in H2. injection H2 as <-. unfold process_over in HP. rewrite (lt_fin _ _ _ _ H4) in HP. discriminate.
Qed.

Theorem many_refines x k : many_reach c js t0 x -> in_run c k ->
  exists n t N, node_of x k = Some n /\ t <= v_now x /\ nd_reach c (js k) t N /\ (agrees c t0 (counted n (nd_busy N)) N \/ crashed N).
Proof.
  intros H Hk. assert (AL : forall s, sim_reach c (js k) t0 s -> w_now s <= v_now x -> exists t N, t <= v_now x /\ nd_reach c (js k) t N /\ (agrees c t0 (counted (w_node s) (nd_busy N)) N \/ crashed N)).
  { intros s HR HW. destruct (DesClaims.sim_refines c (js k) t0 s HR) as (t & N & HT & HN & [A|A]); exists t, N; (split; [lia|]); (split; [exact HN|]); [left|now right]. destruct A as [A1 A2 A3 A4 A5]. constructor; auto. }
  destruct (iv_nodes _ _ _ _ _ (many_inv x H) k Hk) as [a b H1 H2 H3 H4 H5|s H1 H2 H3 H4 H5 H6|n2 t' H1 H2 H3 H4 H5 H6].
  - eexists. destruct (AL (des_first c t0 (js k)) ltac:(constructor)) as (t & N & G); [rewrite H5; unfold des_first, des_begin; cbn; lia|]. exists t, N. split; [exact H1|exact G].
  - destruct (AL s H2 H5) as (t & N & G). exists (w_node s), t, N. split; [exact H3|exact G].
  - destruct H5 as (t & N & HT & HR & G). exists n2, t, N. split; [exact H2|]. split; [lia|]. split; [exact HR|]. destruct G as [G|G]; [left|now right].
    assert (A : agrees c t0 (MkDes 0 [] (remon (nd_next N) (nd_busy N) n2)) N) by exact (rel_agrees any c (js k) t0 (any_job c (js k)) t' (MkDes 0 [] (remon (nd_next N) (nd_busy N) n2)) N G).
    destruct A as [A1 A2 A3 A4 A5]. constructor; auto.
Qed.

(** ** Going on *)
Section Fires.
Variable Q : cop -> Prop.
Hypothesis HQ : forall k, in_run c k -> forall i, on_node c i -> Forall (fun kp => Forall Q (snd kp)) (j_cores (js k) i).
Lemma alone_fires k s t p e q : sim_reach c (js k) t0 s -> z_fin (w_node s) = FRunning \/ z_fin (w_node s) = FNode -> w_queue s = (t, p, e) :: q ->
  fire P c t e (w_node s) <> DStuck /\ forall y, fire P c t e (w_node s) = DRaise y -> raised c s y.
Proof.
  intros H F E. split.
  - intros G. assert (D : des_step P c s = NStuck) by (unfold des_step; rewrite E; cbn [e_time e_ev fst snd]; rewrite G; destruct F as [F|F]; rewrite F; reflexivity).
    destruct (sim_goes_on c (js k) t0 s H) as [(s' & S)|[(y & S)|S]]; unfold raised, returned in *; congruence.
  - intros y G. unfold raised, des_step. rewrite E. cbn [e_time e_ev fst snd]. rewrite G. destruct F as [F|F]; rewrite F; reflexivity.
Qed.
Lemma part_fires x k t p e q : inv Q c js t0 x -> in_run c k -> v_queue x = (t, p, MOf k e) :: q ->
  exists n, node_of x k = Some n /\ fire P c t e n <> DStuck /\ forall y, usable Q c -> (forall s, sim_reach c (js k) t0 s -> raised c s y -> exists t' N, nd_reach c (js k) t' N /\ crashed N) ->
    fire P c t e n = DRaise y -> exists t' N, nd_reach c (js k) t' N /\ crashed N.
Proof.
  intros HI Hk EQ. assert (EV : events_of k (v_queue x) = (t, p, e) :: events_of k q) by (rewrite EQ; cbn; now rewrite Z.eqb_refl).
  assert (LE : v_now x <= t) by (pose proof (iv_after _ _ _ _ _ HI) as A; rewrite EQ in A; now inversion A).
  destruct (iv_nodes _ _ _ _ _ HI k Hk) as [a b H1 H2 H3 H4 H5|s H1 H2 H3 H4 H5 H6|n2 t' H1 H2 H3 H4 H5 H6].
  - congruence.
  - exists (w_node s). rewrite EV in H4. symmetry in H4. destruct (alone_fires k s t p e _ H2 H6 H4) as [G1 G2]. split; [exact H3|]. split; [exact G1|]. intros y _ HR G. apply (HR s H2). now apply G2.
  - exists n2. split; [exact H2|]. rewrite EV in H4. split; [exact (fire_goes P c t' (t, p, e) _ n2 (lt_ok _ _ _ _ H4))|]. intros y U _ G. eapply (late_raises Q c (js k) t0 (HQ k Hk) t' t); [exact U|exact H5|lia|exact G].
Qed.
End Fires.
Theorem many_goes_on x : many_reach c js t0 x -> (exists x', many_step P c x = YStep x') \/ (exists e, many_raised c x e) \/ many_returned c x.
Proof.
  intros H. pose proof (many_inv x H) as HI. unfold many_raised, many_returned, many_step. destruct (v_over x) eqn:EO; [auto|]. destruct (v_queue x) as [|[[t p] e] q] eqn:EQ.
  - exfalso. destruct (iv_all _ _ _ _ _ HI EO) as (y & HY & _); [|rewrite EQ in HY; destruct HY]. intros k Hk. destruct (iv_nodes _ _ _ _ _ HI k Hk) as [a b H1 H2 H3 H4 H5|s H1 H2 H3 H4 H5 H6|n2 t' H1 H2 H3 H4 H5 H6].
    + rewrite EQ in H3. now destruct a.
    + exfalso. rewrite EQ in H4. cbn in H4. assert (D : des_step P c s = NEmpty) by (unfold des_step; rewrite <- H4; destruct H6 as [F|F]; rewrite F; reflexivity).
      destruct (sim_goes_on c (js k) t0 s H2) as [(s' & S)|[(y & S)|S]]; unfold raised, returned in *; congruence.
    + exists n2. split; [exact H2|]. unfold process_over. now rewrite (lt_fin _ _ _ _ H4).
  - cbn [e_time e_ev fst snd]. assert (RH : in_range c e) by (pose proof (iv_range _ _ _ _ _ HI) as A; rewrite EQ in A; now inversion A). destruct e as [k|k e|].
    + destruct (state_node _ _ _ _ _ _ (iv_nodes _ _ _ _ _ HI k RH)) as (n & HN). unfold node_of in HN. cbn [fire_many]. rewrite HN. eauto.
    + destruct (part_fires any any_jobs x k t p e q HI RH EQ) as (n & HN & G & _). unfold node_of in HN.
      assert (HE : e = VNodeEnd \/ e <> VNodeEnd) by (destruct e; first [now left|now right]). destruct HE as [->|HE].
      * cbn [fire_many]. rewrite HN. cbn [fire] in G. unfold node_end in G. destruct (z_fin n); try contradiction. eauto.
      * assert (HS' : match the_node (v_nodes x) k with None => MStuck | Some n => match fire P c t e n with DGo n' new => MGo (put_node (v_nodes x) k n') (tag k new) false | DRaise y => MRaise y | DStuck => MStuck end end = fire_many P c t (MOf k e) (v_nodes x)) by (destruct e; first [reflexivity|contradiction]).
        rewrite <- HS', HN. destruct (fire P c t e n); [eauto|eauto|contradiction].
    + cbn. eauto.
Qed.
Theorem many_raises x e : (forall k, in_run c k -> delays_ok c (js k)) -> many_reach c js t0 x -> many_raised c x e -> exists k t N, in_run c k /\ nd_reach c (js k) t N /\ crashed N.
Proof.
  intros HD H HR. assert (HQ : forall k, in_run c k -> forall i, on_node c i -> Forall (fun kp => Forall (delays_of c) (snd kp)) (j_cores (js k) i)) by (intros k Hk; apply (HD k Hk)).
  pose proof (reach_inv (delays_of c) c js t0 HQ x H) as HI. unfold many_raised, many_step in HR. destruct (v_over x) eqn:EO; [discriminate|]. destruct (v_queue x) as [|[[t p] ev] q] eqn:EQ; [discriminate|]. cbn [e_time e_ev fst snd] in HR.
  assert (RH : in_range c ev) by (pose proof (iv_range _ _ _ _ _ HI) as A; rewrite EQ in A; now inversion A). destruct ev as [k|k ev|].
  - cbn [fire_many] in HR. destruct (the_node _ k); discriminate.
  - exists k. destruct (part_fires (delays_of c) HQ x k t p ev q HI RH EQ) as (n & HN & _ & G). unfold node_of in HN.
    assert (HE : ev = VNodeEnd \/ ev <> VNodeEnd) by (destruct ev; first [now left|now right]). destruct HE as [->|HE].
    + cbn [fire_many] in HR. rewrite HN in HR. destruct (z_fin n); discriminate.
    + assert (HS' : match the_node (v_nodes x) k with None => MStuck | Some n => match fire P c t ev n with DGo n' new => MGo (put_node (v_nodes x) k n') (tag k new) false | DRaise y => MRaise y | DStuck => MStuck end end = fire_many P c t (MOf k ev) (v_nodes x)) by (destruct ev; first [reflexivity|contradiction]).
      rewrite <- HS', HN in HR. destruct (fire P c t ev n) as [| y |] eqn:EF; try discriminate. destruct (HD k RH) as (D1 & D2 & D3).
      destruct (G y) as (t' & N & R1 & R2); [split; [exact D1|split; [exact D2|intros o Ho; exact Ho]]| |reflexivity|exists t', N; auto].
      intros s S1 S2. exact (DesClaims.sim_raises c (js k) t0 s y (HD k RH) S1 S2).
  - discriminate.
Qed.
Theorem many_returns x : many_reach c js t0 x -> many_returned c x -> forall k, in_run c k -> returns_alone c (js k) t0.
Proof.
  intros H HR. apply (iv_ends _ _ _ _ _ (many_inv x H)). unfold many_returned, many_step in HR. destruct (v_over x); [reflexivity|]. destruct (v_queue x); [discriminate|]. destruct (fire_many _ _ _ _ _); discriminate.
Qed.
Theorem many_completes x k : many_reach c js t0 x -> many_returned c x -> in_run c k ->
  exists n t N, node_of x k = Some n /\ t <= v_now x /\ nd_reach c (js k) t N /\ (ends_alike c t0 (counted n (nd_busy N)) N \/ crashed N).
Proof.
  intros H HR Hk. pose proof (many_inv x H) as HI. assert (EO : v_over x = true) by (unfold many_returned, many_step in HR; destruct (v_over x); [reflexivity|]; destruct (v_queue x); [discriminate|]; destruct (fire_many _ _ _ _ _); discriminate).
  destruct (iv_over _ _ _ _ _ HI (or_introl EO) k Hk) as (n & HN & HP). destruct (iv_nodes _ _ _ _ _ HI k Hk) as [a b H1 H2 H3 H4 H5|s H1 H2 H3 H4 H5 H6|n2 t' H1 H2 H3 H4 H5 H6].
  - rewrite H1 in HN. injection HN as <-. discriminate.
  - rewrite H3 in HN. injection HN as <-. unfold process_over in HP. destruct H6 as [F|F]; rewrite F in HP; discriminate.
  - destruct H5 as (t & N & HT & HRN & G). exists n2, t, N. split; [exact H2|]. split; [lia|]. split; [exact HRN|]. destruct G as [G|G]; [left|now right].
    assert (A : ends_alike c t0 (MkDes 0 [] (remon (nd_next N) (nd_busy N) n2)) N).
    { apply (rel_ends any c (js k) t0 (any_job c (js k)) t' (MkDes 0 [] (remon (nd_next N) (nd_busy N) n2)) N G). exact (lt_ended _ _ _ _ H4). }
    destruct A as [[A1 A2 A3 A4 A5] A6 A7 A8]. constructor; auto. constructor; auto.
Qed.
Theorem many_time x x' : many_reach c js t0 x -> many_step P c x = YStep x' -> t0 <= v_now x <= v_now x'.
Proof.
  intros H HS. assert (T : forall y y', many_reach c js t0 y -> many_step P c y = YStep y' -> v_now y <= v_now y').
  { intros y y' G S. pose proof (iv_after _ _ _ _ _ (many_inv y G)) as A. unfold many_step in S. destruct (v_over y); [discriminate|]. destruct (v_queue y) as [|h q]; [discriminate|]. destruct (fire_many _ _ _ _ _); try discriminate. injection S as <-. now inversion A. }
  split; [|eauto]. clear HS x'. induction H as [|x x' H IH HS]; [cbn; lia|]. pose proof (T _ _ H HS). lia.
Qed.
End Claims.
