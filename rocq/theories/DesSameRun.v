(** Results and times of the simulation of all nodes are those of the nodes alone. *)
From Coq Require Import Permutation Sorting.Sorted.
From Verif Require Import PyBase PyLemmas MemoryModel CoreModel DramModel RouterModel SystemModel SystemSpec NodeModel NodeSpec
  DesModel DesSpec DesRel DesQueue DesRun DesClaims DesWait DesWaitQueue DesHeap DesIdle DesLate DesLateRel
  DesManyModel DesManySpec DesManyQueue DesMany DesManyRun DesManyClaims DesSameSpec DesSame.

(** ** The simulation of a node alone *)
Section Alone.
Variables (c : sys_cfg) (j : job) (t0 : Z).
Notation P := (real c).
Lemma step_node s s' : sim_reach c j t0 s -> des_step P c s = NStep s' ->
  exists x q new, w_queue s = x :: q /\ fire P c (e_time x) (e_ev x) (w_node s) = DGo (w_node s') new /\ w_queue s' = schedule (e_time x) new q /\ w_now s' = e_time x /\ w_now s <= e_time x /\
    (paced (e_ev x) = true -> z_fin (w_node s') = z_fin (w_node s)).
Proof.
  intros H HS. pose proof (reach_ok c j t0 s H) as [TI _]. apply step_cases in HS as (HF & x & q & n & new & EQ & EF & ->). exists x, q, new. split; [exact EQ|]. split; [exact EF|]. split; [reflexivity|]. split; [reflexivity|]. split; [apply (ti_after _ TI); rewrite EQ; now left|].
  intros EP. pose proof (fire_calm P c (e_time x) _ (w_node s) EP) as C. rewrite EF in C. cbn in C. apply C.
Qed.
Lemma cond_end s : sim_reach c j t0 s -> z_fin (w_node s) = FCond -> In (w_now s, Normal, VRunEnd) (w_queue s).
Proof.
  induction 1 as [|s s' H IH HS]; [discriminate|]. intros HC. pose proof (reach_ok c j t0 s H) as [TI Q]. destruct (step_node s s' H HS) as (x & q & new & EQ & EF & Q' & W' & L & PA). rewrite Q', W'. rewrite EQ in Q.
  assert (KEEP : z_fin (w_node s) = FCond -> e_ev x <> VRunEnd -> In (e_time x, Normal, VRunEnd) (schedule (e_time x) new q)).
  { intros E NE. specialize (IH E). rewrite EQ in IH. apply schedule_in. left. destruct IH as [IH|IH]; [rewrite IH in NE; now elim NE|]. assert (GE : e_time x <= w_now s) by (pose proof (head_least _ _ _ (q_ordered _ _ _ _ Q) IH) as G; unfold sooner in G; cbn in G; lia). replace (e_time x) with (w_now s) by lia. exact IH. }
  destruct (paced (e_ev x)) eqn:EP; [apply KEEP; [rewrite <- PA; auto|intros E; rewrite E in EP; discriminate]|].
  destruct (e_ev x) eqn:EX; try discriminate EP; cbn [fire] in EF.
  - apply KEEP; [|discriminate]. unfold on_monitor in EF. destruct (negb (z_monitor (w_node s))); [injection EF as EF _; congruence|]. destruct (negb _); [discriminate|]. injection EF as EF _. rewrite <- EF in HC. exact HC.
  - apply KEEP; [|discriminate]. unfold monitor_int in EF. destruct (z_fin (w_node s)) eqn:E; try discriminate; injection EF as EF _; rewrite <- EF in HC; cbn in HC; congruence.
  - unfold all_tiles in EF. destruct (z_fin (w_node s)) eqn:E; try discriminate. destruct (forallb x_ended _); [|discriminate]. injection EF as EF _. rewrite <- EF in HC. discriminate.
  - unfold node_end in EF. destruct (z_fin (w_node s)) eqn:E; try discriminate. injection EF as _ <-. apply schedule_in. right. exists 0, Normal, VRunEnd. split; [now left|now rewrite Z.add_0_r].
  - unfold run_end in EF. destruct (z_fin (w_node s)) eqn:E; try discriminate. injection EF as EF _. rewrite <- EF in HC. discriminate.
Qed.
Lemma over_end s s' : sim_reach c j t0 s -> process_over (w_node s) = true -> des_step P c s = NStep s' -> process_over (w_node s') = true /\ w_now s' = w_now s.
Proof.
  intros H HO HS. assert (E : z_fin (w_node s) = FCond) by (unfold process_over in HO; destruct (z_fin (w_node s)) eqn:E; try discriminate; [reflexivity|]; unfold des_step in HS; rewrite E in HS; discriminate).
  pose proof (cond_end s H E) as HI. pose proof (reach_ok c j t0 s H) as [TI Q]. destruct (step_node s s' H HS) as (x & q & new & EQ & EF & Q' & W' & L & PA). rewrite EQ in HI, Q. split.
  - unfold process_over. destruct (paced (e_ev x)) eqn:EP; [rewrite PA, E; auto|]. pose proof (q_waits _ _ _ _ Q) as WA. assert (WX : DesWaitNode.node_waits c (e_time x) (e_ev x) (w_node s)) by now inversion WA.
    destruct (e_ev x) eqn:EX; try discriminate EP; cbn [fire] in EF.
    + unfold on_monitor in EF. destruct (negb (z_monitor (w_node s))); [injection EF as EF _; now rewrite <- EF, E|]. destruct (negb _); [discriminate|]. injection EF as EF _. rewrite <- EF. cbn. now rewrite E.
    + unfold monitor_int in EF. rewrite E in EF. injection EF as EF _. rewrite <- EF. cbn. now rewrite ?E.
    + unfold all_tiles in EF. rewrite E in EF. discriminate.
    + unfold node_end in EF. rewrite E in EF. discriminate.
    + unfold run_end in EF. rewrite E in EF. injection EF as EF _. now rewrite <- EF.
  - rewrite W'. destruct HI as [->|HI]; [reflexivity|]. pose proof (head_least _ _ _ (q_ordered _ _ _ _ Q) HI) as G. unfold sooner in G. cbn in G. lia.
Qed.
(** *** One end *)
Inductive star : sim -> sim -> Prop := st_refl s : star s s | st_step s s1 s2 : star s s1 -> des_step P c s1 = NStep s2 -> star s s2.
Lemma star_head s s' : star s s' -> s = s' \/ exists s1, des_step P c s = NStep s1 /\ star s1 s'.
Proof. induction 1 as [s|s s1 s2 H IH S]; [now left|right]. destruct IH as [->|(s3 & S3 & IH)]; [exists s2; split; [exact S|constructor]|exists s3; split; [exact S3|econstructor; eauto]]. Qed.
Lemma star_reach s s' : sim_reach c j t0 s -> star s s' -> sim_reach c j t0 s'.
Proof. intros H S. induction S as [|s s1 s2 S IH E]; [exact H|]. eapply sim_step; [exact (IH H)|exact E]. Qed.
Lemma reach_star s : sim_reach c j t0 s -> star (des_first c t0 j) s.
Proof. induction 1 as [|s s' H IH E]; [constructor|econstructor; eauto]. Qed.
Lemma star_compare a s s' : star a s -> star a s' -> star s s' \/ star s' s.
Proof.
  intros S S'. induction S as [a|a s1 s2 S IH E]; [now left|]. destruct (IH S') as [H|H]; [|right; econstructor; eauto].
  apply star_head in H as [<-|(s3 & E3 & H)]; [right; eapply st_step; [constructor|exact E]|]. left. replace s2 with s3 by congruence. exact H.
Qed.
Lemma over_star s s' : sim_reach c j t0 s -> process_over (w_node s) = true -> star s s' -> process_over (w_node s') = true /\ w_now s' = w_now s.
Proof.
  intros H HO S. induction S as [s|s s1 s2 S IH E]; [auto|]. destruct (IH H HO) as [I1 I2]. destruct (over_end s1 s2 (star_reach s s1 H S) I1 E). split; [assumption|congruence].
Qed.
Theorem over_time s s' : sim_reach c j t0 s -> sim_reach c j t0 s' -> process_over (w_node s) = true -> process_over (w_node s') = true -> w_now s' = w_now s.
Proof.
  intros H H' O O'. destruct (star_compare _ _ _ (reach_star s H) (reach_star s' H')) as [S|S]; [exact (proj2 (over_star s s' H O S))|symmetry; exact (proj2 (over_star s' s H' O' S))].
Qed.
Section Halting.
Hypotheses (SZ : 0 <= y_size c) (AH : all_halt c j) (NC : never_crashes c j).
Lemma over_step s s' : sim_reach c j t0 s -> process_over (w_node s) = true -> des_step P c s = NStep s' -> node_result c (w_node s') = node_result c (w_node s).
Proof.
  intros H HO HS. assert (H' : sim_reach c j t0 s') by (econstructor; eauto). destruct (over_end s s' H HO HS) as [HO' _]. destruct (step_node s s' H HS) as (x & q & new & EQ & EF & Q' & W' & L & PA).
  destruct (run_related any c j t0 (any_job c j) s H) as [TI (t & N & T1 & T2 & T3)]. destruct (run_related any c j t0 (any_job c j) s' H') as [TI' _].
  apply (kept_result c j t0 SZ AH NC (w_now s) (e_time x) (e_ev x) (w_node s) (w_node s') new); auto.
  - exists t, N. split; [exact T1|]. split; [exact T2|]. destruct T3 as [T3|T3]; [left; now apply rel_like|now right].
  - apply (ti_fin _ TI). intros E. unfold process_over in HO. rewrite E in HO. discriminate.
  - apply (ti_fin _ TI'). intros E. unfold process_over in HO'. rewrite E in HO'. discriminate.
  - intros _. pose proof (monitor_off c j t0 s H) as M. unfold mon_off in M. unfold process_over in HO. destruct (z_fin (w_node s)); try discriminate; exact M.
Qed.
Theorem over_result s s' : sim_reach c j t0 s -> sim_reach c j t0 s' -> process_over (w_node s) = true -> process_over (w_node s') = true -> node_result c (w_node s') = node_result c (w_node s).
Proof.
  assert (G : forall s s', sim_reach c j t0 s -> process_over (w_node s) = true -> star s s' -> node_result c (w_node s') = node_result c (w_node s)).
  { intros a b H O S. induction S as [a|a s1 s2 S IH E]; [reflexivity|]. rewrite <- (IH H O). apply over_step; [now apply (star_reach a)|apply (over_star a s1 H O S)|exact E]. }
  intros H H' O O'. destruct (star_compare _ _ _ (reach_star s H) (reach_star s' H')) as [S|S]; [exact (G s s' H O S)|symmetry; exact (G s' s H' O' S)].
Qed.
End Halting.
Lemma returned_over s : returned c s -> process_over (w_node s) = true.
Proof. unfold returned, des_step, process_over. intros R. destruct (z_fin (w_node s)); try reflexivity; destruct (w_queue s); try discriminate; destruct (fire _ _ _ _ _); discriminate. Qed.
End Alone.

(** ** All nodes *)
Section All.
Variables (c : sys_cfg) (js : Z -> job) (t0 : Z).
Notation P := (real c).
(** A step of all nodes, seen from node [k]. *)
Inductive seen (x x' : whole) (k : Z) : Prop :=
| se_other : node_of x' k = node_of x k -> seen x x' k
| se_start n : node_of x' k = Some n -> process_over n = false -> seen x x' k
| se_end s s1 : sim_reach c (js k) t0 s -> des_step P c s = NStep s1 -> node_of x' k = Some (w_node s1) -> process_over (w_node s1) = true -> w_now s1 = v_now x' -> seen x x' k
| se_own t e n n' new : node_of x k = Some n -> node_of x' k = Some n' -> process_over n' = process_over n -> v_now x <= t -> fire P c t e n = DGo n' new -> seen x x' k.
Lemma step_seen x x' k : many_reach c js t0 x -> many_step P c x = YStep x' -> in_run c k -> seen x x' k /\ v_now x <= v_now x' /\
  (forall y, In y (v_queue x') -> e_ev y = MAll -> In y (v_queue x) \/ (e_time y = v_now x' /\ exists m s, in_run c m /\ sim_reach c (js m) t0 s /\ process_over (w_node s) = true /\ w_now s = v_now x')) /\
  (v_over x' = true -> exists y, In y (v_queue x) /\ e_ev y = MAll /\ e_time y = v_now x').
Proof.
  intros HR HS Hk. pose proof (many_inv c js t0 x HR) as HI. destruct (many_time c js t0 x x' HR HS) as [_ TM].
  unfold many_step in HS. destruct (v_over x) eqn:EO; [discriminate|]. destruct (v_queue x) as [|[[t p] e] q] eqn:EQ; [discriminate|]. cbn [e_time e_ev fst snd] in HS.
  assert (RH : in_range c e) by (pose proof (iv_range _ _ _ _ _ HI) as A; rewrite EQ in A; now inversion A). assert (LE : v_now x <= t) by (pose proof (iv_after _ _ _ _ _ HI) as A; rewrite EQ in A; now inversion A).
  assert (TAG : forall m new y, In y (schedule t (tag m new) q) -> e_ev y = MAll -> In y ((t, p, e) :: q)).
  { intros m new y HY EY. apply m_schedule_in in HY as [HY|(z & HZ & ->)]; [now right|]. apply in_map_iff in HZ as (w & <- & _). discriminate. }
  destruct e as [m|m e|].
  - cbn [fire_many] in HS. destruct (the_node (v_nodes x) m) as [n|] eqn:EN; [|discriminate].
    assert (x' = MkMany t (schedule t (tag m (node_events (z_tiles n))) q) (put_node (v_nodes x) m (node_start t n)) false) as -> by congruence. clear HS.
    split; [|split; [exact TM|]; split; [|discriminate]].
    + destruct (Z.eq_dec k m) as [->|NE].
      * apply (se_start _ _ _ (node_start t n)); [unfold node_of; cbn [v_nodes]; rewrite (DesMany.node_put any c js (any_jobs c js) _ _ _ _ _ EN), Z.eqb_refl; reflexivity|].
        destruct (state_starts any c js t0 (any_jobs c js) x m (t, p, MStart m) q (put_node (v_nodes x) m (node_start t n)) false HI RH EQ eq_refl) with (n := n) as [_ FK].
        -- unfold node_of. rewrite EN, (DesMany.node_put any c js (any_jobs c js) _ _ _ _ _ EN), Z.eqb_refl. reflexivity.
        -- exact EN.
        -- unfold process_over, node_start. cbn. try rewrite FK. reflexivity.
      * apply se_other. unfold node_of. cbn [v_nodes]. rewrite (DesMany.node_put any c js (any_jobs c js) _ _ _ _ _ EN). destruct (Z.eqb_spec k m); [contradiction|reflexivity].
    + intros y HY EY. left. exact (TAG m _ y HY EY).
  - assert (HE : e = VNodeEnd \/ e <> VNodeEnd) by (destruct e; first [now left|now right]). destruct HE as [->|HE].
    + cbn [fire_many] in HS. destruct (the_node (v_nodes x) m) as [n|] eqn:EN; [|discriminate]. destruct (z_fin n) eqn:EF; try discriminate.
      set (l := put_node (v_nodes x) m (set_fin n FCond)) in *. set (new := if forallb process_over l then [(0, Normal, MAll)] else []) in *. assert (x' = MkMany t (schedule t new q) l false) as -> by congruence. clear HS.
      assert (HN : new = [] \/ new = [(0, Normal, MAll)]) by (unfold new; destruct (forallb process_over l); auto).
      assert (ND : forall z, node_of (MkMany t (schedule t new q) l false) z = if z =? m then Some (set_fin n FCond) else node_of x z) by (intros z; unfold node_of; cbn [v_nodes]; unfold l; now rewrite (DesMany.node_put any c js (any_jobs c js) _ _ _ _ _ EN)).
      assert (AL : exists s s1, sim_reach c (js m) t0 s /\ des_step P c s = NStep s1 /\ w_node s1 = set_fin n FCond /\ w_now s1 = t).
      { assert (EV : events_of m (v_queue x) = (t, p, VNodeEnd) :: events_of m q) by (rewrite EQ, events_cons; cbn; now rewrite Z.eqb_refl).
        destruct (iv_nodes _ _ _ _ _ HI m RH) as [a b H1 H2 H3 H4 H5|s H1 H2 H3 H4 H5 H6|n2 t' H1 H2 H3 H4 H5 H6].
        - congruence.
        - exists s. unfold node_of in H3. rewrite EN in H3. injection H3 as ->. eexists. split; [exact H2|]. split; [unfold des_step; rewrite EF, <- H4, EV; cbn [e_time e_ev fst snd fire]; unfold node_end; rewrite EF; reflexivity|]. split; reflexivity.
        - unfold node_of in H2. rewrite EN in H2. injection H2 as <-. rewrite (lt_fin _ _ _ _ H4) in EF. discriminate. }
      destruct AL as (s & s1 & A1 & A2 & A3 & A4).
      split; [|split; [exact TM|]; split; [|discriminate]].
      * destruct (Z.eq_dec k m) as [->|NE]; [|apply se_other; rewrite ND; destruct (Z.eqb_spec k m); [contradiction|reflexivity]].
        apply (se_end _ _ _ s s1 A1 A2); [rewrite ND, Z.eqb_refl, A3; reflexivity|rewrite A3; reflexivity|exact A4].
      * intros y HY EY. cbn [v_queue] in HY. apply m_schedule_in in HY as [HY|(z & HZ & ->)]; [left; now right|right]. cbn [v_now].
        assert (z = (0, Normal, MAll)) as -> by (destruct HN as [HN|HN]; rewrite HN in HZ; [destruct HZ|destruct HZ as [<-|[]]; reflexivity]). split; [cbn; lia|]. exists m, s1. split; [exact RH|]. split; [econstructor; eauto|]. split; [rewrite A3; reflexivity|exact A4].
    + assert (HS' : match the_node (v_nodes x) m with None => MStuck | Some n => match fire P c t e n with DGo n' new => MGo (put_node (v_nodes x) m n') (tag m new) false | DRaise y => MRaise y | DStuck => MStuck end end = fire_many P c t (MOf m e) (v_nodes x)) by (destruct e; first [reflexivity|contradiction]).
      rewrite <- HS' in HS. clear HS'. destruct (the_node (v_nodes x) m) as [n|] eqn:EN; [|discriminate]. destruct (fire P c t e n) as [n' new| |] eqn:EF; try discriminate.
      assert (x' = MkMany t (schedule t (tag m new) q) (put_node (v_nodes x) m n') false) as -> by congruence. clear HS.
      assert (NP : forall z, the_node (put_node (v_nodes x) m n') z = if z =? m then Some n' else the_node (v_nodes x) z) by (intros z; eapply (DesMany.node_put any c js (any_jobs c js)); eauto).
      destruct (state_own any c js t0 (any_jobs c js) x m t p e q n n' new (put_node (v_nodes x) m n') false HI RH EQ HE EN EF) as (_ & OV & _); [rewrite NP, Z.eqb_refl; reflexivity|].
      split; [|split; [exact TM|]; split; [|discriminate]].
      * destruct (Z.eq_dec k m) as [->|NE]; [|apply se_other; unfold node_of; cbn [v_nodes]; rewrite NP; destruct (Z.eqb_spec k m); [contradiction|reflexivity]].
        apply (se_own _ _ _ t e n n' new); auto. unfold node_of. cbn [v_nodes]. rewrite NP, Z.eqb_refl. reflexivity.
      * intros y HY EY. left. exact (TAG m _ y HY EY).
  - cbn [fire_many] in HS. assert (x' = MkMany t (schedule t [] q) (v_nodes x) true) as -> by congruence. split; [apply se_other; reflexivity|]. split; [exact TM|]. split; [intros y HY _; left; right; exact HY|]. intros _. exists (t, p, MAll). split; [now left|]. split; reflexivity.
Qed.
(** A node that is over is over alone, not later. *)
Theorem over_alone x k n : many_reach c js t0 x -> in_run c k -> node_of x k = Some n -> process_over n = true -> exists s, sim_reach c (js k) t0 s /\ process_over (w_node s) = true /\ w_now s <= v_now x.
Proof.
  intros H Hk. revert n. induction H as [|x x' H IH HS]; intros n HN HO.
  - rewrite (first_node any c js t0 (any_jobs c js) k Hk) in HN. injection HN as <-. discriminate.
  - destruct (step_seen x x' k H HS Hk) as (SE & TM & _). assert (G : forall n, node_of x k = Some n -> process_over n = true -> exists s, sim_reach c (js k) t0 s /\ process_over (w_node s) = true /\ w_now s <= v_now x').
    { intros n1 H1 H2. destruct (IH n1 H1 H2) as (s & S1 & S2 & S3). exists s. split; [exact S1|]. split; [exact S2|lia]. }
    destruct SE as [E|n1 E1 E2|s s1 E1 E2 E3 E4 E5|t e n0 n1 new E1 E2 E3 E4 E5].
    + apply (G n); [congruence|exact HO].
    + congruence.
    + exists s1. split; [econstructor; eauto|]. split; [exact E4|lia].
    + apply (G n0); [exact E1|congruence].
Qed.
Theorem over_same x k n s : 0 <= y_size c -> all_halt c (js k) -> never_crashes c (js k) -> many_reach c js t0 x -> in_run c k -> node_of x k = Some n -> process_over n = true ->
  sim_reach c (js k) t0 s -> process_over (w_node s) = true -> node_result c n = node_result c (w_node s).
Proof.
  intros SZ AH NC H Hk. revert n. induction H as [|x x' H IH HS]; intros n HN HO HR HP.
  - rewrite (first_node any c js t0 (any_jobs c js) k Hk) in HN. injection HN as <-. discriminate.
  - destruct (step_seen x x' k H HS Hk) as (SE & _). destruct SE as [E|n1 E1 E2|s0 s1 E1 E2 E3 E4 E5|t e n0 n1 new E1 E2 E3 E4 E5].
    + apply IH; auto. congruence.
    + congruence.
    + rewrite E3 in HN. injection HN as <-. apply (over_result c (js k) t0 SZ AH NC); auto. econstructor; eauto.
    + assert (n1 = n) as -> by congruence. rewrite E3 in HO. rewrite <- (IH n0 E1 HO HR HP).
      assert (ED : forall y m, many_reach c js t0 y -> node_of y k = Some m -> process_over m = true -> forallb x_ended (z_tiles m) = true /\ exists t', t' <= v_now y /\ late_related any c (js k) t0 t' m /\ z_monitor m = false).
      { intros y m Y1 Y2 Y3. destruct (iv_nodes _ _ _ _ _ (many_inv c js t0 y Y1) k Hk) as [a b H1 H2 H3 H4 H5|s2 H1 H2 H3 H4 H5 H6|n2 t' H1 H2 H3 H4 H5 H6].
        - rewrite H1 in Y2. injection Y2 as <-. discriminate.
        - rewrite H3 in Y2. injection Y2 as <-. unfold process_over in Y3. destruct H6 as [F|F]; rewrite F in Y3; discriminate.
        - rewrite H2 in Y2. injection Y2 as <-. split; [exact (lt_ended _ _ _ _ H4)|]. exists t'. split; [exact H3|]. split; [exact H5|exact (lt_monitor _ _ _ _ H4)]. }
      destruct (ED x n0 H E1 HO) as (F0 & t' & T1 & T2 & T3). destruct (ED x' n (many_reach_step _ _ _ _ _ H HS) E2) as (F1 & _); [congruence|].
      apply (kept_result c (js k) t0 SZ AH NC t' t e n0 n new); auto. lia.
Qed.
(** *** The end of all nodes *)
Lemma returned_flag x : many_returned c x -> v_over x = true.
Proof. unfold many_returned, many_step. intros R. destruct (v_over x); [reflexivity|]. destruct (v_queue x); [discriminate|]. destruct (fire_many _ _ _ _ _); discriminate. Qed.
Lemma last_one x : many_reach c js t0 x -> 0 < w_nodes (y_net c) ->
  (forall y, In y (v_queue x) -> e_ev y = MAll -> exists k s, in_run c k /\ sim_reach c (js k) t0 s /\ process_over (w_node s) = true /\ w_now s = e_time y) /\
  (v_over x = true -> exists k s, in_run c k /\ sim_reach c (js k) t0 s /\ process_over (w_node s) = true /\ w_now s = v_now x).
Proof.
  intros H W. induction H as [|x x' H IH HS].
  - split.
    + intros y HY EY. rewrite (first_queue any c js t0 (any_jobs c js)) in HY. apply in_map_iff in HY as (k & <- & _). discriminate.
    + unfold many_first, many_begin. cbn [v_over]. destruct (map _ (zrange (w_nodes (y_net c)))) eqn:E; [|discriminate]. apply (f_equal (@length _)) in E. rewrite map_length, length_zrange in E. cbn in E. lia.
  - destruct IH as [I1 I2]. assert (K0 : in_run c 0) by (unfold in_run; lia). destruct (step_seen x x' 0 H HS K0) as (_ & _ & S1 & S2). split.
    + intros y HY EY. destruct (S1 y HY EY) as [G|(G1 & m & s & M1 & M2 & M3 & M4)]; [now apply I1|]. exists m, s. rewrite G1. auto.
    + intros O. destruct (S2 O) as (y & Y1 & Y2 & Y3). rewrite <- Y3. now apply I1.
Qed.
Lemma alone_end k : returns_alone c (js k) t0 -> exists s, sim_reach c (js k) t0 s /\ returned c s /\ process_over (w_node s) = true.
Proof. intros (s & H1 & H2). exists s. split; [exact H1|]. split; [exact H2|]. exact (returned_over c s ltac:(eassumption)). Qed.
Theorem same_result x k n : 0 <= y_size c -> all_halt c (js k) -> never_crashes c (js k) -> many_reach c js t0 x -> in_run c k -> node_of x k = Some n -> process_over n = true ->
  forall t r, ends_with c (js k) t0 t r -> r = node_result c n.
Proof. intros SZ AH NC H Hk HN HO t r (s & S1 & S2 & _ & <-). symmetry. apply (over_same x k n s); auto. exact (returned_over c s ltac:(eassumption)). Qed.
Theorem same_end x : many_reach c js t0 x -> many_returned c x ->
  (forall k, in_run c k -> exists t r, ends_with c (js k) t0 t r /\ t <= v_now x) /\ (0 < w_nodes (y_net c) -> exists k t r, in_run c k /\ ends_with c (js k) t0 t r /\ t = v_now x).
Proof.
  intros H R. pose proof (returned_flag x R) as O. pose proof (many_inv c js t0 x H) as HI. split.
  - intros k Hk. destruct (alone_end k (many_returns c js t0 x H R k Hk)) as (s & S1 & S2 & S3). exists (w_now s), (node_result c (w_node s)). split; [exists s; auto|].
    destruct (iv_over _ _ _ _ _ HI (or_introl O) k Hk) as (n & N1 & N2). destruct (over_alone x k n H Hk N1 N2) as (s2 & T1 & T2 & T3). rewrite (over_time c (js k) t0 s2 s T1 S1 T2 S3). exact T3.
  - intros W. destruct (proj2 (last_one x H W) O) as (k & s2 & Hk & T1 & T2 & T3). destruct (alone_end k (many_returns c js t0 x H R k Hk)) as (s & S1 & S2 & S3). exists k, (w_now s), (node_result c (w_node s)). split; [exact Hk|]. split; [exists s; auto|].
    rewrite (over_time c (js k) t0 s2 s T1 S1 T2 S3). exact T3.
Qed.
End All.
Theorem same_job c js js' t0 x x' k : 0 <= y_size c -> all_halt c (js k) -> never_crashes c (js k) -> js' k = js k -> in_run c k ->
  many_reach c js t0 x -> many_returned c x -> many_reach c js' t0 x' -> many_returned c x' ->
  exists n n', node_of x k = Some n /\ node_of x' k = Some n' /\ node_result c n = node_result c n'.
Proof.
  intros SZ AH NC E Hk H R H' R'. destruct (iv_over _ _ _ _ _ (many_inv c js t0 x H) (or_introl (returned_flag c x R)) k Hk) as (n & N1 & N2). destruct (iv_over _ _ _ _ _ (many_inv c js' t0 x' H') (or_introl (returned_flag c x' R')) k Hk) as (n' & N1' & N2').
  destruct (alone_end c js t0 k (many_returns c js t0 x H R k Hk)) as (s & S1 & S2 & S3). exists n, n'. split; [exact N1|]. split; [exact N1'|].
  rewrite (over_same c js t0 x k n s SZ AH NC H Hk N1 N2 S1 S3). symmetry. apply (over_same c js' t0 x' k n' s); rewrite ?E; auto.
Qed.
