(** The simulation of all nodes: the part of each node. *)
From Coq Require Import Permutation Sorting.Sorted.
From Verif Require Import PyBase PyLemmas MemoryModel CoreModel DramModel DramProofs RouterModel SystemModel SystemSpec StatsProofs NodeModel NodeSpec
  DesModel DesSpec DesRel DesQueue DesRun DesWait DesWaitNode DesWaitQueue DesHeap DesIdle DesLate DesLateRel DesManyModel DesManySpec DesManyQueue.

(** ** The simulation of a node alone *)
Section Alone.
Variables (c : sys_cfg) (j : job) (t0 : Z).
(** When the end of Node.run is processed, the monitor has been interrupted. *)
Definition mon_off (s : sim) : Prop :=
  match z_fin (w_node s) with
  | FRunning => True
  | FNode => z_monitor (w_node s) = false \/ exists t, In (t, Urgent, VMonitorInt) (w_queue s) /\ forall t' p, In (t', p, VNodeEnd) (w_queue s) -> t <= t'
  | FCond | FEnd => z_monitor (w_node s) = false
  end.
Lemma monitor_off s : sim_reach c j t0 s -> mon_off s.
Proof.
  induction 1 as [|s s' H IH HS]; [exact I|]. pose proof (reach_ok c j t0 s H) as [_ Q]. apply step_cases in HS as (HF & x & q & n & new & EQ & EF & ->). unfold mon_off in *. cbn [w_node w_queue]. rewrite EQ in Q.
  pose proof (q_waits _ _ _ _ Q) as WA. rewrite Forall_forall in WA. assert (WX := WA x (or_introl eq_refl)).
  destruct (paced (e_ev x)) eqn:EP.
  - pose proof (fire_calm (real c) c (e_time x) _ (w_node s) EP) as C. rewrite EF in C. cbn in C. destruct C as (_ & C2 & C3 & _). rewrite C2, C3. destruct (z_fin (w_node s)) eqn:E; auto.
    destruct IH as [IH|(t & H1 & H2)]; [now left|right]. rewrite EQ in H1, H2. exists t. split.
    + apply schedule_in. left. destruct H1 as [->|H1]; [discriminate|exact H1].
    + intros t' p HI. apply schedule_in in HI as [HI|(d & p' & e & HI & HE)]; [apply (H2 t' p); now right|]. injection HE as -> <- <-. exfalso.
      pose proof (fire_moves (real c) c _ _ _ _ _ _ Q EF) as HM. pose proof (nm_comp _ _ _ _ _ _ HM) as [_ CN _]. rewrite Forall_forall in CN. destruct (CN _ HI) as (_ & _ & _ & G). destruct (G eq_refl) as [[G'|[]]|G']; [|apply (G' 0); exact E].
      cbn in G'. destruct (e_ev x); cbn in G'; discriminate.
  - destruct (e_ev x) eqn:EX; try discriminate; cbn [fire] in EF.
    + unfold on_monitor in EF. assert (G : z_fin n = z_fin (w_node s) /\ z_monitor n = z_monitor (w_node s) /\ forall d p e, In (d, p, e) new -> e = VMonitor).
      { destruct (negb (z_monitor (w_node s))); [injection EF as <- <-; repeat split; intros d p e []|]. destruct (negb (e_time x =? _)); [discriminate|]. injection EF as <- <-. repeat split; auto. intros d p e [G|[]]. now injection G as _ _ <-. }
      destruct G as (-> & -> & G). destruct (z_fin (w_node s)) eqn:E; auto. destruct IH as [IH|(t & H1 & H2)]; [now left|right]. rewrite EQ in H1, H2. exists t. split.
      * apply schedule_in. left. destruct H1 as [->|H1]; [discriminate|exact H1].
      * intros t' p HI. apply schedule_in in HI as [HI|(d & p' & e & HI & HE)]; [apply (H2 t' p); now right|]. apply G in HI. congruence.
    + unfold monitor_int in EF. destruct (z_fin (w_node s)) eqn:E; try discriminate; injection EF as <- <-; cbn [z_fin z_monitor]; auto.
    + unfold all_tiles in EF. destruct (z_fin (w_node s)) eqn:E; try discriminate. destruct (forallb x_ended _); [|discriminate]. injection EF as <- <-. cbn [set_fin z_fin z_monitor]. right. exists (e_time x). split.
      * apply schedule_in. right. exists 0, Urgent, VMonitorInt. split; [now left|now rewrite Z.add_0_r].
      * intros t' p HI. apply schedule_in in HI as [HI|(d & p' & e & HI & HE)].
        -- assert (W := WA (t', p, VNodeEnd) (or_intror HI)). cbn in W. congruence.
        -- injection HE as -> _ _. cbn in HI. destruct HI as [HI|[HI|[]]]; injection HI as <- _ _; lia.
    + unfold node_end in EF. destruct (z_fin (w_node s)) eqn:E; try discriminate. injection EF as <- <-. cbn [set_fin z_fin z_monitor]. destruct IH as [IH|(t & H1 & H2)]; [exact IH|exfalso]. rewrite EQ in H1, H2.
      assert (L : t <= e_time x) by (apply (H2 (e_time x) (e_prio x)); left; destruct x as [[tx px] ex]; cbn in *; congruence). destruct H1 as [->|H1]; [discriminate|].
      pose proof (q_ordered _ _ _ _ Q) as OR. apply (head_least _ _ _ OR) in H1. pose proof (q_prio _ _ _ _ Q) as PR. inversion PR as [|? ? [PX|PX] _]; subst; [|congruence]. rewrite EX in PX. destruct x as [[tx px] ex]. cbn in *. subst px. unfold sooner in H1. cbn in H1. lia.
    + unfold run_end in EF. destruct (z_fin (w_node s)) eqn:E; try discriminate. injection EF as <- <-. exact IH.
Qed.
Lemma end_returns s te q : sim_reach c j t0 s -> z_fin (w_node s) = FCond -> w_queue s = (te, Normal, VRunEnd) :: q -> returns_alone c j t0.
Proof.
  intros H F E. exists (MkDes te q (set_fin (w_node s) FEnd)). split; [|unfold returned, des_step; reflexivity]. eapply sim_step; [exact H|]. unfold des_step. rewrite F, E. cbn [e_time e_ev fst snd fire]. unfold run_end. rewrite F. reflexivity.
Qed.
End Alone.

(** ** All nodes *)
Section All.
Variable Q : cop -> Prop.
Variables (c : sys_cfg) (js : Z -> job) (t0 : Z).
Hypothesis HQ : forall k, in_run c k -> forall i, on_node c i -> Forall (fun kp => Forall Q (snd kp)) (j_cores (js k) i).
Notation P := (real c).

Definition tiles_of_job (j : job) : list (dtile core cells_valid) := map (fun i => tile_new (cells_new c (j_activation j) i) (j_cores j i) (j_prog j i)) (zrange (w_tiles (y_net c))).
Definition not_starting (k : Z) (q : list (entry mev)) : Prop := Forall (fun y => e_ev y <> MStart k) q.
Definition marker (x : whole) (k : Z) (n : dnode core cells_valid) : Prop :=
  exists s te q1 q2, sim_reach c (js k) t0 s /\ w_node s = n /\ v_now x = te /\ split_at te (v_queue x) q1 q2 /\
    w_queue s = events_of k q1 ++ (te, Normal, VRunEnd) :: events_of k q2 /\ Forall (fun y => e_ev y <> MAll) q1.
Inductive state_of (x : whole) (k : Z) : Prop :=
| so_waiting a b : node_of x k = Some (MkDNode (tiles_of_job (js k)) t0 t0 0 true FRunning) -> events_of k (v_queue x) = [] ->
    v_queue x = a ++ (t0, Urgent, MStart k) :: b -> not_starting k (a ++ b) -> v_now x = t0 -> state_of x k
| so_alone s : not_starting k (v_queue x) -> sim_reach c (js k) t0 s -> node_of x k = Some (w_node s) -> events_of k (v_queue x) = w_queue s ->
    w_now s <= v_now x -> (z_fin (w_node s) = FRunning \/ z_fin (w_node s) = FNode) -> state_of x k
| so_late n t' : not_starting k (v_queue x) -> node_of x k = Some n -> t' <= v_now x -> late c t' (events_of k (v_queue x)) n -> late_related Q c (js k) t0 t' n ->
    (marker x k n \/ returns_alone c (js k) t0) -> state_of x k.
Definition in_range (e : mev) : Prop := match e with MStart k | MOf k _ => in_run c k | MAll => True end.
Record inv (x : whole) : Prop := {
  iv_length : length (v_nodes x) = Z.to_nat (w_nodes (y_net c));
  iv_ordered : m_ordered (v_queue x);
  iv_after : Forall (fun y => v_now x <= e_time y) (v_queue x);
  iv_range : Forall (fun y => in_range (e_ev y)) (v_queue x);
  iv_nodes : forall k, in_run c k -> state_of x k;
  iv_all : v_over x = false -> (forall k, in_run c k -> node_over x k) -> exists y, In y (v_queue x) /\ e_ev y = MAll;
  iv_over : v_over x = true \/ (exists y, In y (v_queue x) /\ e_ev y = MAll) -> forall k, in_run c k -> node_over x k;
  iv_ends : v_over x = true -> forall k, in_run c k -> returns_alone c (js k) t0 }.

Lemma node_put (l : list (dnode core cells_valid)) k n n' m : the_node l k = Some n -> the_node (put_node l k n') m = if m =? k then Some n' else the_node l m.
Proof.
  unfold the_node, put_node. intros H. destruct (Z.ltb_spec k 0); [discriminate|]. destruct (Z.ltb_spec m 0).
  - destruct (Z.eqb_spec m k); [lia|reflexivity].
  - rewrite nth_error_upd. destruct (Z.eqb_spec m k) as [->|].
    + rewrite Nat.eqb_refl, H. reflexivity.
    + destruct (Nat.eqb_spec (Z.to_nat k) (Z.to_nat m)); [lia|reflexivity].
Qed.
Lemma state_node x k : state_of x k -> exists n, node_of x k = Some n.
Proof. intros [a b H|s _ _ H|n t' _ H]; eauto. Qed.

(** *** An event of another node *)
Definition foreign (k now : Z) (new : list (Z * prio * mev)) : Prop :=
  Forall (fun z => mine k (m_at now z) = None /\ snd z <> MStart k /\ (snd z = MAll -> 0 <= fst (fst z) /\ snd (fst z) = Normal)) new.
Lemma state_foreign x k h q new l o : inv x -> in_run c k -> v_queue x = h :: q -> mine k h = None -> e_ev h <> MStart k ->
  (e_ev h = MAll -> o = true) -> foreign k (e_time h) new -> the_node l k = node_of x k -> state_of (MkMany (e_time h) (schedule (e_time h) new q) l o) k.
Proof.
  intros HI Hk EQ HM HNS HAll HF HL. pose proof (iv_ordered _ HI) as HO. rewrite EQ in HO. assert (OQ : m_ordered q) by now inversion HO.
  assert (TH : v_now x <= e_time h) by (pose proof (iv_after _ HI) as HA; rewrite EQ in HA; now inversion HA).
  assert (F1 : Forall (fun z => mine k (m_at (e_time h) z) = None) new) by (eapply Forall_impl; [|exact HF]; cbn; intros z H; apply H).
  assert (EV : events_of k (schedule (e_time h) new q) = events_of k (v_queue x)) by (rewrite schedule_other by exact F1; rewrite EQ, events_cons, HM; reflexivity).
  assert (NS : forall p, not_starting k p -> not_starting k (schedule (e_time h) new p)).
  { intros p HP. apply Forall_forall. intros y HY. apply m_schedule_in in HY as [HY|(z & HZ & ->)]; [exact (proj1 (Forall_forall _ _) HP y HY)|]. destruct (proj1 (Forall_forall _ _) HF z HZ) as (_ & G & _). exact G. }
  assert (NQ : not_starting k (v_queue x) -> not_starting k (schedule (e_time h) new q)) by (intros H; apply NS; rewrite EQ in H; now inversion H).
  destruct (iv_nodes _ HI k Hk) as [a b H1 H2 H3 H4 H5|s H1 H2 H3 H4 H5 H6|n t' H1 H2 H3 H4 H5 H6].
  - rewrite EQ in H3. destruct a as [|h' a]; cbn in H3; [injection H3 as -> _; now elim HNS|injection H3 as <- ->].
    assert (TE : e_time h = t0). { pose proof (m_head_time _ _ (t0, Urgent, MStart k) HO) as G. cbn [e_time fst] in G. assert (e_time h <= t0) by (apply G; right; apply in_or_app; right; now left). lia. }
    rewrite TE in *. pose proof (Forall_inv_tail H4) as H4'. assert (G : forall new, foreign k t0 new -> forall a b, not_starting k (a ++ b) -> exists a' b', schedule t0 new (a ++ (t0, Urgent, MStart k) :: b) = a' ++ (t0, Urgent, MStart k) :: b' /\ not_starting k (a' ++ b')).
    { clear. induction new as [|z new IH]; intros HF a b HN; [exists a, b; split; [reflexivity|exact HN]|]. destruct (Forall_inv HF) as (F1 & F2 & F3). pose proof (Forall_inv_tail HF) as F4. rewrite m_schedule_cons. assert (C : exists a' b', insert (m_at t0 z) (a ++ (t0, Urgent, MStart k) :: b) = a' ++ (t0, Urgent, MStart k) :: b' /\ not_starting k (a' ++ b')); [|destruct C as (a' & b' & -> & C); now apply IH].
      clear IH F4 HF. induction a as [|y a IHa]; cbn [app insert].
      - destruct (sooner (m_at t0 z) _).
        + exists [m_at t0 z], b. split; [reflexivity|]. constructor; [exact F2|exact HN].
        + exists [], (insert (m_at t0 z) b). split; [reflexivity|]. apply Forall_forall. intros y HY. apply m_insert_in in HY as [->|HY]; [exact F2|]. unfold not_starting in HN. rewrite Forall_forall in HN. auto.
      - inversion HN as [|? ? N1 N2]; subst. destruct (sooner (m_at t0 z) y).
        + exists (m_at t0 z :: y :: a), b. split; [reflexivity|]. constructor; [exact F2|exact HN].
        + destruct (IHa N2) as (a' & b' & -> & G). exists (y :: a'), b'. split; [reflexivity|]. now constructor. }
    destruct (G new HF a b H4') as (a' & b' & E & N). apply (so_waiting _ k a' b'); cbn [v_queue v_now]; auto; [unfold node_of; cbn [v_nodes]; now rewrite HL|now rewrite EV].
  - apply (so_alone _ k s); cbn [v_queue v_now]; auto; [unfold node_of; cbn [v_nodes]; now rewrite HL|now rewrite EV|lia].
  - apply (so_late _ k n t'); cbn [v_queue v_now]; auto; [unfold node_of; cbn [v_nodes]; now rewrite HL|lia|now rewrite EV|].
    destruct H6 as [(s & te & q1 & q2 & M1 & M2 & M3 & M4 & M5 & M6)|H6]; [|now right]. destruct q1 as [|h' q1].
    + right. apply (end_returns c (js k) t0 s te (events_of k q2) M1); [rewrite M2; apply (lt_fin _ _ _ _ H4)|exact M5].
    + left. rewrite EQ in M4. assert (h' = h) as -> by (pose proof (sp_app _ _ _ _ M4) as E; now injection E). pose proof (sp_before _ _ _ _ M4) as B. inversion B as [|? ? B1 B2]; subst te. assert (TE : e_time h = v_now x) by lia.
      apply split_tail in M4. inversion M6 as [|? ? N1 N2]; subst. destruct (split_foreign k (v_now x) (e_time h) new F1) with (q := q) (q1 := q1) (q2 := q2) as (p1 & p2 & S & E1 & E2 & I2); [|exact M4|].
      * eapply Forall_impl; [|exact HF]. cbn. intros [[d p] e] (_ & _ & G) E. destruct (G E) as [G1 G2]. cbn in G1, G2. subst p. unfold sooner, m_at. cbn. lia.
      * exists s, (v_now x), p1, p2. cbn [v_now v_queue]. repeat (split; [first [exact M1|reflexivity|exact TE|exact S]|]). split.
        -- rewrite E1, E2, M5, events_cons, HM. reflexivity.
        -- apply Forall_forall. intros y HY. apply I2 in HY as [HY|HY]; [|exact HY]. rewrite Forall_forall in N2. auto.
Qed.

(** *** The start of a node *)
Lemma state_starts x k h q l o : inv x -> in_run c k -> v_queue x = h :: q -> e_ev h = MStart k -> the_node l k = option_map (node_start (e_time h)) (node_of x k) ->
  (forall n, node_of x k = Some n -> state_of (MkMany (e_time h) (schedule (e_time h) (tag k (node_events (z_tiles n))) q) l o) k /\ z_fin n = FRunning) .
Proof.
  intros HI Hk EQ EH HL n HN. pose proof (iv_ordered _ HI) as HO. rewrite EQ in HO. assert (OQ : m_ordered q) by now inversion HO.
  assert (BAD : not_starting k (v_queue x) -> False) by (intros H; rewrite EQ in H; apply Forall_inv in H; contradiction).
  destruct (iv_nodes _ HI k Hk) as [a b H1 H2 H3 H4 H5|s H1 H2 H3 H4 H5 H6|n' t' H1 H2 H3 H4 H5 H6]; [|now elim BAD|now elim BAD].
  rewrite H1 in HN. injection HN as <-. split; [|reflexivity]. rewrite EQ in H2, H3. destruct a as [|h' a]; [injection H3 as -> ->|injection H3 as <- ->; apply Forall_inv in H4; contradiction].
  cbn [e_time fst] in *. apply (so_alone _ k (des_first c t0 (js k))); cbn [v_queue v_now].
  - apply Forall_forall. intros y HY. apply m_schedule_in in HY as [HY|(z & HZ & ->)]; [exact (proj1 (Forall_forall _ _) H4 y HY)|]. apply in_map_iff in HZ as (w & <- & _). discriminate.
  - constructor.
  - unfold node_of. cbn [v_nodes]. rewrite HL, H1. reflexivity.
  - rewrite schedule_mine by exact OQ. rewrite events_cons in H2. cbn [mine] in H2. rewrite H2. reflexivity.
  - unfold des_first, des_begin. cbn [w_now]. lia.
  - left. reflexivity.
Qed.

(** *** An event of the node *)
Lemma not_starting_tag k now new q : not_starting k q -> not_starting k (schedule now (tag k new) q).
Proof. intros H. apply Forall_forall. intros y HY. apply m_schedule_in in HY as [HY|(z & HZ & ->)]; [exact (proj1 (Forall_forall _ _) H y HY)|]. apply in_map_iff in HZ as (w & <- & _). discriminate. Qed.
Lemma step_fires s y q n new : z_fin (w_node s) <> FEnd -> w_queue s = y :: q -> fire P c (e_time y) (e_ev y) (w_node s) = DGo n new -> des_step P c s = NStep (MkDes (e_time y) (schedule (e_time y) new q) n).
Proof. intros H1 H2 H3. unfold des_step. rewrite H2, H3. destruct (z_fin (w_node s)); congruence. Qed.
Lemma state_own x k t p e q n n' new l o : inv x -> in_run c k -> v_queue x = (t, p, MOf k e) :: q -> e <> VNodeEnd -> node_of x k = Some n -> fire P c t e n = DGo n' new ->
  the_node l k = Some n' -> state_of (MkMany t (schedule t (tag k new) q) l o) k /\ process_over n' = process_over n /\ nonneg new.
Proof.
  intros HI Hk EQ HE HN HF HL. pose proof (iv_ordered _ HI) as HO. rewrite EQ in HO. assert (OQ : m_ordered q) by now inversion HO.
  assert (TH : v_now x <= t) by (pose proof (iv_after _ HI) as HA; rewrite EQ in HA; now inversion HA).
  assert (EV : events_of k (v_queue x) = (t, p, e) :: events_of k q) by (rewrite EQ, events_cons; cbn; now rewrite Z.eqb_refl).
  destruct (iv_nodes _ HI k Hk) as [a b H1 H2 H3 H4 H5|s H1 H2 H3 H4 H5 H6|n2 t' H1 H2 H3 H4 H5 H6].
  - rewrite EV in H2. discriminate.
  - rewrite H3 in HN. injection HN as <-. rewrite EV in H4. symmetry in H4.
    assert (ST : des_step P c s = NStep (MkDes t (schedule t new (events_of k q)) n')) by (apply (step_fires s (t, p, e)); auto; destruct H6; congruence).
    assert (HR : sim_reach c (js k) t0 (MkDes t (schedule t new (events_of k q)) n')) by (econstructor; eauto). pose proof (reach_ok _ _ _ _ H2) as [_ QO]. rewrite H4 in QO.
    assert (W : node_waits c t e (w_node s)) by (pose proof (q_waits _ _ _ _ QO) as WA; now inversion WA).
    assert (G : (z_fin n' = FRunning \/ z_fin n' = FNode) /\ nonneg new).
    { destruct (paced e) eqn:EP.
      - pose proof (fire_calm P c t e (w_node s) EP) as C. rewrite HF in C. destruct C as (C1 & C2 & _). rewrite C2. auto.
      - destruct e; try discriminate; cbn [fire] in HF.
        + unfold on_monitor in HF. destruct (negb _); [injection HF as <- <-; split; [auto|constructor]|]. destruct (negb _); [discriminate|]. injection HF as <- <-. split; [exact H6|nn].
        + unfold monitor_int in HF. destruct (z_fin (w_node s)) eqn:E; try discriminate; injection HF as <- <-; (split; [cbn; destruct H6 as [H6|H6]; rewrite ?E in H6; first [discriminate|now right]|nn]).
        + unfold all_tiles in HF. destruct (z_fin (w_node s)); try discriminate. destruct (forallb _ _); [|discriminate]. injection HF as <- <-. split; [now right|nn].
        + contradiction.
        + cbn in W. rewrite W in H6. destruct H6; discriminate. }
    destruct G as [G1 G2]. split; [|split; [|exact G2]].
    + refine (so_alone _ k _ _ HR _ _ _ _); cbn [w_node w_queue w_now v_queue v_now]; auto.
      * apply not_starting_tag. rewrite EQ in H1. exact (Forall_inv_tail H1).
      * now apply schedule_mine.
      * lia.
    + unfold process_over. destruct G1 as [-> | ->], H6 as [-> | ->]; reflexivity.
  - rewrite H2 in HN. injection HN as <-. rewrite EV in H4. destruct (late_fires P c t' (t, p, e) _ _ _ _ H4 HF) as (L1 & _ & L3). cbn [e_time fst] in L1.
    split; [|split; [|exact L3]].
    + apply (so_late _ k n' t); cbn [v_queue v_now]; auto.
      * apply not_starting_tag. rewrite EQ in H1. exact (Forall_inv_tail H1).
      * lia.
      * rewrite schedule_mine by exact OQ. exact L1.
      * apply (late_goes Q c (js k) t0 (HQ k Hk) t' t e n2 n' new H5); [lia|exact HF].
      * destruct H6 as [(s & te & q1 & q2 & M1 & M2 & M3 & M4 & M5 & M6)|H6]; [|now right]. destruct q1 as [|h' q1].
        -- right. apply (end_returns c (js k) t0 s te (events_of k q2) M1); [rewrite M2; apply (lt_fin _ _ _ _ H4)|exact M5].
        -- left. rewrite EQ in M4. assert (h' = (t, p, MOf k e)) as -> by (pose proof (sp_app _ _ _ _ M4) as E; now injection E). pose proof (sp_before _ _ _ _ M4) as B. apply Forall_inv in B. cbn [e_time fst] in B. subst te. assert (TE : t = v_now x) by lia.
           apply split_tail in M4. pose proof (Forall_inv_tail M6) as N2. destruct (split_tag k (v_now x) t new _ _ _ M4 OQ) as (p1 & p2 & S & E1 & I2).
           rewrite events_cons in M5. cbn [mine] in M5. rewrite Z.eqb_refl in M5. cbn [app] in M5.
           assert (ST : des_step P c s = NStep (MkDes t (schedule t new (events_of k q1 ++ (v_now x, Normal, VRunEnd) :: events_of k q2)) n')).
           { apply (step_fires s (t, p, e)); [rewrite M2, (lt_fin _ _ _ _ H4); discriminate|exact M5|now rewrite M2]. }
           exists (MkDes t (schedule t new (events_of k q1 ++ (v_now x, Normal, VRunEnd) :: events_of k q2)) n'), (v_now x), p1, p2. cbn [v_now v_queue w_node w_queue].
           split; [econstructor; eauto|]. split; [reflexivity|]. split; [exact TE|]. split; [exact S|]. split; [exact E1|].
           apply Forall_forall. intros y HY. apply I2 in HY as [HY|(e' & HY)]; [exact (proj1 (Forall_forall _ _) N2 y HY)|congruence].
    + unfold process_over. rewrite (lt_fin _ _ _ _ L1), (lt_fin _ _ _ _ H4). reflexivity.
Qed.

(** *** The end of a node *)
Lemma state_ends x k t p q n l o new : inv x -> in_run c k -> v_queue x = (t, p, MOf k VNodeEnd) :: q -> node_of x k = Some n -> z_fin n = FNode ->
  the_node l k = Some (set_fin n FCond) -> new = [] \/ new = [(0, Normal, MAll)] -> state_of (MkMany t (schedule t new q) l o) k.
Proof.
  intros HI Hk EQ HN HF HL Hnew. pose proof (iv_ordered _ HI) as HO. rewrite EQ in HO. assert (OQ : m_ordered q) by now inversion HO.
  assert (TH : v_now x <= t) by (pose proof (iv_after _ HI) as HA; rewrite EQ in HA; now inversion HA).
  assert (EV : events_of k (v_queue x) = (t, p, VNodeEnd) :: events_of k q) by (rewrite EQ, events_cons; cbn; now rewrite Z.eqb_refl).
  destruct (iv_nodes _ HI k Hk) as [a b H1 H2 H3 H4 H5|s H1 H2 H3 H4 H5 H6|n2 t' H1 H2 H3 H4 H5 H6].
  - rewrite EV in H2. discriminate.
  - rewrite H3 in HN. injection HN as <-. rewrite EV in H4. symmetry in H4. set (n' := set_fin (w_node s) FCond) in *.
    assert (FF : fire P c t VNodeEnd (w_node s) = DGo n' [soon VRunEnd]) by (cbn [fire]; unfold node_end; rewrite HF; reflexivity).
    set (s' := MkDes t (schedule t [soon VRunEnd] (events_of k q)) n').
    assert (HR : sim_reach c (js k) t0 s') by (econstructor; [exact H2|]; apply (step_fires s (t, p, VNodeEnd)); auto; congruence).
    destruct (split_exists t q OQ) as (q1 & q2 & S & G).
    assert (EE : events_of k q = events_of k q1 ++ events_of k q2) by (rewrite (sp_app _ _ _ _ S), events_app; reflexivity).
    assert (EI : w_queue s' = events_of k q1 ++ (t, Normal, VRunEnd) :: events_of k q2).
    { cbn [s' w_queue]. change (schedule t [soon VRunEnd] (events_of k q)) with (insert (t + 0, Normal, VRunEnd) (events_of k q)). rewrite Z.add_0_r, EE. pose proof (before_mine k t q1 (sp_before _ _ _ _ S)) as B.
      clear - B G. assert (B2 : Forall (fun y => sooner (t, Normal, VRunEnd) y = true) (events_of k q2)).
      { apply Forall_forall. intros y HY. apply events_in in HY as (z & HZ & HM). rewrite Forall_forall in G. apply G in HZ. apply mine_is in HM. subst z. destruct y as [[ty py] ey]. exact HZ. }
      induction B as [|y r H1 B IH]; cbn [app insert]; [destruct (events_of k q2) as [|y r]; [reflexivity|]; inversion B2 as [|? ? H _]; subst; cbn [insert]; now rewrite H|].
      assert (sooner (t, Normal, VRunEnd) y = false) as ->; [|now rewrite IH]. destruct y as [[ty py] ey]. unfold sooner. cbn in *. lia. }
    assert (FN : Forall (fun z : Z * prio * mev => mine k (m_at t z) = None) new) by (destruct Hnew as [->| ->]; repeat constructor).
    pose proof (reach_ok _ _ _ _ HR) as [TM QO]. pose proof (ti_fin _ TM) as EN. pose proof (monitor_off _ _ _ _ HR) as MO. cbn [mon_off s' w_node n' set_fin z_fin z_monitor] in MO. unfold mon_off in MO. cbn in MO. rewrite EI in QO. cbn [s' w_now w_node] in QO.
    apply (so_late _ k n' t); cbn [v_queue v_now]; auto.
    + apply Forall_forall. intros y HY. apply m_schedule_in in HY as [HY|(z & HZ & ->)]; [rewrite EQ in H1; exact (proj1 (Forall_forall _ _) (Forall_inv_tail H1) y HY)|]. destruct Hnew as [->| ->]; [destruct HZ|destruct HZ as [<-|[]]; discriminate].
    + lia.
    + rewrite schedule_other by exact FN. rewrite EE. constructor; auto; [apply (queue_drop c _ _ _ _ _ QO)|apply (drop_no_end c _ _ _ _ _ QO)|apply EN; discriminate].
    + destruct (run_related Q c (js k) t0 (HQ k Hk) s' HR) as [_ (u & N & U1 & U2 & U3)]. exists u, N. split; [exact U1|]. split; [exact U2|]. destruct U3 as [U3|U3]; [left; apply rel_like; exact U3|now right].
    + left. destruct (split_foreign k t t new FN) with (q := q) (q1 := q1) (q2 := q2) as (p1 & p2 & S2 & E1 & E2 & I2); [|exact S|].
      * destruct Hnew as [->| ->]; repeat constructor. intros _. unfold sooner, m_at. cbn. lia.
      * exists s', t, p1, p2. cbn [v_now v_queue]. split; [exact HR|]. split; [reflexivity|]. split; [reflexivity|]. split; [exact S2|]. split; [now rewrite E1, E2|].
        apply Forall_forall. intros y HY. apply I2 in HY as [HY|HY]; [|exact HY]. intros EY.
        assert (IY : In y (v_queue x)) by (rewrite EQ; right; rewrite (sp_app _ _ _ _ S); apply in_or_app; now left). destruct (iv_over _ HI (or_intror (ex_intro _ y (conj IY EY))) k Hk) as (m & M1 & M2).
        rewrite H3 in M1. injection M1 as <-. unfold process_over in M2. rewrite HF in M2. discriminate.
  - rewrite H2 in HN. injection HN as <-. rewrite (lt_fin _ _ _ _ H4) in HF. discriminate.
Qed.
End All.
