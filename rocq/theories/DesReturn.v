(** Simulations of jobs that some execution of the node completes: claims. *)
From Verif Require Import PyBase PyLemmas MemoryModel CoreModel DramModel DramSpec DramProofs RouterModel SystemModel SystemSpec SystemInv SystemDet SystemDeadlock SystemExamples NodeModel NodeSpec NodeClaims
  LiveSpec LiveProofs LiveDet LiveExamples LiveClaims DesModel DesSpec DesRel DesQueue DesRun DesClaims DesExamples DesWait DesWaitCtl DesWaitTile DesWaitNode DesWaitQueue DesIdleSpec DesIdle DesEnd DesReturnSpec
  DesNeed DesNeedCtl DesNeedTile DesNeedOwn DesNeedNode DesNeedQueue DesWedge.

(** ** Standstill *)
Section Still.
  Variables (c : sys_cfg) (j : job) (t0 : Z).
  Lemma ticks_needs s : needs_ok s -> only_ticks s -> forall e, node_needs e (w_node s) -> exists i T, key e = VPoll i /\ the_tile (w_node s) i = Some T /\ u_queue (x_rt T) <> [].
  Proof.
    intros [_ NQ] [_ HQ] e HE. apply NQ in HE as HI. rewrite map_map in HI. apply in_map_iff in HI as (x & E & HX). specialize (HQ x HX).
    destruct (e_ev x) eqn:EX; try contradiction; [exfalso; destruct e; try discriminate E; contradiction HE|..]; (destruct HQ as (T & H1 & H2); exists i, T; split; [now rewrite <- E|auto]).
  Qed.
  Lemma not_completed s t N : node_rel (fun _ => True) c t0 t (w_node s) N -> needs_ok s -> only_ticks s -> ~ completed_run c (nd_sys N).
  Proof.
    intros HR HK HO [_ HC]. pose proof (ticks_needs s HK HO) as HI. destruct HO as [HF _].
    destruct (HI VAllTiles) as (i & T & E & _); [|discriminate E]. split; [exact HF|]. apply forallb_forall. intros T HT. destruct (In_nth_error _ _ HT) as [k EK].
    assert (E : the_tile (w_node s) (Z.of_nat k) = Some T) by (unfold the_tile; destruct (Z.ltb_spec (Z.of_nat k) 0); [lia|]; now rewrite Nat2Z.id).
    assert (ON : on_node c (Z.of_nat k)). { pose proof (nr_length _ _ _ _ _ _ HR) as L. unfold zlen in L. assert (nth_error (z_tiles (w_node s)) k <> None) as H by congruence. apply nth_error_Some in H. unfold on_node. lia. }
    pose proof (HC _ ON) as EP. pose proof (nr_tiles _ _ _ _ _ _ HR _ _ E) as TR. unfold tile_rel in TR. destruct (is_new T) eqn:EN.
    - exfalso. destruct (HI (VTile (Z.of_nat k))) as (i & U & EU & _); [|discriminate EU]. exists T. auto.
    - pose proof (br_phase _ _ _ _ _ _ _ TR) as PR. cbn [view_of v_tile] in PR. unfold phase_rel in PR. rewrite EP in PR.
      assert (NE : forall e, ev_tile e = Some (Z.of_nat k) -> part_of e = POwn -> (forall i, key e <> VPoll i) -> ~ own_needs e T).
      { intros e E1 E2 E3 H. destruct (HI e) as (i & U & H1 & _); [|exact (E3 i H1)]. unfold node_needs. rewrite E1. exists T. split; [exact E|]. unfold tile_needs. rewrite E2. auto. }
      destruct (x_phase T) eqn:EX; try contradiction; try (destruct PR as (P1 & P2 & _); congruence).
      + exfalso. apply (NE (VOpEnd (Z.of_nat k))); [reflexivity|reflexivity|intros; discriminate|cbn; now rewrite EX].
      + destruct (x_ended T) eqn:EE; [reflexivity|]. exfalso. apply (NE (VTileEnd (Z.of_nat k))); [reflexivity|reflexivity|intros; discriminate|cbn; now rewrite EX].
  Qed.
  Theorem standstill s : 0 <= y_size c -> sim_reach c j t0 s -> only_ticks s ->
    exists t N, t <= w_now s /\ nd_reach c j t N /\ (agrees c t0 s N /\ (forall t', wedged c t' (nd_sys N)) /\ ~ completed_run c (nd_sys N) \/ crashed N).
  Proof.
    intros SZ H HO. destruct (run_related _ c j t0 (any_job c j) s H) as [HT (t & N & Ht & HR & HS)]. exists t, N. split; [exact Ht|]. split; [exact HR|]. destruct HS as [HS|HS]; [left|now right].
    pose proof (reach_needs c j t0 s H) as HK. split; [exact (rel_agrees _ c j t0 (any_job c j) _ s N HS)|]. split; [|now apply (not_completed s (w_now s))].
    destruct (reach_ok c j t0 s H) as [_ OK]. destruct (nd_reach_sys c j t N HR) as (t1 & _ & RS).
    intros t'. apply (node_wedged (fun _ => True) c t0 (w_now s) (w_node s) N HS (q_node _ _ _ _ OK) (no_fit _ HK) (ticks_needs s HK HO)). intros i. exact (SystemInv.ti_cores _ _ _ _ (sreach_tinv c j SZ t1 (nd_sys N) RS i)).
  Qed.
End Still.

(** ** Jobs that some execution completes *)
Section Completing.
  Variables (c c' : sys_cfg) (j : job) (t : Z) (A : sys) (t0 : Z).
  Hypotheses (SZ : 0 <= y_size c) (UL : usable_latencies c) (UL' : usable_latencies c') (SH : same_shape c c') (HA : all_halt c j) (DL : delays_ok c' j).
  Hypotheses (RA : sreach c j t A) (CA : completed_run c A) (WO : forall i, on_node c i -> written_once (d_history (t_dram (s_tile A i)))).

  Lemma safe' : never_crashes c' j.
  Proof.
    intros t1 N HR. destruct (nd_reach_sys c' j t1 N HR) as (t2 & _ & RS). exact (proj1 (timing_independent c c' j t A t2 (nd_sys N) SZ UL UL' SH HA RA CA WO RS)).
  Qed.
  Lemma same_node i : on_node c' i <-> on_node c i.
  Proof. unfold on_node. destruct SH as (_ & _ & E & _). rewrite E. tauto. Qed.
  Lemma returned_results s : sim_reach c' j t0 s -> returned c' s -> results_of c' A s.
  Proof.
    intros H E. destruct (sim_safe_ends c' j t0 s safe' H E) as (t1 & N & _ & HR & [AG CR _ _]). destruct (nd_reach_sys c' j t1 N HR) as (t2 & _ & RS).
    intros i ON. destruct (proj1 (ag_tiles _ _ _ _ AG i) ON) as (T & HT). exists T. split; [exact HT|]. destruct (ag_view _ _ _ _ AG i T HT) as [V1 V2 _ _ V5 _].
    destruct (proj2 (timing_independent c c' j t A t2 (nd_sys N) SZ UL UL' SH HA RA CA WO RS) CR i (proj1 (same_node i) ON)) as (E1 & E2 & E3 & _). rewrite <- V1, <- V2, <- V5. auto.
  Qed.
  Lemma goes_reach n s : goes_on c' n (des_first c' t0 j) s -> sim_reach c' j t0 s.
  Proof. intros H. pose proof (run_reach c' j t0 n _ (sim_first c' j t0)) as R. unfold goes_on in H. rewrite H in R. exact R. Qed.
  Theorem returns_or_left : exists n s, goes_on c' n (des_first c' t0 j) s /\ (returned c' s /\ results_of c' A s \/ only_ticks s /\ read_left s).
  Proof.
    destruct (DesEnd.sim_ends c' j t0) as (n & s & G & E). exists n, s. split; [exact G|]. pose proof (goes_reach n s G) as HR. destruct E as [E|[(e & E)|E]].
    - left. split; [exact E|]. now apply returned_results.
    - exfalso. exact (proj2 (sim_safe c' j t0 s safe' HR) DL e E).
    - right. split; [exact E|]. assert (SZ' : 0 <= y_size c') by (destruct SH as (_ & E' & _); lia). destruct (standstill c' j t0 s SZ' HR E) as (t1 & N & _ & HN & [(AG & W & NC)|CR]); [|exfalso; exact (CR (safe' t1 N HN))].
      destruct (nd_reach_sys c' j t1 N HN) as (t2 & L & RS).
      destruct (wedged_or_missed c c' j t A t2 (nd_sys N) SZ UL UL' SH HA RA CA WO RS (W t2)) as [D|(i & r & ON & IN & PR & CV)]; [contradiction|].
      destruct (proj1 (ag_tiles _ _ _ _ AG i) ON) as (T & HT). destruct (ag_view _ _ _ _ AG i T HT) as [V1 V2 V3 _ _ _]. exists i, T, r. rewrite <- V2, <- V3. auto.
  Qed.
  Theorem one_reader_returns : (forall i, on_node c i -> readers j i <= 1) -> exists n s, goes_on c' n (des_first c' t0 j) s /\ returned c' s /\ results_of c' A s.
  Proof.
    intros RD. destruct (DesEnd.sim_ends c' j t0) as (n & s & G & E). exists n, s. split; [exact G|]. pose proof (goes_reach n s G) as HR. destruct E as [E|[(e & E)|E]].
    - split; [exact E|]. now apply returned_results.
    - exfalso. exact (proj2 (sim_safe c' j t0 s safe' HR) DL e E).
    - exfalso. assert (SZ' : 0 <= y_size c') by (destruct SH as (_ & E' & _); lia). destruct (standstill c' j t0 s SZ' HR E) as (t1 & N & _ & HN & [(AG & W & NC)|CR]); [|exact (CR (safe' t1 N HN))].
      destruct (nd_reach_sys c' j t1 N HN) as (t2 & L & RS). apply NC. exact (single_completes c c' j t A t2 (nd_sys N) SZ UL UL' SH HA RD RA CA WO RS (W t2)).
  Qed.
End Completing.
