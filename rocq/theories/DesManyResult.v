(** The simulation of all nodes: when it never ends, and its results if each job can be completed. *)
From Verif Require Import PyBase PyLemmas MemoryModel CoreModel DramModel DramSpec RouterModel SystemModel SystemSpec NodeModel NodeSpec NodeClaims LiveSpec SystemDet LiveClaims
  DesModel DesSpec DesClaims DesIdleSpec DesIdle DesEndSpec DesEnd DesReturnSpec DesReturn DesManyModel DesManySpec DesManyClaims DesManyEnd.

Lemma ticks_not_returning c j t0 s : sim_reach c j t0 s -> only_ticks s -> ~ returns_alone c j t0.
Proof.
  intros HR HT (s' & HR' & E). destruct (endless_iff c j t0) as (_ & G). destruct (G (ex_intro _ s (conj HR HT)) s' HR') as (s2 & H). unfold returned in E. congruence.
Qed.
Theorem still_node c js t0 k s : in_run c k -> sim_reach c (js k) t0 s -> only_ticks s -> forall x, many_reach c js t0 x -> ~ many_returned c x.
Proof. intros Hk HR HT x HX E. exact (ticks_not_returning c (js k) t0 s HR HT (many_returns c js t0 x HX E k Hk)). Qed.
Theorem still_endless c js t0 k s : (forall k, in_run c k -> delays_ok c (js k)) -> (forall k, in_run c k -> never_crashes c (js k)) ->
  in_run c k -> sim_reach c (js k) t0 s -> only_ticks s -> forall x, many_reach c js t0 x -> exists x', many_step (real c) c x = YStep x'.
Proof.
  intros HD HC Hk HR HT x HX. destruct (many_goes_on c js t0 x HX) as [H|[(e & H)|H]]; [exact H| |].
  - destruct (many_raises c js t0 x e HD HX H) as (m & t & N & Hm & HN & HE). elim HE. now apply (HC m Hm t).
  - elim (still_node c js t0 k s Hk HR HT x HX H).
Qed.

Section Results.
  Variables (c c' : sys_cfg) (js : Z -> job) (t0 : Z) (A : Z -> sys).
  Hypotheses (SZ : 0 <= y_size c) (UL : usable_latencies c) (UL' : usable_latencies c') (SH : same_shape c c').
  Hypothesis (HA : forall k, in_run c' k -> all_halt c (js k)).
  Hypothesis (DL : forall k, in_run c' k -> delays_ok c' (js k)).
  Hypothesis (RA : forall k, in_run c' k -> exists t, sreach c (js k) t (A k)).
  Hypothesis (CA : forall k, in_run c' k -> completed_run c (A k)).
  Hypothesis (WO : forall k i, in_run c' k -> on_node c i -> written_once (d_history (t_dram (s_tile (A k) i)))).
  Lemma safe_all k : in_run c' k -> never_crashes c' (js k).
  Proof. intros Hk. destruct (RA k Hk) as (t & R). exact (safe' c c' (js k) t (A k) SZ UL UL' SH (HA k Hk) R (CA k Hk) (fun i => WO k i Hk)). Qed.
  Theorem whole_results x k : many_reach c' js t0 x -> many_returned c' x -> in_run c' k -> exists n, node_of x k = Some n /\ results_of c' (A k) (MkDes 0 [] n).
  Proof.
    intros HX E Hk. destruct (many_completes c' js t0 x k HX E Hk) as (n & t1 & N & HN & _ & HR & [[AG CR _ _]|CR]); [|exfalso; exact (CR (safe_all k Hk t1 N HR))].
    exists n. split; [exact HN|]. destruct (nd_reach_sys c' (js k) t1 N HR) as (t2 & _ & RS). destruct (RA k Hk) as (t & R).
    intros i ON. destruct (proj1 (ag_tiles _ _ _ _ AG i) ON) as (T & HT). exists T. split; [exact HT|]. destruct (ag_view _ _ _ _ AG i T HT) as [V1 V2 _ _ V5 _].
    pose proof (proj1 (same_node c c' SH i) ON) as ON'.
    destruct (proj2 (timing_independent c c' (js k) t (A k) t2 (nd_sys N) SZ UL UL' SH (HA k Hk) R (CA k Hk) (fun i => WO k i Hk) RS) CR i ON') as (E1 & E2 & E3 & _). rewrite <- V1, <- V2, <- V5. auto.
  Qed.
  Theorem whole_returns : (forall k i, in_run c' k -> on_node c i -> readers (js k) i <= 1) -> exists x, many_reach c' js t0 x /\ many_returned c' x.
  Proof.
    intros RD. apply (all_return c' js t0 DL safe_all). intros k Hk. destruct (RA k Hk) as (t & R).
    destruct (one_reader_returns c c' (js k) t (A k) t0 SZ UL UL' SH (HA k Hk) (DL k Hk) R (CA k Hk) (fun i => WO k i Hk) (fun i => RD k i Hk)) as (n & s & G & E & _). exists s. split; [exact (goes_reach c' (js k) t0 n s G)|exact E].
  Qed.
End Results.
