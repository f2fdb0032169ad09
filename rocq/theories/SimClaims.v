(** The claims about simulations of several nodes. *)
From Verif Require Import PyBase PyLemmas MemoryModel CoreModel DramModel DramSpec RouterModel SystemModel SystemSpec SystemBase SystemDet SystemClaims
  NodeModel NodeSpec NodeClaims SimModel SimSpec SimProofs SimReset.
From Coq Require Import ZifyBool ZifyNat.

Lemma sim_projection c js t0 t x m : sim_reach c js t0 t x ->
  exists t' n, t' <= t /\ node_from c (js m) t0 t' n /\ same_but_monitor (x m) n /\ nd_busy (x m) <= nd_busy n /\
    ((exists i, on_node c i /\ t_prog (s_tile (nd_sys (x m)) i) <> []) -> x m = n) /\
    (0 <= y_size c -> all_halt c (js m) -> nd_busy (x m) = nd_busy n).
Proof.
  intros R. destruct (sim_follows _ _ _ _ _ R m) as [(t1 & n & F & T & S & B & X & Y)]. exists t1, n. split; [exact T|]. split; [exact F|]. split; [exact S|]. split; [exact B|]. split; [|exact Y].
  intros (i & I & P). apply X. apply not_true_iff_false. intros D. rewrite done_all in D. now specialize (D i I).
Qed.

(** A node alone, all others waiting. *)
Lemma sim_alone c js t0 m t n : in_sim c m -> node_from c (js m) t0 t n -> exists t' x, sim_reach c js t0 t' x /\ same_but_monitor (x m) n.
Proof.
  intros I F. enough (G : exists t' x, t' <= t /\ sim_reach c js t0 t' x /\ same_but_monitor (x m) n /\ (forall k, k <> m -> x k = node_first c t0 (js k)) /\
    (s_crash (nd_sys n) = None -> node_done c n = false -> x m = n)).
  { destruct G as (t' & x & _ & R & S & _). eauto. }
  induction F as [|t t' a n n' F IH T S].
  - exists t0, (sim_first c t0 js). split; [lia|]. split; [constructor|]. repeat split.
  - destruct IH as (t1 & x & T1 & R & SM & OT & EQ). pose proof SM as (M1 & M2 & M3 & M4).
    assert (CASE : (a = NdMonitor /\ (s_crash (nd_sys n) <> None \/ node_done c n = true)) \/ (s_crash (nd_sys n) = None /\ node_done c n = false) \/ (s_crash (nd_sys n) = None /\ node_done c n = true /\ exists b, a = NdSys b)).
    { destruct a as [b|].
      - assert (C : s_crash (nd_sys n) = None).
        { unfold node_step in S. destruct (_ <? _); [discriminate|]. unfold sstep, sstep_cap in S. destruct (s_crash (nd_sys n)); [discriminate|reflexivity]. }
        right. destruct (node_done c n); [right|left]; eauto.
      - destruct (s_crash (nd_sys n)); [left; split; [reflexivity|left; discriminate]|]. destruct (node_done c n); auto. }
    assert (NR : s_crash (nd_sys n) = None -> sim_raised c x = None).
    { intros C. apply raised_none. intros k _. destruct (Z.eq_dec k m) as [->|NE]; [now rewrite M1|]. now rewrite (OT k NE). }
    assert (KN : (0 <=? m) && (m <? w_nodes (y_net c)) = true) by (unfold in_sim in I; lia).
    destruct CASE as [(-> & D)|[(C & D)|(C & D & b & ->)]].
    + unfold node_step in S. destruct (_ <? _); [discriminate|]. destruct (negb _); [discriminate|]. injection S as <-. exists t1, x. split; [lia|]. split; [exact R|]. split; [exact SM|]. split; [exact OT|].
      cbn [nd_sys]. intros C D'. change (node_done c n = false) in D'. destruct D; congruence.
    + specialize (EQ C D). exists t', (set_fun x m n'). split; [lia|]. split; [|split; [|split]].
      * apply (sim_step_ c js t0 t1 t' (m, a) x); [exact R|lia|]. unfold sim_step. rewrite (NR C). cbn [fst snd]. rewrite KN. unfold sim_node_step. rewrite EQ, D, S. reflexivity.
      * rewrite set_fun_eq. repeat split.
      * intros k NE. rewrite set_fun_neq by auto. auto.
      * intros _ _. now rewrite set_fun_eq.
    + assert (SM' : same_but_monitor n (MkNode (nd_sys (x m)) (nd_start (x m)) t' (nd_busy (x m)) (nd_tile_cycles (x m)) (nd_core_cycles (x m)))) by (unfold same_but_monitor; cbn; auto).
      destruct (node_step_monitor _ _ _ _ _ _ S SM') as (y & N & SM2 & _); [cbn; lia|]. destruct SM2 as (A1 & A2 & A3 & A4).
      exists t', (set_fun x m (MkNode (nd_sys y) (nd_start y) (nd_next (x m)) (nd_busy y) (nd_tile_cycles y) (nd_core_cycles y))). split; [lia|]. split; [|split; [|split]].
      * apply (sim_step_ c js t0 t1 t' (m, NdSys b) x); [exact R|lia|]. unfold sim_step. rewrite (NR C). cbn [fst snd]. rewrite KN. unfold sim_node_step.
        replace (node_done c (x m)) with true by (unfold node_done in *; now rewrite M1, D). unfold late_step. rewrite N. reflexivity.
      * rewrite set_fun_eq. unfold same_but_monitor. cbn. auto.
      * intros k NE. rewrite set_fun_neq by auto. auto.
      * intros _ D'. exfalso. unfold node_step in S. destruct (_ <? _); [discriminate|]. destruct (sstep c t' b (nd_sys n)) as [s|] eqn:SS; [|discriminate]. injection S as <-.
        apply not_true_iff_false in D'. apply D'. apply done_all. cbn [nd_sys]. rewrite done_all in D. eapply sstep_done; [exact SS|exact D].
Qed.

Lemma completes_together c js t0 :
  (exists t x, sim_reach c js t0 t x /\ completed_sim c x) <->
  (forall m, in_sim c m -> exists t n, node_from c (js m) t0 t n /\ completed_run c (nd_sys n)).
Proof.
  split.
  - intros (t & x & R & C) m I. destruct (sim_follows _ _ _ _ _ R m) as [(t1 & n & F & _ & (E & _) & _)]. exists t1, n. split; [exact F|]. rewrite <- E. now apply C.
  - intros H. set (k := Z.to_nat (w_nodes (y_net c))). assert (K : forall m, 0 <= m < Z.of_nat k <-> in_sim c m) by (intros m; unfold in_sim, k; lia).
    destruct (choice (fun m n => exists t, node_from c (js m) t0 t n /\ completed_run c (nd_sys n)) (node_first c t0 (js 0)) k) as (ns & N).
    { intros m I. apply K in I. destruct (H m I) as (t & n & F & C). eauto. }
    destruct (together c js t0 ns) as (t & x & R & S). { intros m I. apply K in I. destruct (N m I) as (t & F & (C & _)). eauto. }
    exists t, x. split; [exact R|]. intros m I. destruct (S m I) as ((E & _) & _). apply K in I. destruct (N m I) as (_ & _ & C). now rewrite E.
Qed.

Lemma raise_stops c x now a : some_raised c x -> sim_step c now a x = None.
Proof. intros H. apply raised_some in H as (e & H). unfold sim_step. now rewrite H. Qed.
Lemma raise_single c js t0 t x m e : sim_reach c js t0 t x -> s_crash (nd_sys (x m)) = Some e -> exists t' n, node_from c (js m) t0 t' n /\ s_crash (nd_sys n) = Some e.
Proof. intros R E. destruct (sim_follows _ _ _ _ _ R m) as [(t1 & n & F & _ & (S & _) & _)]. exists t1, n. split; [exact F|]. now rewrite <- S. Qed.

Lemma sim_timing c c' js t0 t A t0' t' B : 0 <= y_size c -> usable_latencies c -> usable_latencies c' -> same_shape c c' ->
  (forall m, in_sim c m -> all_halt c (js m)) -> sim_reach c js t0 t A -> completed_sim c A ->
  (forall m i, in_sim c m -> on_node c i -> written_once (d_history (t_dram (s_tile (nd_sys (A m)) i)))) ->
  sim_reach c' js t0' t' B ->
  ~ some_raised c' B /\
  (completed_sim c' B -> forall m i, in_sim c m -> on_node c i ->
     cells (d_mem (t_dram (s_tile (nd_sys (B m)) i))) = cells (d_mem (t_dram (s_tile (nd_sys (A m)) i))) /\
     map cp_core (t_cores (s_tile (nd_sys (B m)) i)) = map cp_core (t_cores (s_tile (nd_sys (A m)) i)) /\
     t_log (s_tile (nd_sys (B m)) i) = t_log (s_tile (nd_sys (A m)) i)).
Proof.
  intros SZ UL UL' SH AH RA CA WO RB. assert (SAME : forall m, in_sim c' m <-> in_sim c m) by (intros m; unfold in_sim; destruct SH as (_ & _ & _ & ->); reflexivity).
  assert (G : forall m, in_sim c m -> s_crash (nd_sys (B m)) = None /\ (completed_run c' (nd_sys (B m)) -> forall i, on_node c i ->
     cells (d_mem (t_dram (s_tile (nd_sys (B m)) i))) = cells (d_mem (t_dram (s_tile (nd_sys (A m)) i))) /\
     map cp_core (t_cores (s_tile (nd_sys (B m)) i)) = map cp_core (t_cores (s_tile (nd_sys (A m)) i)) /\
     t_log (s_tile (nd_sys (B m)) i) = t_log (s_tile (nd_sys (A m)) i))).
  { intros m I. destruct (sim_node_sys _ _ _ _ _ m RA) as (ta & _ & SA). destruct (sim_node_sys _ _ _ _ _ m RB) as (tb & _ & SB).
    destruct (timing_independent c c' (js m) ta _ tb _ SZ UL UL' SH (AH m I) SA (CA m I) (fun i => WO m i I) SB) as (N & E). split; [exact N|].
    intros C i J. destruct (E C i J) as (E1 & E2 & E3 & E4 & _). auto. }
  split.
  - intros (m & e & I & C). apply SAME in I. destruct (G m I) as (N & _). congruence.
  - intros C m i I J. apply (G m I); [|exact J]. apply C. now apply SAME.
Qed.

Lemma sim_second_run c js js' t0 t x : 0 <= y_size c -> (forall m, in_sim c m -> fresh_job c (js m)) -> (forall m, in_sim c m -> units_have_rram c (js m)) ->
  (forall m, in_sim c m -> all_halt c (js m)) -> (forall m, in_sim c m -> same_programs (js m) (js' m)) -> sim_reach c js t0 t x -> completed_sim c x ->
  exists x0, sim_reset c x = (Ok tt, x0) /\
    forall now l, match sim_run c l (sim_again c now js' x0), sim_run c l (sim_first c now js') with
                  | Some a, Some b => forall m, in_sim c m -> same_node (x m) (a m) (b m)
                  | None, None => True | _, _ => False end.
Proof.
  intros SZ F U AH P R C. destruct (sim_reset_all c js t0 t x R F U) as (x0 & E & N). exists x0. split; [exact E|]. intros now l. apply sim_run_same. intros m I.
  destruct (sim_node_sys _ _ _ _ _ m R) as (t1 & _ & S). apply (again_like c (js m) (js' m) (x m) (x0 m) (nd_sys (x m)) t1); auto. apply NodeProofs.same_refl.
Qed.

Lemma batch_like_fresh c js acts act x : 0 <= y_size c -> (forall m a a', in_sim c m -> same_programs (js a m) (js a' m)) ->
  (forall m a, in_sim c m -> fresh_job c (js a m)) -> (forall m a, in_sim c m -> units_have_rram c (js a m)) -> (forall m a, in_sim c m -> all_halt c (js a m)) ->
  batch c js (acts ++ [act]) x ->
  (exists t0 t y, sim_reach c (js act) t0 t y /\ completed_sim c y /\ forall m, in_sim c m -> like_fresh (x m) (y m)) /\
  (exists x0, sim_reset c x = (Ok tt, x0)).
Proof.
  intros SZ P F U AH B. destruct (batch_fresh c js SZ P F U AH _ _ B) as (acts' & a & E & FR). apply app_inj_tail in E as (_ & <-). split.
  - destruct FR as (t0 & l & y & O & R & C & L). destruct (sim_run_reach c (js act) t0 l t0 _ y (sim_start_ _ _ _) O R) as (t & _ & RR). eauto 6.
  - destruct (fresh_reset c js SZ P F U AH act x FR) as (x0 & E & _). eauto.
Qed.
