(** What goes on in a node after the end of Node.run is an execution of the node, apart from its monitor. *)
From Verif Require Import PyBase PyLemmas MemoryModel CoreModel DramModel RouterModel SystemModel SystemSpec NodeModel NodeSpec
  DesModel DesSpec DesRel DesCtl DesCore DesTile DesRefine DesQueue DesRun.

(** ** The monitor's fields do not matter to the other processes *)
Section Remon.
  Context {K M : Type}.
  Variable P : machine K M.
  Variable c : sys_cfg.
  Notation dnode := (dnode K M). Notation dtile := (dtile K M).
  Variables (nx b : Z).
  Definition remon (n : dnode) : dnode := MkDNode (z_tiles n) (z_begin n) nx b (z_monitor n) (z_fin n).
  Lemma remon_dbind (r r' : dres dnode) (f f' : dnode -> dres dnode) : r' = dmap remon r -> (forall n, f' (remon n) = dmap remon (f n)) -> dbind r' f' = dmap remon (dbind r f).
  Proof. intros -> H. destruct r as [n l| |]; cbn; auto. rewrite H. now destruct (f n). Qed.
  Lemma remon_tile (n : dnode) i f : on_tile (remon n) i f = dmap remon (on_tile n i f).
  Proof. unfold on_tile. change (the_tile (remon n) i) with (the_tile n i). destruct (the_tile n i) as [t|]; [|reflexivity]. destruct (is_new t); [reflexivity|]. now destruct (f t). Qed.
  Lemma remon_put (n : dnode) s d : recv_put s d (remon n) = dmap remon (recv_put s d n).
  Proof.
    unfold recv_put. change (the_tile (remon n) s) with (the_tile n s). destruct (the_tile n s) as [t|]; [|reflexivity]. destruct (u_sender (x_rt t)); try reflexivity. destruct (negb _); [reflexivity|]. cbv zeta.
    change (the_tile (put_tile (remon n) s _) d) with (the_tile (put_tile n s (dt_rt t (rt_sender (x_rt t) (ZPut p inter)))) d). destruct (the_tile (put_tile n s _) d) as [t'|]; [|reflexivity]. destruct (buffer_of (x_rt t') s); [|reflexivity]. now destruct (is_new t').
  Qed.
  Lemma remon_get (n : dnode) s d : recv_get s d (remon n) = dmap remon (recv_get s d n).
  Proof.
    unfold recv_get. change (the_tile (remon n) d) with (the_tile n d). destruct (the_tile n d) as [t|]; [|reflexivity]. destruct (x_phase t); try reflexivity. destruct (negb _); [reflexivity|]. now destruct (buffer_of (x_rt t) s).
  Qed.
  Lemma remon_fire now e (n : dnode) : e <> VMonitor -> fire P c now e (remon n) = dmap remon (fire P c now e n).
  Proof.
    intros HE. destruct e; cbn [fire]; try contradiction; change (z_begin (remon n)) with (z_begin n); unfold on_core, on_core2, on_ctl, on_rt; try apply remon_tile.
    - unfold monitor_int. cbn [remon z_fin]. now destruct (z_fin n).
    - unfold start_tile. change (the_tile (remon n) i) with (the_tile n i). destruct (the_tile n i); [|reflexivity]. cbn [remon z_begin]. now destruct (tile_start c (z_begin n) now i d).
    - destruct (k =? -1); apply remon_tile.
    - unfold on_offer. change (the_tile (remon n) i) with (the_tile n i). destruct (the_tile n i) as [t|]; [|reflexivity]. destruct (u_sender (x_rt t)); try reflexivity. destruct (negb _); [reflexivity|].
      exact (remon_put (put_tile n i _) i (pk_dst p)).
    - unfold on_taken. change (the_tile (remon n) i) with (the_tile n i). destruct (the_tile n i) as [t|]; [|reflexivity]. destruct (u_sender (x_rt t)); try reflexivity.
      apply remon_dbind; [apply remon_get|]. intros n1. apply remon_dbind; [apply remon_tile|]. intros n2. apply remon_tile.
    - unfold tile_end. apply remon_dbind; [apply remon_tile|]. intros n1. reflexivity.
    - unfold on_read. change (the_tile (remon n) i) with (the_tile n i). destruct (the_tile n i) as [t|]; [|reflexivity]. destruct (x_phase t); try reflexivity. destruct (x_prog t) as [|[]]; try reflexivity. destruct (negb _); [reflexivity|].
      exact (remon_get (put_tile n i _) source i).
    - unfold on_popped. change (the_tile (remon n) i) with (the_tile n i). destruct (the_tile n i) as [t|]; [|reflexivity]. destruct (x_phase t); try reflexivity.
      apply remon_dbind; [apply remon_put|]. intros n1. apply remon_tile.
    - unfold all_tiles. cbn [remon z_fin z_tiles]. destruct (z_fin n); try reflexivity. now destruct (forallb x_ended (z_tiles n)).
    - unfold node_end. cbn [remon z_fin]. now destruct (z_fin n).
    - unfold run_end. cbn [remon z_fin]. now destruct (z_fin n).
  Qed.
End Remon.

Section LateRel.
  Variable Q : cop -> Prop.
  Variables (c : sys_cfg) (j : job) (t0 : Z).
  Notation P := (real c).
  Hypothesis Hj : forall i, on_node c i -> Forall (fun kp => Forall Q (snd kp)) (j_cores j i).
  Definition like (now : Z) (n : dnode core cells_valid) (N : node) : Prop := node_rel Q c t0 now (remon (nd_next N) (nd_busy N) n) N.
  Definition late_related (now : Z) (n : dnode core cells_valid) : Prop :=
    exists t N, t <= now /\ nd_reach c j t N /\ (like now n N \/ crashed N).
  Lemma rel_like now n N : node_rel Q c t0 now n N -> like now n N.
  Proof. intros [H1 H2 H3 H4 H5 H6 H7]. constructor; auto. Qed.
  Lemma like_same now n n' N : z_tiles n' = z_tiles n -> z_begin n' = z_begin n -> like now n N -> like now n' N.
  Proof.
    intros E1 E2 [H1 H2 H3 H4 H5 H6 H7]. constructor; auto.
    - cbn in *. congruence.
    - cbn in *. now rewrite E1.
    - intros i x H. apply H7. unfold the_tile in *. cbn in *. now rewrite <- E1.
  Qed.
  Lemma reach_next t N : nd_reach c j t N -> t <= nd_next N.
  Proof.
    induction 1 as [t|t t' a n n' H IH L S]; [cbn; lia|]. unfold node_step in S. destruct (nd_next n <? t') eqn:E; [discriminate|]. destruct a as [a|].
    - destruct (sstep c t' a (nd_sys n)); [|discriminate]. injection S as <-. cbn. lia.
    - destruct (negb _); [discriminate|]. injection S as <-. cbn. lia.
  Qed.
  (** The monitor of an execution goes on. *)
  Lemma ticks k : forall t N now n, nd_reach c j t N -> t <= now -> like now n N -> now - nd_next N <= Z.of_nat k ->
    exists t' N', nd_reach c j t' N' /\ t' <= now /\ like now n N' /\ now <= nd_next N'.
  Proof.
    induction k as [|k IH]; intros t N now n HR HT HL HK; [exists t, N; split; [exact HR|]; split; [exact HT|]; split; [exact HL|lia]|]. destruct (Z.le_gt_cases now (nd_next N)) as [G|G]; [exists t, N; auto|].
    set (N1 := MkNode (nd_sys N) (nd_start N) (nd_next N + 1) (if queue_busy c (nd_sys N) then nd_busy N + 1 else nd_busy N) (nd_tile_cycles N) (nd_core_cycles N)).
    apply (IH (nd_next N) N1); [|lia| |cbn; lia].
    - apply (nd_step_ c j t (nd_next N) NdMonitor N); [exact HR|now apply reach_next|]. unfold node_step. replace (nd_next N <? nd_next N) with false by lia. replace (negb (nd_next N =? nd_next N)) with false by lia. reflexivity.
    - destruct HL as [H1 H2 H3 H4 H5 H6 H7]. constructor; auto.
  Qed.
  Lemma late_sim now n t0' : late_related t0' n -> t0' <= now ->
    crash_by c j now \/ exists t N, t <= now /\ nd_reach c j t N /\ like now n N /\ forall e, e <> VMonitor ->
      node_sim Q c t0 now N (fire P c now e (remon (nd_next N) (nd_busy N) n)).
  Proof.
    intros (t & N & HT & HR & H) L. destruct H as [H|H]; [right|left; exists t, N; repeat split; auto; lia].
    assert (H' : like now n N) by (unfold like; eapply node_later; [exact L|exact H]).
    destruct (ticks (Z.to_nat (now - nd_next N)) t N now n HR ltac:(lia) H' ltac:(lia)) as (t1 & N1 & R1 & T1 & L1 & X1). exists t1, N1. split; [exact T1|]. split; [exact R1|]. split; [exact L1|].
    intros e HE. apply fire_sim; [exact L1|]. cbn. exact X1.
  Qed.
  Theorem late_goes t0' now e n n' new : late_related t0' n -> t0' <= now -> fire P c now e n = DGo n' new -> late_related now n'.
  Proof.
    intros HL L HF. assert (e = VMonitor \/ e <> VMonitor) as [->|HE] by (destruct e; first [now left|now right]).
    - cbn [fire] in HF. destruct HL as (t & N & HT & HR & H). exists t, N. split; [lia|]. split; [exact HR|]. destruct H as [H|H]; [left|now right].
      assert (H' : like now n N) by (unfold like; eapply node_later; [exact L|exact H]). apply (like_same now n); [| |exact H']; unfold on_monitor in HF; destruct (negb (z_monitor n)); try (injection HF as <- _; reflexivity); destruct (negb (now =? z_next n)); try discriminate; injection HF as <- _; reflexivity.
    - destruct (late_sim now n t0' HL L) as [(t & N & H1 & H2 & H3)|(t & N & H1 & H2 & H3 & H4)]; [exists t, N; auto|].
      specialize (H4 e HE). rewrite remon_fire, HF in H4 by exact HE. cbn in H4. destruct H4 as [(N' & S & R)|(N' & S & R)]; destruct (nsteps_reach Q c j Hj _ _ _ S _ H2 H1) as (t' & L' & R'); exists t', N'; (split; [exact L'|]); (split; [exact R'|]); [left|now right].
      destruct R as [R1 R2 R3 R4 R5 R6 R7]. constructor; auto.
  Qed.
  Theorem late_raises t0' now e n x : usable Q c -> late_related t0' n -> t0' <= now -> fire P c now e n = DRaise x -> exists t N, nd_reach c j t N /\ crashed N.
  Proof.
    intros U HL L HF. assert (e = VMonitor \/ e <> VMonitor) as [->|HE] by (destruct e; first [now left|now right]).
    - cbn [fire] in HF. unfold on_monitor in HF. destruct (negb _); [discriminate|]. destruct (negb _); discriminate.
    - destruct (late_sim now n t0' HL L) as [(t & N & H1 & H2 & H3)|(t & N & H1 & H2 & H3 & H4)]; [eauto|].
      specialize (H4 e HE). rewrite remon_fire, HF in H4 by exact HE. cbn in H4. destruct (H4 U) as (N' & S & R). destruct (nsteps_reach Q c j Hj _ _ _ S _ H2 H1) as (t' & L' & R'). eauto.
  Qed.
End LateRel.
