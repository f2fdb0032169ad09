(** Which steps a simulation can make: claims. *)
From Verif Require Import PyBase PyLemmas MemoryModel CoreModel DramModel DramProofs RouterModel SystemModel SystemSpec SystemDeadlock SystemExamples NodeModel NodeSpec
  DesModel DesSpec DesQueue DesExamples DesWaitNode DesWaitQueue DesIdleSpec.

Section Idle.
Variables (c : sys_cfg) (j : job) (t0 : Z).
Lemma reach_ok s : sim_reach c j t0 s -> ok c s.
Proof.
  induction 1 as [|s s' H IH HS].
  - split; [apply begin_timely|]. apply begin_ok.
    + rewrite map_length, length_zrange. lia.
    + intros T HT. apply in_map_iff in HT as (i & <- & _). eauto.
  - exact (ok_step (real c) c s s' IH HS).
Qed.
Theorem sim_goes_on s : sim_reach c j t0 s -> (exists s', des_step (real c) c s = NStep s') \/ (exists e, raised c s e) \/ returned c s.
Proof.
  intros H. destruct (ok_goes (real c) c s (reach_ok s H)) as [H1 H2]. unfold raised, returned. destruct (des_step (real c) c s); eauto; contradiction.
Qed.
Lemma same_work_refl s : same_work s s.
Proof. unfold same_work. induction (z_tiles (w_node s)); constructor; auto 8. Qed.
Lemma same_work_trans a b d : same_work a b -> same_work b d -> same_work a d.
Proof.
  unfold same_work. generalize (z_tiles (w_node a)), (z_tiles (w_node b)), (z_tiles (w_node d)). intros l1 l2 l3 H. revert l3. induction H as [|x y l1 l2 (E1 & E2 & E3 & E4 & E5 & E6) H IH]; intros l3 H3; inversion H3 as [|? z ? ? (F1 & F2 & F3 & F4 & F5 & F6) G]; subst; constructor; auto.
  repeat split; congruence.
Qed.
Lemma forall2_upd {A} (R : A -> A -> Prop) (l : list A) k x y : (forall a, R a a) -> nth_error l k = Some x -> R x y -> Forall2 R l (upd l k y).
Proof.
  intros HR. revert k. induction l as [|a l IH]; intros [|k] H1 H2; try discriminate; cbn in *.
  - injection H1 as ->. constructor; [exact H2|]. clear - HR. induction l; constructor; auto.
  - constructor; auto.
Qed.
Lemma idle_step s : sim_reach c j t0 s -> only_ticks s -> exists s', des_step (real c) c s = NStep s' /\ only_ticks s' /\ same_work s s'.
Proof.
  intros HR [HF HQ]. destruct (ok_goes (real c) c s (reach_ok s HR)) as [N1 N2]. unfold des_step in *. rewrite HF in *. destruct (w_queue s) as [|x q] eqn:EQ; [contradiction|].
  assert (HX := HQ x (or_introl eq_refl)).
  assert (OTH : forall n', (forall i T, the_tile (w_node s) i = Some T -> u_queue (x_rt T) <> [] -> exists T', the_tile n' i = Some T' /\ u_queue (x_rt T') <> []) ->
    forall new, Forall (fun z => match snd z with VMonitor => True | VPoll i | VPollTime i => exists T, the_tile n' i = Some T /\ u_queue (x_rt T) <> [] | _ => False end) new ->
    z_fin n' = FRunning -> only_ticks (MkDes (e_time x) (schedule (e_time x) new q) n')).
  { intros n' HT new HN HF'. split; [exact HF'|]. cbn [w_queue w_node]. intros y HY. apply schedule_in in HY as [HY|(d & p & e & HY & ->)].
    - specialize (HQ y (or_intror HY)). destruct (e_ev y); try exact HQ; destruct HQ as (T & H1 & H2); eauto.
    - rewrite Forall_forall in HN. exact (HN _ HY). }
  assert (POLL : forall i T T', the_tile (w_node s) i = Some T -> u_queue (x_rt T) <> [] -> x_rt T' = x_rt T ->
    forall k U, the_tile (w_node s) k = Some U -> u_queue (x_rt U) <> [] -> exists U', the_tile (put_tile (w_node s) i T') k = Some U' /\ u_queue (x_rt U') <> []).
  { intros i T T' H1 H2 E k U H3 H4. rewrite (tile_put (w_node s) i T T' k H1). destruct (k =? i) eqn:EK; [|eauto]. exists T'. rewrite E. auto. }
  assert (SAME : forall i T T' t q', the_tile (w_node s) i = Some T -> (x_ctl T' = x_ctl T /\ x_rt T' = x_rt T /\ x_cores T' = x_cores T /\ x_prog T' = x_prog T /\ x_cycles T' = x_cycles T /\ x_ended T' = x_ended T) ->
    same_work s (MkDes t q' (put_tile (w_node s) i T'))).
  { intros i T T' t q' H1 H2. unfold same_work. cbn. apply forall2_upd with (x := T); auto 8. unfold the_tile in H1. destruct (i <? 0); [discriminate|exact H1]. }
  destruct (e_ev x) eqn:EX; try contradiction; cbn [fire] in *.
  - unfold on_monitor in *. destruct (negb (z_monitor (w_node s))).
    + eexists. split; [reflexivity|]. split; [|exact (same_work_refl s)]. apply OTH; auto. intros i T H1 H2. eauto.
    + destruct (negb (e_time x =? z_next (w_node s))); [contradiction|]. eexists. split; [reflexivity|]. split.
      * apply OTH; auto. intros i T H1 H2. eauto.
      * exact (same_work_refl s).
  - destruct HX as (T & HT & HU). unfold on_tile in *. rewrite HT in *. destruct (is_new T); [contradiction|]. unfold on_poll in *. destruct (x_phase T) eqn:EP; try contradiction. destruct (e_time x <? next); [contradiction|].
    destruct (u_queue (x_rt T)) as [|pk l] eqn:EU; [contradiction|]. cbn [dmap]. eexists. split; [reflexivity|]. split; [|apply (SAME i T); [exact HT|cbn; auto 8]].
    rewrite <- EU in HU. apply OTH; [apply (POLL i T); auto| |exact HF]. constructor; [|constructor]. cbn [snd later]. apply (POLL i T) with (U := T); auto.
  - destruct HX as (T & HT & HU). unfold on_tile in *. rewrite HT in *. destruct (is_new T); [contradiction|]. unfold on_poll_time in *. destruct (x_phase T) eqn:EP; try contradiction.
    cbn [dmap]. eexists. split; [reflexivity|]. split; [|apply (SAME i T); [exact HT|auto 8]].
    apply OTH; [apply (POLL i T); auto| |exact HF]. constructor; [|constructor]. cbn [snd start]. apply (POLL i T) with (U := T); auto.
Qed.
Theorem idle_forever s : sim_reach c j t0 s -> only_ticks s -> forall n, exists s', goes_on c n s s' /\ only_ticks s' /\ same_work s s'.
Proof.
  intros HR HI n. revert s HR HI. induction n as [|n IH]; intros s HR HI.
  - exists s. split; [reflexivity|]. split; [exact HI|apply same_work_refl].
  - destruct (idle_step s HR HI) as (s1 & E & H1 & H2). destruct (IH s1) as (s' & G & H3 & H4); [econstructor; eauto|exact H1|].
    exists s'. split; [unfold goes_on; cbn; rewrite E; exact G|]. split; [exact H3|]. eapply same_work_trans; eauto.
Qed.

Lemma run_add a b s : forall s', goes_on c a s s' -> des_run (real c) c (a + b) s = des_run (real c) c b s'.
Proof.
  revert s. induction a as [|a IH]; intros s s' H; [cbn in H; injection H as -> _; reflexivity|]. unfold goes_on in H. cbn in *. destruct (des_step (real c) c s); try (injection H as -> H; discriminate). now apply IH.
Qed.
Lemma reach_runs s : sim_reach c j t0 s -> exists n, goes_on c n (des_first c t0 j) s.
Proof.
  induction 1 as [|s s' H (n & IH) HS]; [exists 0%nat; reflexivity|]. exists (n + 1)%nat. unfold goes_on. rewrite (run_add n 1 _ s IH). cbn. now rewrite HS.
Qed.
(** A run that comes to nothing but ticks never ends. *)
Theorem hangs_from N s : goes_on c N (des_first c t0 j) s -> only_ticks s -> forall u, sim_reach c j t0 u -> exists v, des_step (real c) c u = NStep v.
Proof.
  intros HN HI u HU. apply reach_runs in HU as [n HU]. assert (HR : sim_reach c j t0 s).
  { pose proof (run_reach c j t0 N _ (sim_first c j t0)) as H. unfold goes_on in HN. rewrite HN in H. exact H. }
  assert (G : exists v, goes_on c (n + 1) (des_first c t0 j) v).
  { destruct (le_lt_dec N n) as [L|L].
    - destruct (idle_forever s HR HI (n + 1 - N)) as (v & H & _). exists v. unfold goes_on. replace (n + 1)%nat with (N + (n + 1 - N))%nat by lia. rewrite (run_add N _ _ s HN). exact H.
    - replace N with ((n + 1) + (N - (n + 1)))%nat in HN by lia. revert HN. generalize (N - (n + 1))%nat as m. generalize (n + 1)%nat as a. intros a m. generalize (des_first c t0 j). revert s HR HI. clear. intros s _ _.
      induction a as [|a IH]; intros f H; [exists f; reflexivity|]. unfold goes_on in *. cbn in *. destruct (des_step (real c) c f); try (injection H as -> H; discriminate). eauto. }
  destruct G as [v G]. unfold goes_on in G. rewrite (run_add n 1 _ u HU) in G. cbn in G. destruct (des_step (real c) c u); try discriminate. eauto.
Qed.
End Idle.

(** The programs of C44. *)
Lemma hol_ticks : exists s, goes_on three 300 (des_first three 0 hol_job) s /\ only_ticks s /\ w_now s = 90.
Proof.
  destruct (des_run (real three) three 300 (des_first three 0 hol_job)) as [s r] eqn:E. exists s.
  assert (H : fst (des_run (real three) three 300 (des_first three 0 hol_job)) = s) by now rewrite E. 
  split; [unfold goes_on; rewrite E; f_equal; replace r with (snd (des_run (real three) three 300 (des_first three 0 hol_job))) by now rewrite E|].
  - rewrite <- H. vm_compute. reflexivity.
  - rewrite <- H. clear. split; [|vm_compute; reflexivity]. split; [vm_compute; reflexivity|]. intros x HX.
    assert (Q : w_queue (fst (des_run (real three) three 300 (des_first three 0 hol_job))) = [(90, Normal, VPollTime 0); (91, Normal, VMonitor)]) by (vm_compute; reflexivity).
    rewrite Q in HX. destruct HX as [<-|[<-|[]]]; [|exact I]. cbn [e_ev snd].
    destruct (the_tile (w_node (fst (des_run (real three) three 300 (des_first three 0 hol_job)))) 0) as [T|] eqn:ET.
    + exists T. split; [reflexivity|]. assert (L : option_map (fun T => zlen (u_queue (x_rt T))) (the_tile (w_node (fst (des_run (real three) three 300 (des_first three 0 hol_job)))) 0) = Some 1) by (vm_compute; reflexivity).
      rewrite ET in L. cbn in L. intros E. rewrite E in L. discriminate.
    + assert (L : option_map (fun T => zlen (u_queue (x_rt T))) (the_tile (w_node (fst (des_run (real three) three 300 (des_first three 0 hol_job)))) 0) = Some 1) by (vm_compute; reflexivity). rewrite ET in L. discriminate.
Qed.
Theorem never_ends : exists c j, forall s, sim_reach c j 0 s -> exists s', des_step (real c) c s = NStep s'.
Proof. exists three, hol_job. destruct hol_ticks as (s & H & I & _). exact (hangs_from three hol_job 0 _ s H I). Qed.
