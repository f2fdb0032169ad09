(** Every run of the event simulation is an execution of the transition system. *)
From Verif Require Import PyBase PyLemmas MemoryModel CoreModel DramModel RouterModel SystemModel SystemSpec NodeModel NodeSpec
  DesModel DesSpec DesRel DesCtl DesCore DesTile DesRefine DesQueue.

Section Run.
  Variable Q : cop -> Prop.
  Variables (c : sys_cfg) (j : job) (t0 : Z).
  Notation P := (real c).

  (** ** Time passes *)
  Lemma sender_later b1 b2 i z s : b1 <= b2 -> sender_rel c b1 i z s -> sender_rel c b2 i z s.
  Proof.
    intros H. destruct z; cbn; auto. intros ((since & H1 & H2) & H3 & H4). split; [|now split]. exists since. split; [assumption|lia].
  Qed.
  Lemma rt_later b1 b2 i a r u : b1 <= b2 -> rt_rel c b1 i a r u -> rt_rel c b2 i a r u.
  Proof. intros H [? ? ? ? H1 ? ? ? ?]. constructor; try assumption. eapply sender_later; eassumption. Qed.
  Lemma booted_later b b1 b2 i x v : b1 <= b2 -> booted_rel Q c b b1 i x v -> booted_rel Q c b b2 i x v.
  Proof. intros H [? ? H1 ? ? ?]. constructor; try assumption. eapply rt_later; eassumption. Qed.
  Lemma node_later b b1 b2 n N : b1 <= b2 -> node_rel Q c b b1 n N -> node_rel Q c b b2 n N.
  Proof.
    intros H [? ? ? ? ? ? H1]. constructor; try assumption. intros i x Hi. specialize (H1 i x Hi). unfold tile_rel in *.
    destruct (is_new x); [destruct H1; split; [assumption|]|]; eapply booted_later; eassumption.
  Qed.

  (** ** The start *)
  Hypothesis Hj : forall i, on_node c i -> Forall (fun kp => Forall Q (snd kp)) (j_cores j i).

  Lemma the_first i x : the_tile (w_node (des_first c t0 j)) i = Some x ->
    on_node c i /\ x = tile_new (cells_new c (j_activation j) i) (j_cores j i) (j_prog j i).
  Proof.
    unfold the_tile, des_first, des_begin. cbn. destruct (i <? 0) eqn:E; [discriminate|]. intro H.
    assert (L : (Z.to_nat i < length (zrange (w_tiles (y_net c))))%nat).
    { rewrite <- (map_length (fun i => tile_new (cells_new c (j_activation j) i) (j_cores j i) (j_prog j i))).
      apply nth_error_Some. congruence. }
    rewrite length_zrange in L. split; [unfold on_node; lia|].
    rewrite (nth_error_map) in H.
    rewrite (nth_error_nth' _ 0) in H by (rewrite length_zrange; lia). rewrite nth_zrange in H by lia. cbn in H.
    rewrite Z2Nat.id in H by lia. congruence.
  Qed.

  Lemma first_rel : node_rel Q c t0 t0 (w_node (des_first c t0 j)) (node_first c t0 j).
  Proof.
    constructor; try reflexivity.
    - split; reflexivity.
    - unfold des_first, des_begin. cbn. unfold zlen. rewrite map_length, length_zrange. lia.
    - intros i x Hx. apply the_first in Hx as [Hi ->]. unfold tile_rel. cbn.
      split; [repeat split|]. unfold boot. cbn. unfold next_instr. cbn.
      pose proof (Hj i Hi) as HQ.
      assert (HD : t_dram (s_tile (nd_sys (node_first c t0 j)) i) = start_dram c t0 (j_activation j) i) by reflexivity.
      assert (Sd : start_dram c t0 (j_activation j) i =
        MkDram (y_mem (cells_new c (j_activation j) i)) (y_valid (cells_new c (j_activation j) i)) true [] [] [] None dstats0 t0 None
          [] (d_history (start_dram c t0 (j_activation j) i)) [] [] /\
        forall id, result_of id (d_history (start_dram c t0 (j_activation j) i)) = None).
      { unfold start_dram, cells_new. destruct (i =? 0); [|split; reflexivity].
        unfold dc_preload. destruct (_ <? _); split; reflexivity. }
      destruct Sd as [Sd Sh].
      assert (B : forall x, x_ctl x = MkCtl (cells_new c (j_activation j) i) true [] HNew [] [] BFree [] dstats0 t0 0 [] ->
        x_rt x = MkRt true [] ZNew (map (fun _ => []) (zrange (w_nodes (y_net c) * w_tiles (y_net c)))) None rstats0 ->
        x_cores x = map core_new (j_cores j i) -> x_ended x = false -> ahead_of (x_phase x) = false ->
        phase_rel c t0 i x (v_tile (view_of (node_first c t0 j) i)) (v_rt (view_of (node_first c t0 j) i)) (v_tc (view_of (node_first c t0 j) i)) ->
        run_rel x -> booted_rel Q c t0 t0 i x (view_of (node_first c t0 j) i)).
      { intros x X1 X2 X3 X4 H1 H2 H3. constructor; try assumption; rewrite ?X1, ?X2, ?X3.
        - cbn. rewrite Sd. constructor; cbn; try reflexivity; try tauto; try exact Sh.
        - cbn. split; [now rewrite !map_length|]. intros k p y. rewrite !nth_error_map.
          destruct (nth_error (j_cores j i) k) as [[m l]|] eqn:E; cbn; [|discriminate]. intros [= <-] [= <-].
          rewrite Forall_forall in HQ. specialize (HQ (m, l) (nth_error_In _ _ E)). cbn in HQ.
          constructor; cbn; try reflexivity; try congruence. intros _. split; [reflexivity|]. split; [reflexivity|exact HQ].
        - rewrite H1. constructor; cbn; try reflexivity; try tauto; try congruence.
          + constructor.
          + unfold zlen. rewrite map_length, length_zrange.
            destruct (Z.le_gt_cases 0 (w_nodes (y_net c) * w_tiles (y_net c))) as [G|G]; [left; lia|].
            right. split; [assumption|]. unfold zrange. now replace (Z.to_nat (w_nodes (y_net c) * w_tiles (y_net c))) with 0%nat by lia.
          + intros src Hs. unfold buffer_of. cbn. rewrite nth_map_zrange by lia. reflexivity.
        - rewrite X4. discriminate. }
      destruct (j_prog j i) as [|o l] eqn:Ep.
      + apply B; cbn; rewrite ?Ep; try reflexivity. repeat split. cbn. lia.
      + apply B; cbn; rewrite ?Ep; try reflexivity. repeat split. discriminate.
  Qed.

  (** ** All states *)
  Lemma nsteps_reach now N N' : nsteps c now N N' -> forall t, nd_reach c j t N -> t <= now -> exists t', t' <= now /\ nd_reach c j t' N'.
  Proof.
    induction 1 as [N|a N N1 N2 H H1 IH]; intros t Hr Ht; [now exists t|].
    apply (IH now); [|lia]. eapply nd_step_; eassumption.
  Qed.
  Definition related (s : sim) : Prop :=
    exists t N, t <= w_now s /\ nd_reach c j t N /\ (node_rel Q c t0 (w_now s) (w_node s) N \/ crashed N).
  Definition crash_by (now : Z) : Prop := exists t N, t <= now /\ nd_reach c j t N /\ crashed N.

  Lemma step_related s x q : timely s -> related s -> w_queue s = x :: q -> z_fin (w_node s) <> FEnd ->
    crash_by (e_time x) \/
    exists t N, t <= e_time x /\ nd_reach c j t N /\ node_rel Q c t0 (e_time x) (w_node s) N /\
      node_sim Q c t0 (e_time x) N (fire P c (e_time x) (e_ev x) (w_node s)).
  Proof.
    intros Ht (t & N & Hn & Hr & H) Eq Hf.
    assert (Hx : w_now s <= e_time x) by (apply (ti_after _ Ht); rewrite Eq; now left).
    destruct H as [H|H]; [right|left; exists t, N; repeat split; [lia|assumption|assumption]].
    exists t, N. split; [lia|]. split; [assumption|]. apply (node_later _ _ (e_time x)) in H; [|assumption].
    split; [assumption|]. apply fire_sim; [assumption|]. eapply timely_next; eassumption.
  Qed.
  Theorem run_related s : sim_reach c j t0 s -> timely s /\ related s.
  Proof.
    induction 1 as [|s s' H [Ht Hr] E].
    - split; [apply begin_timely|]. exists t0, (node_first c t0 j). cbn [w_now des_first des_begin].
      split; [unfold des_first, des_begin; cbn; lia|]. split; [constructor|]. left. exact first_rel.
    - destruct (step_timely P c s s' Ht E) as [Ht' _]. split; [assumption|].
      unfold des_step in E. destruct (w_queue s) as [|x q] eqn:Eq; [destruct (z_fin (w_node s)); discriminate|].
      assert (Hf : z_fin (w_node s) <> FEnd) by (intro A; rewrite A in E; discriminate).
      assert (E' : match fire P c (e_time x) (e_ev x) (w_node s) with
                   | DGo n new => NStep (MkDes (e_time x) (schedule (e_time x) new q) n)
                   | DRaise e => NRaise e | DStuck => NStuck end = NStep s') by (destruct (z_fin (w_node s)); congruence).
      clear E. destruct (step_related s x q Ht Hr Eq Hf) as [(t & N & H1 & H2 & H3)|(t & N & H1 & H2 & H3 & H4)];
        destruct (fire P c (e_time x) (e_ev x) (w_node s)) as [n' new| |]; try discriminate; injection E' as <-; unfold related; cbn.
      + exists t, N. auto.
      + cbn in H4. destruct H4 as [(N' & S & R)|(N' & S & R)]; destruct (nsteps_reach _ _ _ S _ H2 H1) as (t' & L & R'); exists t', N'; auto.
  Qed.
  Theorem raise_related s e : sim_reach c j t0 s -> raised c s e -> usable Q c -> exists t N, nd_reach c j t N /\ crashed N.
  Proof.
    intros H E U. destruct (run_related s H) as [Ht Hr]. unfold raised, des_step in E.
    destruct (w_queue s) as [|x q] eqn:Eq; [destruct (z_fin (w_node s)); discriminate|].
    assert (Hf : z_fin (w_node s) <> FEnd) by (intro A; rewrite A in E; discriminate).
    destruct (step_related s x q Ht Hr Eq Hf) as [(t & N & H1 & H2 & H3)|(t & N & H1 & H2 & H3 & H4)]; [now exists t, N|].
    destruct (fire P c (e_time x) (e_ev x) (w_node s)) as [n' new| |]; try (destruct (z_fin (w_node s)); discriminate).
    cbn in H4. destruct (H4 U) as (N' & S & R). destruct (nsteps_reach _ _ _ S _ H2 H1) as (t' & L & R'). now exists t', N'.
  Qed.

  (** ** What the relation says *)
  Lemma cores_alike values cc ps xs : cores_rel Q values cc ps xs -> map cp_core ps = map k_core xs.
  Proof.
    intros [H1 H2]. assert (G : forall k p x, nth_error ps k = Some p -> nth_error xs k = Some x -> cp_core p = k_core x).
    { intros k p x E1 E2. exact (kr_core _ _ _ _ _ (H2 k p x E1 E2)). }
    clear H2. revert xs H1 G. induction ps as [|p ps IH]; intros [|x xs] L G; try discriminate; [reflexivity|]. cbn. f_equal.
    - exact (G 0%nat p x eq_refl eq_refl).
    - apply IH; [cbn in L; lia|]. intros k. exact (G (S k)).
  Qed.
  Lemma booted_view now i x N : booted_rel Q c t0 now i x (view_of N i) -> same_view i x N.
  Proof.
    intros [[? ? ? ? ? ? ? ? ? ? ? ? ?] H2 [? ? ? ? ? ? ? ? ?] ? ? ?]. constructor; cbn in *; try assumption. eapply cores_alike; eassumption.
  Qed.
  Lemma tile_view now i x N : tile_rel Q c t0 now i x (view_of N i) -> same_view i x N.
  Proof.
    unfold tile_rel. destruct (is_new x); [|apply booted_view]. intros [(U1 & U2 & U3 & U4 & U5) H]. apply booted_view in H as [? ? ? ? ? ?].
    unfold boot, ctl_run, rt_run in *. rewrite U1, U2 in *.
    unfold next_instr in *. destruct x as [d u xs l ph cy en]. cbn in *. destruct l; cbn in *; constructor; cbn in *; congruence.
  Qed.
  Lemma rel_agrees now s N : node_rel Q c t0 now (w_node s) N -> agrees c t0 s N.
  Proof.
    intros [[G1 G2] ? ? ? ? HL HT]. constructor; try assumption.
    - intro i. unfold on_node, the_tile. split.
      + intro Hi. destruct (i <? 0) eqn:E; [lia|]. destruct (nth_error (z_tiles (w_node s)) (Z.to_nat i)) as [x|] eqn:E1; [now exists x|].
        apply nth_error_None in E1. unfold zlen in HL. lia.
      + intros [x Hx]. destruct (i <? 0) eqn:E; [discriminate|]. assert (L : (Z.to_nat i < length (z_tiles (w_node s)))%nat) by (apply nth_error_Some; congruence).
        unfold zlen in HL. lia.
    - intros i x Hx. eapply tile_view. exact (HT i x Hx).
  Qed.
  Lemma the_tile_in i x (n : dnode core cells_valid) : the_tile n i = Some x -> In x (z_tiles n).
  Proof. unfold the_tile. destruct (i <? 0); [discriminate|]. apply nth_error_In. Qed.
  Lemma rel_ends now s N : node_rel Q c t0 now (w_node s) N -> forallb x_ended (z_tiles (w_node s)) = true -> ends_alike c t0 s N.
  Proof.
    intros R F. pose proof (rel_agrees _ _ _ R) as A. rewrite forallb_forall in F.
    assert (B : forall i x, the_tile (w_node s) i = Some x -> booted_rel Q c t0 now i x (view_of N i) /\ x_phase x = TDone).
    { intros i x Hx. pose proof (nr_tiles _ _ _ _ _ _ R i x Hx) as T. pose proof (F x (the_tile_in _ _ _ Hx)) as En.
      unfold tile_rel in T. destruct (is_new x) eqn:E; [destruct T as [(_ & _ & _ & U & _) _]; congruence|].
      split; [assumption|]. exact (br_ended _ _ _ _ _ _ _ T En). }
    constructor; try assumption.
    - split; [apply R|]. intros i Hi. apply (ag_tiles _ _ _ _ A) in Hi as [x Hx]. destruct (B i x Hx) as [T D].
      pose proof (br_phase _ _ _ _ _ _ _ T) as Ph. unfold phase_rel in Ph. rewrite D in Ph. apply Ph.
    - intros i x Hx. destruct (B i x Hx) as [T D].
      pose proof (br_phase _ _ _ _ _ _ _ T) as Ph. unfold phase_rel in Ph. rewrite D in Ph.
      pose proof (br_rt _ _ _ _ _ _ _ T) as Rt. rewrite D in Rt. destruct Rt as [? ? ? ? ? ? Hb ? Hs]. cbn in Hs, Hb |- *. repeat split; [congruence|apply Ph|assumption].
    - intros i x k y Hx Hy Ho. destruct (B i x Hx) as [T _]. destruct (br_cores _ _ _ _ _ _ _ T) as [L C].
      destruct (nth_error (t_cores (v_tile (view_of N i))) k) as [p|] eqn:E; [|apply nth_error_None in E; assert (k < length (x_cores x))%nat by (apply nth_error_Some; congruence); lia].
      specialize (C k p y E Hy). destruct (kr_over _ _ _ _ _ C) as (_ & _ & H); [|exact H].
      unfold core_over in Ho. unfold over. destruct (k_proc y); congruence.
  Qed.
End Run.
