(** When only the monitor and polls are left in the queue of a simulation, the transition system of the node can do nothing either. *)
From Verif Require Import PyBase PyLemmas CoreModel DramModel DramProofs RouterModel SystemModel SystemSpec SystemInv NodeModel NodeSpec NodeClaims LiveSpec DesModel DesSpec DesQueue DesRel DesRun DesWait DesWaitCtl DesWaitTile
  DesWaitNode DesWaitQueue DesIdleSpec DesIdle DesEnd DesNeed DesNeedCtl DesNeedTile DesNeedOwn DesNeedNode DesNeedQueue.

(** ** Parts of a tile that need no event *)
Section Parts.
  Variable Q : cop -> Prop.
  Variable c : sys_cfg.
  Ltac no H := exfalso; eapply H; first [reflexivity | eassumption].
  (** A core. *)
  Lemma core_idle now i k d values cycles p (x : dcore core) : core_inv x -> core_fit x -> core_rel Q values cycles p x -> core_shape p ->
    (forall e, ev_tile e = Some i -> part_of e = PCore k -> ~ core_needs e x) -> (forall id, core_asked id x -> value_of id values = None) ->
    (forall id, result_of id (d_history d) = value_of id values) -> (core_step_sys c now k d p = Blocked) /\ (halted p = true -> core_over x = true).
  Proof.
    intros KI KF KR KS HN HA HV. destruct (DesRel.over x) eqn:EO.
    { destruct (kr_over _ _ _ _ _ KR EO) as (E1 & _). unfold core_step_sys. rewrite E1. split; [reflexivity|]. intros _. pose proof (HN (VCoreEnd i k) eq_refl eq_refl) as H. cbn in H. unfold DesRel.over, core_over in *. destruct (k_proc x); try discriminate; [|reflexivity]. now contradiction H. }
    destruct (kr_run _ _ _ _ _ KR EO) as (E1 & E2 & _). assert (NH : halted p = false).
    { unfold xphase_rel, halted in *. destruct (t_x (k_stage x)); try (now rewrite E2). destruct E2 as [_ E2]. destruct (k_xp x); try (now rewrite E2); try contradiction; [destruct E2 as (? & ->)|destruct E2 as (? & ? & -> & _)|destruct E2 as (? & ? & -> & _)]; reflexivity. }
    split; [|congruence]. clear NH.
    assert (NC : k_proc x <> CNew) by (intros E; exact (HN (VCore i k) eq_refl eq_refl (conj E eq_refl))).
    assert (ST : forall s, tget (k_stage x) s <> GNew) by (intros s E; apply (HN (VStage i k s) eq_refl eq_refl); cbn; auto).
    assert (GO : forall s o, tget (k_stage x) s <> GGot o) by (intros s o E; apply (HN (VGot i k s) eq_refl eq_refl); cbn; now rewrite E).
    assert (NF : forall o, t_f (k_stage x) <> GPut o) by (intros o E; apply (HN (VPut i k SD) eq_refl eq_refl); cbn; now rewrite E).
    assert (ND : forall o, t_d (k_stage x) <> GPut o) by (intros o E; apply (HN (VPut i k SX) eq_refl eq_refl); cbn; now rewrite E).
    assert (WF : forall o, t_f (k_stage x) <> GWork o) by (intros o E; apply (HN (VTime i k SF) eq_refl eq_refl); cbn; now rewrite E).
    assert (WD : forall o, t_d (k_stage x) <> GWork o) by (intros o E; apply (HN (VTime i k SD) eq_refl eq_refl); cbn; now rewrite E).
    pose proof (ST SF) as SF'. pose proof (ST SD) as SD'. pose proof (ST SX) as SX'. pose proof (GO SF) as GF. pose proof (GO SD) as GD. pose proof (GO SX) as GX. cbn in SF', SD', SX', GF, GD, GX.
    unfold core_step_sys. destruct (t_x (k_stage x)) as [| |o|o|o|o|] eqn:EX; try congruence.
    - (* waiting *) unfold xphase_rel in E2. rewrite EX in E2. rewrite E2, E1.
      assert (BX : t_x (k_buf x) = []). { destruct (t_x (k_buf x)) eqn:E; [reflexivity|]. pose proof (kf_get_x _ KF EX) as H. rewrite E in H. specialize (H ltac:(discriminate)). destruct (t_d (k_stage x)) eqn:E'; try contradiction. no ND. }
      assert (ED : t_d (k_stage x) = GWaiting).
      { pose proof (kf_put_x _ KF) as PX. pose proof (kf_hlt_x _ KF) as HX. rewrite EX, BX in *. destruct (t_d (k_stage x)) as [| |o|o|o|o|] eqn:E; try reflexivity; exfalso; first [congruence|discriminate HX|exact (PX o eq_refl eq_refl)|no GD|no WD|no ND]. }
      assert (BD : t_d (k_buf x) = []). { destruct (t_d (k_buf x)) eqn:E; [reflexivity|]. pose proof (kf_get_d _ KF ED) as H. rewrite E in H. specialize (H ltac:(discriminate)). destruct (t_f (k_stage x)) eqn:E'; try contradiction. no NF. }
      assert (EF : t_f (k_stage x) = GWaiting).
      { pose proof (kf_put_d _ KF) as PX. pose proof (kf_hlt_d _ KF) as HX. rewrite ED, BD in *. destruct (t_f (k_stage x)) as [| |o|o|o|o|] eqn:E; try reflexivity; exfalso; first [congruence|discriminate HX|exact (PX o eq_refl eq_refl)|no GF|no WF|no NF]. }
      assert (BF : t_f (k_buf x) = []). { destruct (t_f (k_buf x)) eqn:E; [reflexivity|]. exfalso. apply (HN (VPut i k SF) eq_refl eq_refl). cbn. rewrite E. split; [exact EF|discriminate]. }
      assert (WA : k_wait x = []). { destruct (k_wait x) eqn:E; [reflexivity|]. pose proof (kf_put_f _ KF NC) as H. rewrite E, EF in H. contradiction (H ltac:(discriminate) BF). }
      unfold rest_of. rewrite EX, BX, ED, BD, EF, BF, WA. reflexivity.
    - (* work *) unfold xphase_rel in E2. rewrite EX in E2. destruct E2 as [E3 E2]. destruct (k_xp x) eqn:EP; try contradiction.
      + exfalso. apply (HN (VTime i k SX) eq_refl eq_refl). cbn. now rewrite EX, EP.
      + destruct E2 as (a & E2). rewrite E2, HV. pose proof (HA id) as HA'. unfold core_asked in HA'. rewrite EX, EP in HA'.
        unfold core_shape in KS. rewrite E2 in KS. destruct KS as (de & rd & w & v & rest & KS). rewrite E1 in KS. unfold rest_of in KS. rewrite EX, EP in KS. cbn in KS. injection KS as -> _. now rewrite (HA' eq_refl).
      + exfalso. destruct E2 as (id & a & E2 & _). unfold core_shape in KS. rewrite E2 in KS. destruct KS as (de & rd & w & v & rest & KS). rewrite E1 in KS. unfold rest_of in KS. rewrite EX, EP in KS. cbn in KS. injection KS as -> _.
        apply (HN (VLoadNew i k) eq_refl eq_refl). cbn. now rewrite EX, EP.
      + exfalso. destruct E2 as (id & a & E2 & _). unfold core_shape in KS. rewrite E2 in KS. destruct KS as (de & rd & w & v & rest & KS). rewrite E1 in KS. unfold rest_of in KS. rewrite EX, EP in KS. cbn in KS. injection KS as -> _.
        apply (HN (VLoadTime i k) eq_refl eq_refl). cbn. now rewrite EX, EP.
      + exfalso. apply (HN (VLoaded i k) eq_refl eq_refl). cbn. now rewrite EX, EP.
      + exfalso. unfold core_shape in KS. rewrite E2 in KS. destruct KS as (de & rd & w & v & rest & KS). rewrite E1 in KS. unfold rest_of in KS. rewrite EX, EP in KS. cbn in KS. injection KS as -> _.
        apply (HN (VStoreNew i k) eq_refl eq_refl). cbn. now rewrite EX, EP.
      + exfalso. apply (HN (VStoreTime i k) eq_refl eq_refl). cbn. now rewrite EX, EP.
      + rewrite E2, HV. pose proof (HA id) as HA'. unfold core_asked in HA'. rewrite EX, EP in HA'. now rewrite (HA' eq_refl).
      + exfalso. apply (HN (VStored i k) eq_refl eq_refl). cbn. now rewrite EX, EP.
    - pose proof (kf_last _ KF) as H. rewrite EX in H. contradiction H.
    - pose proof (kf_last _ KF) as H. rewrite EX in H. contradiction H.
    - (* dead: then the core is over *) exfalso.
      assert (ED : t_d (k_stage x) = GDead). { pose proof (kf_hlt_x _ KF) as H. rewrite EX in H. cbn in H. rewrite orb_true_r in H. destruct (t_d (k_stage x)) as [| |o|o|o|o|] eqn:E; try discriminate H; [no ND|reflexivity]. }
      assert (EF : t_f (k_stage x) = GDead). { pose proof (kf_hlt_d _ KF) as H. rewrite ED in H. cbn in H. rewrite orb_true_r in H. destruct (t_f (k_stage x)) as [| |o|o|o|o|] eqn:E; try discriminate H; [no NF|reflexivity]. }
      assert (CO : forall s, tget (k_comp x) s = Processed). { intros s. pose proof (kf_dead _ KF s) as H. assert (H1 : tget (k_stage x) s = GDead) by (destruct s; assumption). specialize (H H1). destruct (tget (k_comp x) s) eqn:E; [congruence| |reflexivity]. exfalso. now apply (HN (VStageDone i k s) eq_refl eq_refl). }
      destruct (k_mon x) eqn:EM.
      + apply (HN (VPipe i k) eq_refl eq_refl). cbn. auto.
      + exact (kf_mon _ KF _ EM (CO _)).
      + unfold DesRel.over in EO. destruct (k_proc x) eqn:EK; try discriminate; [congruence|]. apply (HN (VPipeDone i k) eq_refl eq_refl). cbn. auto.
  Qed.
  (** A memory controller. *)
  Lemma ctl_idle now i a d (x : dctl cells_valid) : ctl_rel d x -> dram_own a = true -> (forall e, ev_tile e = Some i -> part_of e = PCtl -> ~ ctl_needs e x) -> dstep (y_lat c) now a d = None.
  Proof.
    intros CR HO HN. unfold dstep. rewrite (cr_crash _ _ CR). destruct a; try discriminate HO.
    - unfold dc_handle. rewrite (cr_running _ _ CR). destruct (c_running x) eqn:ER; [|reflexivity]. cbn. rewrite (cr_queue _ _ CR ER). pose proof (cr_alive _ _ CR ER) as AL.
      destruct (c_handler x) eqn:EH; try contradiction.
      + exfalso. apply (HN (VHandler i) eq_refl eq_refl). cbn. auto.
      + cbn. destruct (c_items x) eqn:EI; [reflexivity|]. exfalso. apply (HN (VReqPut i) eq_refl eq_refl). cbn. rewrite EI. split; [exact EH|discriminate].
      + exfalso. apply (HN (VReqGot i) eq_refl eq_refl). cbn. now rewrite EH.
    - unfold dc_grant. rewrite (cr_bus _ _ CR), (cr_granted _ _ CR). destruct (c_bus x) eqn:EB.
      + cbn. destruct (c_waiting x) eqn:EW; [|exfalso; apply (HN (VRelease i) eq_refl eq_refl); cbn; rewrite EW; split; [exact EB|discriminate]]. cbn. destruct (c_starting x) as [|r l] eqn:ES; [reflexivity|].
        exfalso. apply (HN (VThread i (q_id r)) eq_refl eq_refl). cbn. rewrite ES. now left.
      + exfalso. apply (HN (VGrant i) eq_refl eq_refl). cbn. now rewrite EB.
      + cbn. reflexivity.
    - unfold dc_finish. rewrite (cr_granted _ _ CR). destruct (c_bus x) eqn:EB; try (destruct (d_bus d); reflexivity).
      exfalso. apply (HN (VThreadTime i) eq_refl eq_refl). cbn. now rewrite EB.
  Qed.
End Parts.

(** ** The node *)
Section Node.
  Variable Q : cop -> Prop.
  Variables (c : sys_cfg) (b now : Z) (n : dnode core cells_valid) (N : node).
  Hypothesis HR : node_rel Q c b now n N.
  Hypothesis NI : node_inv c n.
  Hypothesis NF : node_fit n.
  Hypothesis HI : forall e, node_needs e n -> exists i T, key e = VPoll i /\ the_tile n i = Some T /\ u_queue (x_rt T) <> [].
  Hypothesis HS : forall i, Forall core_shape (t_cores (s_tile (nd_sys N) i)).

  Lemma tile_there i : known_router (y_net c) i = true -> exists T, the_tile n i = Some T /\ is_new T = false /\ booted_rel Q c b now i T (view_of N i).
  Proof.
    intros H. unfold known_router in H. pose proof (nr_length _ _ _ _ _ _ HR) as L. destruct (the_tile n i) as [T|] eqn:E.
    - exists T. split; [reflexivity|]. pose proof (nr_tiles _ _ _ _ _ _ HR i T E) as TR. unfold tile_rel in TR. destruct (is_new T) eqn:EN; [|auto].
      exfalso. destruct (HI (VTile i)) as (k & U & H1 & _); [|discriminate]. exists T. split; [exact E|]. exact EN.
    - exfalso. unfold the_tile in E. destruct (Z.ltb_spec i 0); [lia|]. apply nth_error_None in E. unfold zlen in L. lia.
  Qed.
  Section AtTile.
    Variables (i : Z) (T : dtile core cells_valid).
    Hypothesis HT : the_tile n i = Some T.
    Hypothesis HN : is_new T = false.
    Hypothesis HB : booted_rel Q c b now i T (view_of N i).
    Lemma no_need e : ev_tile e = Some i -> (forall k, key e <> VPoll k) -> ~ tile_needs e T.
    Proof. intros E1 E2 H. destruct (HI e) as (k & U & H1 & _); [|exact (E2 k H1)]. unfold node_needs. rewrite E1. eauto. Qed.
    Lemma no_own e : ev_tile e = Some i -> part_of e = POwn -> (forall k, key e <> VPoll k) -> ~ own_needs e T.
    Proof. intros E1 E2 E3 H. apply (no_need e E1 E3). unfold tile_needs. rewrite E2. auto. Qed.
    Lemma no_value k id : asked T k id -> value_of id (c_values (x_ctl T)) = None.
    Proof.
      intros HA. destruct (value_of id (c_values (x_ctl T))) as [v|] eqn:E; [|reflexivity]. exfalso. apply (no_own (VDone i k id)); try reflexivity; [discriminate|]. split; [|exact HA].
      unfold value_of in E. destruct (find _ _) as [y|] eqn:F; [|discriminate]. apply find_some in F as [F1 F2]. apply Z.eqb_eq in F2. subst id. now apply in_map.
    Qed.
    Lemma result_none k id : asked T k id -> result_of id (d_history (t_dram (s_tile (nd_sys N) i))) = None.
    Proof. intros HA. pose proof (cr_values _ _ (br_ctl _ _ _ _ _ _ _ HB) id) as E. cbn [view_of v_tile] in E. rewrite E. now apply no_value with k. Qed.
    Lemma IT : tile_inv c T.
    Proof. exact (tile_is c n i T NI HT). Qed.
    Lemma TF : tile_fit T.
    Proof. exact (fit_at n i T NF HT). Qed.
    Lemma core_blocked t k p x : nth_error (t_cores (s_tile (nd_sys N) i)) k = Some p -> nth_error (x_cores T) k = Some x ->
      core_step_sys c t (Z.of_nat k) (t_dram (s_tile (nd_sys N) i)) p = Blocked /\ (halted p = true -> core_over x = true).
    Proof.
      intros E1 E2. destruct (br_cores _ _ _ _ _ _ _ HB) as [_ CR]. pose proof (CR k p x E1 E2) as KR. clear CR. cbn [view_of v_cc] in KR.
      pose proof (ti_cores _ _ IT) as CI. rewrite Forall_forall in CI. pose proof (tf_cores _ TF) as CF. rewrite Forall_forall in CF. pose proof (HS i) as SH. rewrite Forall_forall in SH.
      apply (core_idle Q c t i (Z.of_nat k) _ (c_values (x_ctl T)) (nd_core_cycles N i (Z.of_nat k)) p x); auto; try (eapply CI, nth_error_In; eassumption); try (eapply CF, nth_error_In; eassumption); try (eapply SH, nth_error_In; eassumption).
      - intros e H1 H2 H3. apply (no_need e H1); [intros k' E; destruct e; discriminate|]. unfold tile_needs. rewrite H2. split; [exact HN|]. split; [lia|]. rewrite Nat2Z.id. eauto.
      - intros id H. apply no_value with (Z.of_nat k). unfold asked. destruct (Z.eqb_spec (Z.of_nat k) (-1)); [lia|]. split; [lia|]. rewrite Nat2Z.id. eauto.
      - exact (cr_values _ _ (br_ctl _ _ _ _ _ _ _ HB)).
    Qed.
    Lemma halted_over : forallb halted (t_cores (s_tile (nd_sys N) i)) = true -> forallb core_over (x_cores T) = true.
    Proof.
      intros H. rewrite forallb_forall in *. intros x HX. destruct (In_nth_error _ _ HX) as [k E]. destruct (br_cores _ _ _ _ _ _ _ HB) as [L _]. cbn [view_of v_tile] in L.
      destruct (nth_error (t_cores (s_tile (nd_sys N) i)) k) as [p|] eqn:EP.
      - apply (core_blocked 0 k p x EP E). eapply H, nth_error_In; eauto.
      - apply nth_error_None in EP. assert (nth_error (x_cores T) k <> None) as H' by congruence. apply nth_error_Some in H'. lia.
    Qed.
    Lemma dram_blocked t a : dram_own a = true -> dstep (y_lat c) t a (t_dram (s_tile (nd_sys N) i)) = None.
    Proof.
      intros HO. apply (ctl_idle c t i a _ (x_ctl T)); auto; [apply (br_ctl _ _ _ _ _ _ _ HB)|]. intros e H1 H2 H3. apply (no_need e H1); [intros k E; destruct e; discriminate|]. unfold tile_needs. rewrite H2. auto.
    Qed.
    Lemma tile_blocked t : SystemModel.tile_step buffer_capacity c t i (s_net (nd_sys N)) (s_tile (nd_sys N) i) = Blocked.
    Proof.
      pose proof (br_phase _ _ _ _ _ _ _ HB) as PR. cbn [view_of v_tile v_rt v_tc] in PR. unfold phase_rel in PR. unfold SystemModel.tile_step.
      assert (OWN : forall e, ev_tile e = Some i -> part_of e = POwn -> (forall k, key e <> VPoll k) -> ~ own_needs e T) by exact no_own.
      assert (NV : forall id, match x_phase T with TSendRead id' | TRecvWrite id' => id' = id | _ => False end -> result_of id (d_history (t_dram (s_tile (nd_sys N) i))) = None) by (intros id H; apply result_none with (-1); exact H).
      destruct (x_phase T) eqn:EP; try contradiction PR.
      all: try (let own e := (exfalso; apply (OWN e); [reflexivity|reflexivity|intros; discriminate|cbn; now rewrite EP]) in
        first [own (VOp i)|own (VOpEnd i)|own (VAdd i)|own (VAddTime i)|own (VAdded i)|own (VRead i)|own (VPopped i)|own (VReadEnd i)|own (VAllCores i)|own (VStop i)|own (VEmpty i)|own (VStopped i)]).
      - destruct PR as (E1 & E2 & E3 & E4). rewrite E1, E3. destruct (x_prog T) as [|[] l]; try reflexivity. now rewrite (NV id eq_refl).
      - destruct PR as (E1 & E2 & E3 & E4 & E5 & E6). rewrite E1, E3, E4. destruct (x_prog T) as [|[] l]; reflexivity.
      - destruct PR as (E1 & E2 & E3 & E4). rewrite E1, E3. destruct (x_prog T) as [|[] l]; try reflexivity. now rewrite (NV id eq_refl).
      - destruct PR as (E1 & E2 & E3 & E4 & E5). rewrite E1, E3. destruct (x_prog T) as [|[] l]; try contradiction E5. destruct (forallb halted (t_cores (s_tile (nd_sys N) i))) eqn:EH; [|reflexivity].
        apply halted_over in EH. rewrite (tf_wait _ TF EP) in EH. discriminate EH.
      - destruct PR as (E1 & E2 & E3 & E4 & E5). rewrite E1, E3, E4. destruct (x_prog T) as [|[] l]; reflexivity.
      - destruct PR as (E1 & E2 & E3 & E4 & E5 & _). rewrite E1, E3, E4. destruct (x_prog T) as [|[] l]; reflexivity.
      - destruct PR as (E1 & _). now rewrite E1.
    Qed.
    Lemma no_rt e : ev_tile e = Some i -> part_of e = PRt -> ~ rt_needs e (x_rt T).
    Proof. intros E1 E2 H. apply (no_need e E1); [intros k E; destruct e; discriminate|]. unfold tile_needs. rewrite E2. auto. Qed.
    (** The sender is idle or offers a packet. *)
    Lemma sender_idle : let r := n_router (s_net (nd_sys N)) i in
      (r_sender r = SIdle /\ (r_running r = true -> r_queue r = []) /\ forall p f, u_sender (x_rt T) <> ZPutting p f) \/
      (exists p f, r_sender r = SOffer p f /\ u_sender (x_rt T) = ZPutting p f /\ pk_src p = i /\ known_router (y_net c) (pk_dst p) = true /\ buffer_key (y_net c) (pk_dst p) i = true).
    Proof.
      pose proof (br_rt _ _ _ _ _ _ _ HB) as RR. cbn [view_of v_rt] in RR. cbv zeta. pose proof (rr_sender _ _ _ _ _ _ RR) as SR. unfold sender_rel in SR.
      pose proof (rr_running _ _ _ _ _ _ RR) as ER. pose proof (rr_queue _ _ _ _ _ _ RR) as EQ. pose proof (rr_alive _ _ _ _ _ _ RR) as AL. pose proof no_rt as RT.
      destruct (u_sender (x_rt T)) eqn:EZ.
      all: try (let rt e := (exfalso; apply (RT e); [reflexivity|reflexivity|cbn; now rewrite EZ]) in first [rt (VSendGot i)|rt (VTravel i)|rt (VOffer i)|rt (VTaken i)|rt (VArrived i)]).
      - left. split; [exact SR|]. split; [|discriminate]. intros H. exfalso. apply (RT (VSender i)); try reflexivity. cbn. split; congruence.
      - left. split; [exact SR|]. split; [|discriminate]. intros H. rewrite EQ. destruct (u_queue (x_rt T)) eqn:EU; [reflexivity|]. exfalso. apply (RT (VSendPut i)); try reflexivity. cbn. rewrite EU. split; [exact EZ|discriminate].
      - right. exists p, inter. destruct SR as (S1 & S2 & S3 & S4). auto 6.
      - left. split; [exact SR|]. split; [|discriminate]. intros H. exfalso. apply AL. congruence.
    Qed.
    Lemma client_idle : match r_client (n_router (s_net (nd_sys N)) i) with
      | KAdding _ => False
      | KReading src => 0 <= src < w_nodes (y_net c) * w_tiles (y_net c) /\ (buffer_of (x_rt T) src = [])
      | KPolling _ => u_queue (x_rt T) <> []
      | KDraining => r_sender (n_router (s_net (nd_sys N)) i) <> SIdle
      | _ => True
      end.
    Proof.
      pose proof (br_phase _ _ _ _ _ _ _ HB) as PR. cbn [view_of v_tile v_rt v_tc] in PR. unfold phase_rel in PR.
      destruct (x_phase T) eqn:EP; try contradiction PR.
      all: try (destruct PR as (_ & _ & _ & E4 & _); rewrite E4; exact I).
      all: try (destruct PR as (_ & _ & _ & E4); rewrite E4; exact I).
      all: try (destruct PR as (_ & _ & E4 & _); rewrite E4; exact I).
      - exfalso. apply (no_own (VAddTime i)); [reflexivity|reflexivity|intros; discriminate|cbn; now rewrite EP].
      - destruct PR as (_ & _ & _ & E4 & E5 & _). rewrite E4. assert (0 <= src < w_nodes (y_net c) * w_tiles (y_net c)) as ES by (unfold buffer_key in E5; lia). split; [exact ES|].
        destruct (buffer_of (x_rt T) src) eqn:EB; [reflexivity|]. exfalso. destruct (nf_get _ NF i T src got HT EP) as (S & p & f & H1 & H2 & H3); [congruence|].
        destruct (HI (VTaken src)) as (k & U & HK & _); [|discriminate HK]. exists S. split; [exact H1|]. unfold tile_needs. cbn. rewrite H2. split; [|exact I].
        pose proof (tile_is c n src S NI H1) as IS. pose proof (ti_phase _ _ IS) as PI. unfold phase_inv, is_new in *. destruct (x_phase S); try reflexivity. destruct PI as (m & cs & pp & ->). discriminate H2.
      - destruct PR as (_ & _ & _ & E4 & _). rewrite E4. destruct (HI (VPoll i)) as (k & U & HK & HU & HQ).
        + exists T. split; [exact HT|]. unfold tile_needs. cbn. rewrite EP. auto.
        + injection HK as <-. congruence.
      - exfalso. apply (no_own (VEmpty i)); [reflexivity|reflexivity|intros; discriminate|cbn; now rewrite EP].
      - destruct PR as (_ & _ & _ & E4 & _). rewrite E4. intros ES. pose proof (ti_phase _ _ IT) as PI. unfold phase_inv in PI. rewrite EP in PI. destruct PI as (_ & _ & [E|[E _]]).
        + pose proof (ri_event _ _ (ti_rt _ _ IT)) as RE. destruct sender_idle as [(_ & _ & S3)|(p & f & S1 & _)]; [|congruence]. pose proof (rr_sender _ _ _ _ _ _ (br_rt _ _ _ _ _ _ _ HB)) as SR. cbn [view_of v_rt] in SR.
          unfold sender_rel in SR. unfold under_way in RE. destruct (u_sender (x_rt T)) as [| |p s|p s f|p f|p f|p f|p f|dang]; try (now apply RE in E); try (destruct SR as [SR _]; congruence). destruct SR as [(s & SR & _) _]. congruence.
        + apply (no_own (VSent i number)); [reflexivity|reflexivity|intros; discriminate|exact E].
    Qed.
  End AtTile.
  Theorem node_wedged t : wedged c t (nd_sys N).
  Proof.
    intros t' a s' _ ES. unfold sstep, sstep_cap in ES. destruct (nr_good _ _ _ _ _ _ HR) as [G1 G2]. rewrite G1 in ES. destruct a as [i a|a|i k|i].
    - destruct (dram_own a) eqn:EO; [|discriminate]. destruct (known_router (y_net c) i) eqn:EK; [|discriminate]. cbn in ES. destruct (tile_there i EK) as (T & HT & HN & HB). now rewrite (dram_blocked i T HT HN HB t' a EO) in ES.
    - destruct (net_own a) eqn:EO; [|discriminate]. cbn [negb] in ES. unfold nstep_cap in ES. rewrite G2 in ES. destruct (known_router (y_net c) (tile_of a)) eqn:EK; [|discriminate]. cbn [negb] in ES.
      destruct (tile_there _ EK) as (T & HT & HN & HB). pose proof (sender_idle _ T HT HN HB) as SI. cbv zeta in SI. pose proof (client_idle _ T HT HN HB) as CI. pose proof (br_rt _ _ _ _ _ _ _ HB) as RR. cbn [view_of v_rt] in RR.
      destruct a as [| i| i| i| i| i| i| | i| | | i| i]; try discriminate EO; cbn [tile_of] in *.
      + unfold n_added in ES. destruct (r_client _); try discriminate ES. contradiction.
      + unfold n_take in ES. destruct (r_running _); [|discriminate ES]. destruct SI as [(S1 & S2 & _)|(p & f & S1 & _)]; rewrite S1 in ES; [|discriminate ES]. rewrite (S2 eq_refl) in ES. discriminate ES.
      + unfold n_travel in ES. destruct SI as [(S1 & _)|(p & f & S1 & _)]; rewrite S1 in ES; discriminate ES.
      + unfold n_store in ES. destruct SI as [(S1 & _)|(p & f & S1 & S2 & S3 & S4 & S5)]; rewrite S1 in ES; [discriminate ES|].
        destruct (tile_there _ S4) as (D & HD & ND & BD). pose proof (br_rt _ _ _ _ _ _ _ BD) as RD. cbn [view_of v_rt] in RD.
        assert (EB : r_buffers (n_router (set_router (s_net (nd_sys N)) i (RouterModel.set_sender (n_router (s_net (nd_sys N)) i) (SStored p f))) (pk_dst p)) (pk_src p) = buffer_of (x_rt D) i).
        { rewrite S3. rewrite <- (rr_buffers _ _ _ _ _ _ RD i) by (unfold buffer_key in S5; lia). cbn. unfold set_fun. destruct (Z.eqb_spec (pk_dst p) i) as [E|E]; [rewrite E|]; reflexivity. }
        cbv zeta in ES. rewrite EB in ES. destruct (buffer_of (x_rt D) i) as [|y l] eqn:EL.
        * exfalso. destruct (nf_put _ NF i T p f D HT S2 HD EL) as (got & d & EP). apply (no_own _ D HD ND (VPopped (pk_dst p))); [reflexivity|reflexivity|intros; discriminate|cbn; now rewrite EP].
        * unfold buffer_capacity in ES. destruct (Z.ltb_spec (zlen (y :: l)) 1) as [H|H]; [|discriminate ES]. unfold zlen in H. cbn [length] in H. lia.
      + unfold n_count in ES. destruct SI as [(S1 & _)|(p & f & S1 & _)]; rewrite S1 in ES; discriminate ES.
      + unfold n_done in ES. destruct SI as [(S1 & _)|(p & f & S1 & _)]; rewrite S1 in ES; discriminate ES.
      + unfold n_pop in ES. destruct (r_client _); try discriminate ES. destruct CI as [C1 C2]. rewrite (rr_buffers _ _ _ _ _ _ RR _ C1), C2 in ES. discriminate ES.
      + unfold idle_poll. exists i. split; [reflexivity|]. unfold n_poll in ES. destruct (r_client _); try discriminate ES. rewrite (rr_queue _ _ _ _ _ _ RR). exact CI.
      + unfold n_stopped in ES. destruct (r_client _); try discriminate ES. destruct (r_sender _); try discriminate ES. now contradiction CI.
    - destruct (known_router (y_net c) i) eqn:EK; [|discriminate]. cbn in ES. destruct (Z.ltb_spec k 0); [discriminate|]. destruct (tile_there i EK) as (T & HT & HN & HB). destruct (nth_error _ (Z.to_nat k)) as [p|] eqn:EP; [|discriminate].
      destruct (nth_error (x_cores T) (Z.to_nat k)) as [x|] eqn:EX.
      + destruct (core_blocked i T HT HN HB t' _ p x EP EX) as [E _]. rewrite Z2Nat.id in E by assumption. now rewrite E in ES.
      + exfalso. destruct (br_cores _ _ _ _ _ _ _ HB) as [L _]. cbn [view_of v_tile] in L. apply nth_error_None in EX. assert (nth_error (t_cores (s_tile (nd_sys N) i)) (Z.to_nat k) <> None) as H' by congruence. apply nth_error_Some in H'. lia.
    - destruct (known_router (y_net c) i) eqn:EK; [|discriminate]. cbn in ES. destruct (tile_there i EK) as (T & HT & HN & HB). now rewrite (tile_blocked i T HT HN HB t') in ES.
  Qed.
End Node.
