(** Refinement: the events of a memory controller. *)
From Verif Require Import PyBase PyLemmas MemoryModel CoreModel DramModel RouterModel SystemModel NodeModel NodeSpec DesModel DesRel.

Section Ctl.
  Variable Q : cop -> Prop.
  Variables (c : sys_cfg) (b now i : Z).
  Notation ctl := (dctl cells_valid).
  Notation P := (real c).
  Notation booted_rel := (booted_rel Q c b now i).
  Notation vgo := (vgo c b now i). Notation vcrash := (vcrash c b now i).

  Definition keeps (d d' : ctl) : Prop :=
    c_running d' = c_running d /\
    forall id val, value_of id (c_values d) = Some val -> value_of id (c_values d') = Some val.
  Definition ctl_sim (D : dram) (d : ctl) (r : dres ctl) : Prop :=
    match r with
    | DGo d' _ => keeps d d' /\
        (ctl_rel D d' \/
         exists a D', dram_own a = true /\ dstep (y_lat c) now a D = Some D' /\ (d_crash D' <> None \/ ctl_rel D' d'))
    | DRaise _ => exists a D', dram_own a = true /\ dstep (y_lat c) now a D = Some D' /\ d_crash D' <> None
    | DStuck => True
    end.

  Ltac rel_fields := let H := fresh in intros H; destruct H.
  Ltac same := split; [split; [reflexivity|auto]|].

  Lemma req_get_rel D d : ctl_rel D d -> ctl_rel D (fst (req_get i d)) /\ keeps d (fst (req_get i d)).
  Proof.
    intros R. unfold req_get.
    destruct (c_handler d) as [| |r|[|]] eqn:Eh, (c_items d) as [|r0 rest] eqn:Ei; cbn [fst];
      try (split; [exact R|split; [reflexivity|auto]]).
    - destruct R. split; [|split; [reflexivity|auto]]. constructor; cbn; try assumption; auto.
      intro H. rewrite (cr_queue H), Eh, Ei. reflexivity.
    - destruct R. split; [|split; [reflexivity|auto]]. constructor; cbn; try assumption.
      + intro H. specialize (cr_alive H). now rewrite Eh in cr_alive.
      + intro H. specialize (cr_alive H). now rewrite Eh in cr_alive.
  Qed.
  Lemma keeps_trans d1 d2 d3 : keeps d1 d2 -> keeps d2 d3 -> keeps d1 d3.
  Proof. intros [a1 a2] [b1 b2]. split; [congruence|auto]. Qed.

  Lemma bus_give_rel D d : ctl_rel D d -> ctl_rel D (fst (bus_give i d)) /\ keeps d (fst (bus_give i d)).
  Proof.
    intros R. unfold bus_give. destruct (c_bus d) eqn:Eb, (c_waiting d) as [|r0 rest] eqn:Ew; cbn [fst];
      try (split; [exact R|split; [reflexivity|auto]]).
    destruct R. split; [|split; [reflexivity|auto]]. constructor; cbn; try assumption.
    - rewrite cr_bus, Eb, Ew. reflexivity.
    - rewrite cr_granted, Eb. reflexivity.
  Qed.

  Lemma set_waiting_rel D d : ctl_rel D d -> c_handler d = HNew \/ (exists r, c_handler d = HGot r /\ False) ->
    ctl_rel D (ctl_handler d (c_items d) HWaiting).
  Proof.
    intros R [H|(r & _ & [])]. destruct R. constructor; cbn; try assumption; auto.
    intro Hr. rewrite (cr_queue Hr), H. reflexivity.
  Qed.

  Lemma handler_start_sim D d : ctl_rel D d -> ctl_sim D d (handler_start i d).
  Proof.
    intros R. unfold handler_start. destruct (c_handler d) eqn:Eh; try exact I.
    assert (R' := set_waiting_rel D d R (or_introl Eh)).
    destruct (req_get_rel D _ R') as [H1 H2]. cbn. split; [exact H2|left; exact H1].
  Qed.
  Lemma req_put_sim D d : ctl_rel D d -> ctl_sim D d (go (req_get i d)).
  Proof. intros R. destruct (req_get_rel D d R). cbn. split; auto. Qed.
  Lemma release_sim D d : ctl_rel D d -> ctl_sim D d (go (bus_give i d)).
  Proof. intros R. destruct (bus_give_rel D d R). cbn. split; auto. Qed.
  Lemma handler_int_sim D d : ctl_rel D d -> ctl_sim D d (handler_int d).
  Proof.
    intros R. unfold handler_int. destruct (c_running d) eqn:Er; [exact I|].
    destruct (c_handler d) eqn:Eh; try exact I; cbn; (split; [split; [reflexivity|auto]|left]); destruct R;
      constructor; cbn; try assumption; congruence.
  Qed.

  Lemma on_req_sim D d : ctl_rel D d -> ctl_sim D d (on_req P i d).
  Proof.
    intros R. unfold on_req. destruct (c_handler d) as [| |r|g] eqn:Eh; try exact I.
    - destruct (c_running d) eqn:Er; cbn [negb]; [|exact I].
      destruct (is_read r && negb (m_ready P (c_mem d) r)) eqn:E.
      + set (D' := MkDram (d_mem D) (d_valid D) (d_running D) (c_items d) (d_pending D ++ [r]) (d_bus D)
                   (d_granted D) (d_stat D) (d_start_time D) (d_crash D) (d_submitted D)
                   (d_history D) (d_waited D ++ [q_id r]) (d_failed D)).
        assert (S : dstep (y_lat c) now AHandle D = Some D').
        { destruct R. unfold dstep, dc_handle. rewrite cr_crash, cr_running, Er, (cr_queue Er), Eh. cbn [negb inflight app].
          rewrite cr_valid. cbn in E. rewrite E. unfold D'. now rewrite cr_crash, cr_running, cr_valid, Er. }
        assert (R' : ctl_rel D' (ctl_handler (ctl_pending d (c_pending d ++ [r])) (c_items (ctl_pending d (c_pending d ++ [r]))) HWaiting)).
        { destruct R. constructor; cbn; try assumption; auto. now rewrite cr_pending. }
        destruct (req_get_rel D' _ R') as [H1 H2]. unfold go. cbn. split; [exact H2|].
        right. exists AHandle, D'. split; [reflexivity|]. split; [exact S|right; exact H1].
      + set (D' := MkDram (d_mem D) (d_valid D) (d_running D) (c_items d) (d_pending D) (d_bus D ++ [r])
                   (d_granted D) (d_stat D) (d_start_time D) (d_crash D) (d_submitted D)
                   (d_history D) (d_waited D) (d_failed D)).
        assert (S : dstep (y_lat c) now AHandle D = Some D').
        { destruct R. unfold dstep, dc_handle. rewrite cr_crash, cr_running, Er, (cr_queue Er), Eh. cbn [negb inflight app].
          rewrite cr_valid. cbn in E. rewrite E. unfold D'. now rewrite cr_crash, cr_running, cr_valid, Er. }
        set (d1 := ctl_bus d (c_starting d ++ [r]) (c_bus d) (c_waiting d)).
        assert (R' : ctl_rel D' (ctl_handler d1 (c_items d1) HWaiting)).
        { destruct R. constructor; cbn; try assumption; auto. rewrite cr_bus. rewrite <- !app_assoc. reflexivity. }
        destruct (req_get_rel D' _ R') as [H1 H2].
        destruct (req_get i (ctl_handler d1 (c_items d1) HWaiting)) as [d2 l]. cbn in *. split; [exact H2|].
        right. exists AHandle, D'. split; [reflexivity|]. split; [exact S|right; exact H1].
    - cbn. split; [split; [reflexivity|auto]|left; exact R].
  Qed.

  Lemma thread_start_sim D d id : ctl_rel D d -> ctl_sim D d (thread_start i id d).
  Proof.
    intros R. unfold thread_start. destruct (c_starting d) as [|r rest] eqn:Es; [exact I|].
    destruct (q_id r =? id); [|exact I].
    assert (R' : ctl_rel D (ctl_bus d rest (c_bus d) (c_waiting d ++ [r]))).
    { destruct R. constructor; cbn; try assumption. rewrite cr_bus, Es. rewrite <- !app_assoc. reflexivity. }
    destruct (bus_give_rel D _ R') as [H1 H2]. cbn. split; [exact H2|left; exact H1].
  Qed.

  Lemma on_grant_sim D d : ctl_rel D d -> ctl_sim D d (on_grant c now i d).
  Proof.
    intros R. unfold on_grant. destruct (c_bus d) as [|r|] eqn:Eb; try exact I.
    unfold timeout. destruct R. destruct (y_lat c * q_batches r <? 0) eqn:E; cbn.
    - eexists AGrant, _. split; [reflexivity|]. split.
      + unfold dstep, dc_grant. rewrite cr_crash, cr_bus, cr_granted, Eb. cbn [holding app]. rewrite E. reflexivity.
      + discriminate.
    - split; [split; [reflexivity|auto]|]. right. eexists AGrant, _. split; [reflexivity|]. split.
      + unfold dstep, dc_grant. rewrite cr_crash, cr_bus, cr_granted, Eb. cbn [holding app]. rewrite E. reflexivity.
      + right. constructor; cbn; try assumption; auto.
  Qed.

  Lemma release_ready_eq fuel : forall j m pending q,
    release_loop fuel j (y_valid m) pending q =
      (fst (release_ready P fuel j m pending []), q ++ snd (release_ready P fuel j m pending [])).
  Proof.
    assert (A : forall fuel j m pending q, release_ready P fuel j m pending q =
              (fst (release_ready P fuel j m pending []), q ++ snd (release_ready P fuel j m pending []))).
    { induction fuel0 as [|f IH]; intros j m pending q; cbn [release_ready fst snd]; [now rewrite app_nil_r|].
      destruct (nth_error pending j) as [r|]; [|cbn; now rewrite app_nil_r].
      destruct (m_ready P m r); [|apply IH].
      rewrite (IH _ _ _ (q ++ [r])), (IH _ _ _ ([] ++ [r])). cbn [fst snd app]. now rewrite <- app_assoc. }
    induction fuel as [|f IH]; intros j m pending q; cbn [release_loop release_ready fst snd]; [now rewrite app_nil_r|].
    destruct (nth_error pending j) as [r|]; [|cbn; now rewrite app_nil_r].
    cbn [real m_ready]. destruct (ready (y_valid m) r); [|apply IH].
    rewrite IH, (A f _ _ _ ([] ++ [r])). cbn [fst snd app]. now rewrite <- app_assoc.
  Qed.

  Lemma result_of_snoc id h r g t data :
    result_of id (h ++ [EDone r g t data]) = match result_of id h with Some x => Some x | None => if q_id r =? id then Some data else None end.
  Proof.
    induction h as [|[v|r0 g0 t0 d0] h IH]; cbn; [reflexivity|exact IH|]. destruct (q_id r0 =? id); [reflexivity|exact IH].
  Qed.
  Lemma value_of_snoc id l k (data : list Z) :
    value_of id (l ++ [(k, data)]) = match value_of id l with Some x => Some x | None => if k =? id then Some data else None end.
  Proof.
    unfold value_of. induction l as [|[k0 d0] l IH]; cbn; [now destruct (k =? id)|]. destruct (k0 =? id); [reflexivity|exact IH].
  Qed.
  Lemma value_kept id l x val : value_of id l = Some val -> value_of id (l ++ [x]) = Some val.
  Proof. intro H. destruct x. now rewrite value_of_snoc, H. Qed.

  Lemma thread_end_sim D d : ctl_rel D d -> ctl_sim D d (thread_end P c now i d).
  Proof.
    intros R. unfold thread_end. destruct (c_bus d) as [| |r g] eqn:Eb; try exact I.
    destruct (now <? g + y_lat c * q_batches r) eqn:Et; [exact I|].
    destruct (q_kind r) as [bs nb|rows] eqn:Ek.
    - cbn [real m_read]. destruct (mem_read (y_mem (c_mem d)) (q_start r) (q_length r) (q_batches r)) as [[data|e] m] eqn:Em.
      + unfold ctl_sim. split; [split; [reflexivity|cbn; intros; now apply value_kept]|].
        right. destruct R. eexists AFinish, _. split; [reflexivity|]. split.
        * unfold dstep, dc_finish. rewrite cr_crash, cr_bus, cr_granted, Eb. cbn [holding app]. rewrite Et, Ek, cr_mem, Em. reflexivity.
        * right. constructor; cbn; try assumption; auto. now rewrite cr_stat.
          intro id. rewrite result_of_snoc, value_of_snoc, cr_values. reflexivity.
      + unfold ctl_sim. destruct R. eexists AFinish, _. split; [reflexivity|]. split.
        * unfold dstep, dc_finish. rewrite cr_crash, cr_bus, cr_granted, Eb. cbn [holding app]. rewrite Et, Ek, cr_mem, Em. reflexivity.
        * discriminate.
    - assert (Hw : m_write P (c_mem d) r rows =
                     let '(v, x) := mem_write (y_mem (c_mem d)) (q_start r) (concat rows) (q_batches r) in
                     (v, MkCells x (set_valid (y_valid (c_mem d)) (q_start r) (q_start r + q_length r)))) by reflexivity.
      rewrite Hw. destruct (mem_write (y_mem (c_mem d)) (q_start r) (concat rows) (q_batches r)) as [[data|e] m] eqn:Em.
      + set (m' := MkCells m (set_valid (y_valid (c_mem d)) (q_start r) (q_start r + q_length r))).
        destruct (release_ready P (length (c_pending d)) 0 m' (c_pending d) []) as [pend new] eqn:Er.
        assert (Hu : forall q, update_ready (y_valid m') (c_pending d) q = (pend, q ++ new)).
        { intro q. unfold update_ready.  rewrite release_ready_eq, Er. reflexivity. }
        unfold ctl_sim.
        split; [split; [reflexivity|cbn; intros; now apply value_kept]|].
        right. destruct R. eexists AFinish, _. split; [reflexivity|]. split.
        * unfold dstep, dc_finish. rewrite cr_crash, cr_bus, cr_granted, Eb. cbn [holding app]. rewrite Et, Ek, cr_mem, Em.
          rewrite cr_valid, cr_pending. change (set_valid (y_valid (c_mem d)) _ _) with (y_valid m'). rewrite Hu. reflexivity.
        * right. constructor; cbn; try assumption; auto.
          -- intro H. rewrite (cr_queue H). now rewrite <- app_assoc.
          -- now rewrite cr_stat.
          -- intro id. rewrite result_of_snoc, value_of_snoc, cr_values. reflexivity.
      + unfold ctl_sim. destruct R. eexists AFinish, _. split; [reflexivity|]. split.
        * unfold dstep, dc_finish. rewrite cr_crash, cr_bus, cr_granted, Eb. cbn [holding app]. rewrite Et, Ek, cr_mem, Em. reflexivity.
        * discriminate.
  Qed.

  (** ** Lifting to the tile *)
  Lemma xphase_mono values values' (p : cproc) (x : dcore core) :
    (forall id val, value_of id values = Some val -> value_of id values' = Some val) -> xphase_rel values p x -> xphase_rel values' p x.
  Proof.
    intros H. unfold xphase_rel. destruct (t_x (k_stage x)); auto. intros [H0 H1]. split; [exact H0|]. revert H1.
    destruct (k_xp x); auto; intros (id & a & H1 & H2); exists id, a; auto.
  Qed.
  Lemma core_mono values values' cy p x :
    (forall id val, value_of id values = Some val -> value_of id values' = Some val) -> core_rel Q values cy p x -> core_rel Q values' cy p x.
  Proof.
    intros H []. constructor; auto. intro Ho. destruct (kr_run Ho) as (H1 & H2 & H3). split; [exact H1|]. split; [|exact H3].
    eapply xphase_mono; eassumption.
  Qed.
  Lemma cores_mono values values' cc ps xs :
    (forall id val, value_of id values = Some val -> value_of id values' = Some val) -> cores_rel Q values cc ps xs -> cores_rel Q values' cc ps xs.
  Proof. intros H [H1 H2]. split; [exact H1|]. intros. eapply core_mono; eauto. Qed.

  Lemma booted_ctl x v D' d' : booted_rel x v -> keeps (x_ctl x) d' -> ctl_rel D' d' ->
    booted_rel (dt_ctl x d') (MkView (with_dram (v_tile v) D') (v_rt v) (v_tc v) (v_cc v)).
  Proof.
    intros [] [K1 K2] R. constructor; cbn; try assumption.
    - eapply cores_mono; [exact K2|exact br_cores].
    - unfold run_rel in *. cbn. rewrite K1. exact br_run.
  Qed.
  Lemma view_dram v : MkView (with_dram (v_tile v) (t_dram (v_tile v))) (v_rt v) (v_tc v) (v_cc v) = v.
  Proof. destruct v as [[] ? ? ?]. reflexivity. Qed.

  Definition tile_sim (U : Prop) (v : view) (r : dres (dtile core cells_valid)) : Prop :=
    match r with
    | DGo x' _ => vgo v (booted_rel x')
    | DRaise _ => U -> vcrash v
    | DStuck => True
    end.
  Lemma lift_ctl U x v f : booted_rel x v -> ctl_sim (t_dram (v_tile v)) (x_ctl x) (f (x_ctl x)) ->
    tile_sim U v (dmap (dt_ctl x) (f (x_ctl x))).
  Proof.
    intros B S. destruct (f (x_ctl x)) as [d' new|e|]; cbn in *; [|intros _|exact I].
    - destruct S as [K [R|(a & D' & Ho & Hs & [Hc|R])]].
      + apply vgo_here. rewrite <- (view_dram v). now apply booted_ctl.
      + right. eapply v_dram_crash; eassumption.
      + eapply vgo_one; [eapply v_dram; [exact Ho|exact Hs|apply R]|]. now apply booted_ctl.
    - destruct S as (a & D' & Ho & Hs & Hc). eapply v_dram_crash; eassumption.
  Qed.

  (** A request of the tile or of a core. *)
  Lemma submit_rel D d k a kd : ctl_rel D d ->
    match submit now i k a kd d with
    | DGo (r, d') _ => exists D', dc_submit now k a kd D = (Ok r, D') /\ ctl_rel D' d' /\ keeps d d' /\ c_running d = true
    | DRaise e => dc_submit now k a kd D = (Raise e, D)
    | DStuck => False
    end.
  Proof.
    intros []. unfold submit, dc_submit. rewrite cr_running. destruct (c_running d) eqn:Er; cbn [negb]; [|reflexivity].
    eexists. rewrite cr_next, cr_stat. split; [reflexivity|]. split; [|split; [split; [cbn; congruence|auto]|reflexivity]].
    constructor; cbn; try assumption; auto.
    - intro H. now rewrite (cr_queue eq_refl), <- app_assoc.
    - unfold zlen in *. rewrite app_length. cbn [length]. lia.
  Qed.
End Ctl.
