(** The events that a tile needs: each kind of event (continues DesNeedTile). *)
From Verif Require Import PyBase PyLemmas CoreModel DramModel DramProofs RouterModel SystemModel DesModel DesWait DesWaitCtl DesWaitTile DesNeed DesNeedCtl DesNeedTile.

Section Own.
  Context {K M : Type}.
  Variable P : machine K M.
  Variable c : sys_cfg.
  Notation dcore := (dcore K). Notation dctl := (dctl M). Notation dtile := (dtile K M). Notation dnode := (dnode K M).

  (** *** Cores *)
  Lemma core_case i k (T : dtile) (f : dcore -> dres dcore) fired : tile_inv c T -> tile_fit T -> is_new T = false ->
    (forall x, core_inv x -> core_fit x -> core_kept i k fired x (f x)) -> part_of fired = PCore k -> fired <> VCoreEnd i k ->
    tile_kept i fired T (if k <? 0 then DStuck else match nth_error (x_cores T) (Z.to_nat k) with
      | Some x => dmap (fun dx => dt_core (dt_ctl T (fst dx)) k (snd dx)) ((fun d x => dmap (fun x' => (d, x')) (f x)) (x_ctl T) x)
      | None => DStuck end).
  Proof.
    intros IT TF N H HF HC. destruct (Z.ltb_spec k 0); [exact I|]. destruct (nth_error (x_cores T) (Z.to_nat k)) as [x|] eqn:E; [|exact I].
    pose proof (ti_cores _ _ IT) as H1. pose proof (tf_cores _ TF) as H2. rewrite Forall_forall in H1, H2. pose proof (nth_error_In _ _ E) as H3.
    apply (lift_core_kept c i fired T k x); auto.
  Qed.
  Lemma got_case now i k s (T : dtile) x : tile_inv c T -> tile_fit T -> is_new T = false -> 0 <= k -> nth_error (x_cores T) (Z.to_nat k) = Some x ->
    tile_kept i (VGot i k s) T (dmap (fun dx => dt_core (dt_ctl T (fst dx)) k (snd dx)) (on_got P c now i k s (x_ctl T) x)).
  Proof.
    intros IT TF N HK EN. pose proof (tf_cores _ TF) as H2. rewrite Forall_forall in H2. pose proof (H2 _ (nth_error_In _ _ EN)) as KF. unfold on_got.
    assert (SAME : forall new, kept (ctl_ev i) (fun e => ctl_needs e (x_ctl T)) (fun e => ctl_needs e (x_ctl T)) (VGot i k s) new) by (intros new; apply kept_same; auto; intros e HE; apply (ctl_out i); auto; discriminate).
    assert (STEP : forall x' new, core_step (fun _ => False) i k (VGot i k s) x x' new -> tile_step i (VGot i k s) T (dt_core (dt_ctl T (x_ctl T)) k x') new).
    { intros x' new H. apply (lift_core c i (VGot i k s) T k x x' (fun _ => False) (x_ctl T) new new); auto; try lia; try discriminate; try apply incl_refl; try (intros id []). }
    assert (FD : s <> SX -> forall d, tile_kept i (VGot i k s) T (dmap (fun dx => dt_core (dt_ctl T (fst dx)) k (snd dx)) (let '(x1, l1) := buf_put i k s x in match tget (k_stage x1) s with GGot o => dbind (DGo (x_ctl T, x1) l1) (fun _ => timeout d (VTime i k s) (x_ctl T, set_stage x1 s (GWork o))) | _ => DStuck end))).
    { intros NX d. pose proof (got_kept i k s x d NX KF) as HG. destruct (buf_put i k s x) as [x1 l1]. destruct (tget (k_stage x1) s) eqn:EG; try exact I. unfold dbind, timeout. destruct (d <? 0); [exact I|]. cbn. apply STEP, HG. reflexivity. }
    destruct s.
    - apply FD. discriminate.
    - apply FD. discriminate.
    - clear FD. pose proof (execute_kept i k x KF) as HG. destruct (buf_put i k SX x) as [x1 l1]. destruct (tget (k_stage x1) SX) eqn:EG; try exact I. specialize (HG o eq_refl). cbn [dbind]. unfold execute.
      assert (LOC : forall k1 d, core_step (fun _ => False) i k (VGot i k SX) x (set_xp (set_core (set_stage x1 SX (GWork o)) k1) XTiming) (l1 ++ [later d (VTime i k SX)])) by (intros k1; exact (proj1 (HG k1))).
      assert (DEF : forall q : res unit * K, tile_kept i (VGot i k SX) T (dmap (fun dx => dt_core (dt_ctl T (fst dx)) k (snd dx)) (match (match q with (Raise e, _) => DRaise e | (Ok _, k1) => match exec_time (y_core c) o with Raise e => DRaise e | Ok t => timeout t (VTime i k SX) (x_ctl T, set_xp (set_core (set_stage x1 SX (GWork o)) k1) XTiming) end end) with DGo b new' => DGo b (l1 ++ new') | DRaise e => DRaise e | DStuck => DStuck end))).
      { intros [[u|e] k1]; [|exact I]. destruct (exec_time (y_core c) o) as [t|e]; [|exact I]. unfold timeout. destruct (t <? 0); [exact I|]. cbn. apply STEP, LOC. }
      destruct o as [dest rd width vec|dest rd width vec| | | | |]; try exact (DEF (m_local P (k_core x1) _)).
      + clear DEF. destruct (m_load P (k_core x1) rd) as [[a|e] k1]; [|exact I].
        pose proof (submit_kept now i k a (RRead width vec) (x_ctl T) (VGot i k SX) ltac:(cbn; tauto)) as HS. destruct (submit now i k a (RRead width vec) (x_ctl T)) as [[r d'] new| |]; try exact I. destruct HS as (S1 & S2 & S3 & S4). cbn.
        apply (lift_core c i _ T k x _ (fun id => id = q_id r) d' l1); auto; try lia; try discriminate.
        * apply (proj2 (proj2 (HG k1))).
        * rewrite map_app. apply incl_appl, incl_refl.
        * apply (kept_more _ _ _ _ new); auto. rewrite map_app. apply incl_appr, incl_refl.
      + clear DEF. destruct (m_store P (k_core x1) dest rd width vec) as [[[a v]|e] k1]; [|exact I]. cbn. apply STEP. apply (proj1 (proj2 (HG k1))).
  Qed.
  Lemma store_case now i k (T : dtile) x : tile_inv c T -> tile_fit T -> is_new T = false -> 0 <= k -> nth_error (x_cores T) (Z.to_nat k) = Some x ->
    tile_kept i (VStoreTime i k) T (dmap (fun dx => dt_core (dt_ctl T (fst dx)) k (snd dx)) (store_time now i k (x_ctl T) x)).
  Proof.
    intros IT TF N HK EN. pose proof (tf_cores _ TF) as H2. rewrite Forall_forall in H2. pose proof (H2 _ (nth_error_In _ _ EN)) as KF. unfold store_time. destruct (k_xp x) eqn:E1; try exact I. destruct (t_x (k_stage x)) eqn:E2; try exact I.
    pose proof (submit_kept now i k addr (RWrite rows) (x_ctl T) (VStoreTime i k) ltac:(cbn; tauto)) as HS. destruct (submit now i k addr (RWrite rows) (x_ctl T)) as [[r d'] new| |]; try exact I. destruct HS as (S1 & S2 & S3 & S4). cbn.
    apply (lift_core c i _ T k x _ (fun id => id = q_id r) d' []); auto; try lia; try discriminate.
    - eapply store_time_kept; eauto.
    - intros y [].
  Qed.
  Lemma done_case i k id (T : dtile) x : tile_inv c T -> tile_fit T -> is_new T = false -> 0 <= k -> nth_error (x_cores T) (Z.to_nat k) = Some x ->
    tile_kept i (VDone i k id) T (dmap (fun dx => dt_core (dt_ctl T (fst dx)) k (snd dx)) (dmap (fun x' => (x_ctl T, x')) (load_done i k id (c_values (x_ctl T)) x))).
  Proof.
    intros IT TF N HK EN. pose proof (tf_cores _ TF) as H2. rewrite Forall_forall in H2. pose proof (H2 _ (nth_error_In _ _ EN)) as KF.
    pose proof (load_done_kept i k id (c_values (x_ctl T)) x KF) as H. pose proof (load_done_asked i k id (c_values (x_ctl T)) x) as HA. destruct (load_done i k id (c_values (x_ctl T)) x) as [x' new| |]; try exact I. cbn in *.
    apply (lift_core c i _ T k x x' (fun _ => False) (x_ctl T) new); auto; try lia; try discriminate.
    - apply incl_refl.
    - apply kept_same; auto. intros e HE. apply (ctl_out i); auto. discriminate.
    - right. eauto.
  Qed.
  Lemma core_end_case i k (T : dtile) : tile_inv c T -> tile_fit T -> is_new T = false -> tile_kept i (VCoreEnd i k) T ((if k <? 0 then fun _ => DStuck else core_end i k) T).
  Proof.
    intros IT TF N. destruct (Z.ltb_spec k 0); [exact I|]. unfold core_end. destruct (nth_error (x_cores T) (Z.to_nat k)) as [x|] eqn:EN; [|exact I]. destruct (k_proc x) eqn:EK; try exact I.
    pose proof (tf_cores _ TF) as H2. rewrite Forall_forall in H2. pose proof (H2 _ (nth_error_In _ _ EN)) as KF. pose proof (core_end_kept i k x KF EK) as KS.
    assert (GO : forall p new, p = x_phase T /\ (p = THaltWait -> forallb core_over (upd (x_cores T) (Z.to_nat k) (set_proc x CEnded (k_cycles x))) = false) \/ x_phase T = THaltWait /\ p = THaltAll /\ In (VAllCores i) (map snd new) ->
      tile_step i (VCoreEnd i k) T (dt_phase (dt_core (dt_ctl T (x_ctl T)) k (set_proc x CEnded (k_cycles x))) p) new).
    { intros p new HP. apply (lift_core' c i _ T k x _ (fun _ => False) (x_ctl T) p []); auto; try lia.
      - intros y [].
      - apply kept_same; auto. intros e HE. apply (ctl_out i); auto. discriminate.
    }
    assert (SAME : dt_ctl T (x_ctl T) = T) by now destruct T. rewrite SAME in GO.
    assert (S1 : x_phase T <> THaltWait -> tile_step i (VCoreEnd i k) T (dt_core T k (set_proc x CEnded (k_cycles x))) []) by (intros NE; apply (GO (x_phase T) []); left; split; [reflexivity|intros; contradiction]).
    cbn. destruct (x_phase T) eqn:EP; try (apply S1; discriminate). destruct (forallb core_over (upd (x_cores T) (Z.to_nat k) (set_proc x CEnded (k_cycles x)))) eqn:EA.
    - apply (GO THaltAll). right. cbn. auto.
    - cbn. specialize (GO THaltWait []). replace (dt_core T k (set_proc x CEnded (k_cycles x))) with (dt_phase (dt_core T k (set_proc x CEnded (k_cycles x))) THaltWait) by (unfold dt_phase, dt_core; cbn; now rewrite EP). apply GO. left. auto.
  Qed.

  (** *** The memory controller *)
  Lemma req_get_values i (d : dctl) : c_next (fst (req_get i d)) = c_next d /\ c_values (fst (req_get i d)) = c_values d.
  Proof. destruct d as [m ru it h pe sg bu wa stt sta nx va]. unfold req_get. cbn. destruct h as [| |r|[]]; cbn; auto; destruct it; cbn; auto. Qed.
  Lemma bus_give_values i (d : dctl) : c_next (fst (bus_give i d)) = c_next d /\ c_values (fst (bus_give i d)) = c_values d.
  Proof. destruct d as [m ru it h pe sg bu wa stt sta nx va]. unfold bus_give. cbn. destruct bu; cbn; auto; destruct wa; cbn; auto. Qed.
  Lemma thread_end_case now i (T : dtile) : tile_inv c T -> tile_fit T -> is_new T = false -> tile_kept i (VThreadTime i) T (dmap (dt_ctl T) (thread_end P c now i (x_ctl T))).
  Proof.
    intros IT TF N. pose proof (thread_end_kept P c now i (x_ctl T)) as H. unfold thread_end in *. destruct (c_bus (x_ctl T)) as [|r|r since] eqn:EB; try exact I. destruct (now <? _); [exact I|].
    assert (HR : In r (requests (x_ctl T))) by (unfold requests; rewrite EB, !in_app_iff; cbn; tauto).
    destruct (q_kind r) as [w v|rows].
    - destruct (m_read P (c_mem (x_ctl T)) r) as [[data|e] m1]; [|exact I]. cbn in *. apply (lift_ctl c); auto. cbn. intros id HI. rewrite map_app, in_app_iff in HI. cbn in HI. destruct HI as [HI|[<-|[]]]; auto. right. exists r. auto.
    - destruct (m_write P (c_mem (x_ctl T)) r rows) as [[[]|e] m1]; [|exact I]. destruct (release_ready P _ 0 m1 _ []) as [pe' new]. cbn in *. apply (lift_ctl c); auto. cbn. intros id HI. rewrite map_app, in_app_iff in HI. cbn in HI. destruct HI as [HI|[<-|[]]]; auto.
      right. exists r. split; auto. split; auto. rewrite map_app, in_app_iff. right. now left.
  Qed.

  (** *** The router *)
  Lemma send_get_same now i u : u_event (fst (send_get now i u)) = u_event u /\ u_buffers (fst (send_get now i u)) = u_buffers u /\ (u_sender (fst (send_get now i u)) = u_sender u \/ midput (u_sender u) = false /\ midput (u_sender (fst (send_get now i u))) = false).
  Proof. destruct u as [ru q z bf ev0 stt]. unfold send_get. cbn. destruct z as [| | | | | | | |[]]; cbn; auto; destruct q; cbn; auto. Qed.
  Lemma rt_case i fired (T : dtile) r : tile_fit T -> is_new T = false -> rt_kept i fired (x_rt T) r -> part_of fired = PRt ->
    match r with DGo u' new => (forall n, u_event u' = Some (n, Triggered) -> u_event (x_rt T) = Some (n, Triggered) \/ In (VSent i n) (map snd new)) /\ u_buffers u' = u_buffers (x_rt T) /\ (u_sender u' = u_sender (x_rt T) \/ midput (u_sender (x_rt T)) = false /\ midput (u_sender u') = false) | _ => True end ->
    tile_kept i fired T (dmap (dt_rt T) r).
  Proof. intros TF N HK HF HR. destruct r as [u' new| |]; try exact I. cbn in *. destruct HR as (H1 & H2 & H3). now apply lift_rt. Qed.
  Lemma send_put_case now i (T : dtile) : tile_fit T -> is_new T = false -> tile_kept i (VSendPut i) T (dmap (dt_rt T) (go (send_get now i (x_rt T)))).
  Proof. intros TF N. apply rt_case; auto. - apply send_get_kept. - cbn. destruct (send_get_same now i (x_rt T)) as (E1 & E2 & E3). rewrite E1. auto. Qed.
  Lemma sender_case now i (T : dtile) : tile_fit T -> is_new T = false -> tile_kept i (VSender i) T (dmap (dt_rt T) (sender_start now i (x_rt T))).
  Proof.
    intros TF N. apply rt_case; auto. - apply sender_start_kept. - unfold sender_start. destruct (u_sender (x_rt T)) eqn:E; try exact I. pose proof (send_get_same now i (rt_sender (x_rt T) ZWaiting)) as (E1 & E2 & E3). unfold go. destruct (send_get now i (rt_sender (x_rt T) ZWaiting)) as [u1 l]. cbn in *. rewrite E1. split; auto. split; auto. right. split; auto. destruct E3 as [-> |[_ E3]]; auto.
  Qed.
  Lemma send_case i (T : dtile) : tile_fit T -> is_new T = false -> tile_kept i (VSendGot i) T (dmap (dt_rt T) (on_send c i (x_rt T))).
  Proof.
    intros TF N. apply rt_case; auto. - apply on_send_kept. - unfold on_send. destruct (u_sender (x_rt T)) eqn:E; try exact I.
    + destruct (get_latency _ _ _) as [lat inter]. destruct (negb _); [exact I|]. unfold timeout. destruct (lat <? 0); [exact I|]. cbn. split; [discriminate|]. auto.
    + cbn. rewrite E. auto.
  Qed.
  Lemma travel_case now i (T : dtile) : tile_fit T -> is_new T = false -> tile_kept i (VTravel i) T (dmap (dt_rt T) (on_travel c now i (x_rt T))).
  Proof. intros TF N. apply rt_case; auto. - apply on_travel_kept. - unfold on_travel. destruct (u_sender (x_rt T)) eqn:E; try exact I. destruct (now <? _); [exact I|]. cbn. auto. Qed.
  Lemma arrived_case now i (T : dtile) : tile_fit T -> is_new T = false -> tile_kept i (VArrived i) T (dmap (dt_rt T) (on_arrived now i (x_rt T))).
  Proof.
    intros TF N. apply rt_case; auto. - apply on_arrived_kept. - unfold on_arrived. destruct (u_sender (x_rt T)) eqn:E; try exact I. destruct (u_event (x_rt T)) as [[n []]|] eqn:EE; try exact I.
    match goal with |- context [send_get now i ?u] => pose proof (send_get_same now i u) as (E1 & E2 & E3); destruct (send_get now i u) as [u1 l] end. cbn in *. rewrite E1. split; [intros n' H; injection H as <-; auto|]. split; auto. right. split; auto. destruct E3 as [-> |[_ E3]]; auto.
  Qed.
  Lemma sender_int_case i (T : dtile) : tile_fit T -> is_new T = false -> tile_kept i (VSenderInt i) T (dmap (dt_rt T) (sender_int (x_rt T))).
  Proof. intros TF N. apply rt_case; auto. - apply sender_int_kept. - unfold sender_int. destruct (u_running (x_rt T)); try exact I. destruct (u_sender (x_rt T)) eqn:E; try exact I. cbn. auto. Qed.

  (** *** The instructions of the tile *)
  Ltac ph := let e := fresh "e" in let HE := fresh "HE" in let HP := fresh "HP" in let HX := fresh "HX" in let HW := fresh "HW" in
    intros e [HE HP] HX HW; destruct e; try discriminate HP; try contradiction HX; cbn in HE; injection HE as ->; cbn in HW; try contradiction HW; cbn; tauto.
  Ltac ow EP := apply (lift_phase c); auto; cbn; rewrite ?EP; try reflexivity; try discriminate; try lia; try (apply ctl_same; cbn; tauto); try (apply rt_same; cbn; tauto); try (intros ? []; fail); try ph.
  Lemma next_case b now i (T T0 : dtile) fired : tile_inv c T -> tile_fit T -> is_new T = false -> part_of fired = POwn -> (forall n, fired <> VSent i n) -> (forall k id, fired <> VDone i k id) -> midread (x_phase T) = false -> x_ended T = false ->
    x_ctl T0 = x_ctl T -> x_rt T0 = x_rt T -> x_cores T0 = x_cores T -> x_ended T0 = x_ended T ->
    tile_kept i fired T (go (next_instr b now i T0)).
  Proof.
    intros IT TF N HF NS ND MR EE E1 E2 E3 E4.
    assert (NC : ~ ctl_ev i fired) by (intros H; apply ctl_ev_iff in H as [_ H]; congruence). assert (NR : ~ rt_ev i fired) by (intros H; apply rt_ev_iff in H as [_ H]; congruence).
    unfold next_instr. destruct (x_prog T0); cbn; (apply (lift_phase c); auto; cbn; rewrite ?E1, ?E2, ?E3, ?E4; try reflexivity; try discriminate; try lia; try (now apply ctl_same); try (now apply rt_same); try (intros ? []; fail)).
    - intros k id H. destruct (ND _ _ H).
    - ph.
    - intros k id H. destruct (ND _ _ H).
    - ph.
  Qed.
  Lemma op_end_case b now i (T : dtile) : tile_inv c T -> tile_fit T -> is_new T = false -> tile_kept i (VOpEnd i) T (on_op_end b now i T).
  Proof.
    intros IT TF N. unfold on_op_end. destruct (x_phase T) eqn:EP; try exact I. destruct (negb _); [exact I|]. apply next_case; auto; try discriminate. - now rewrite EP. - apply (ti_ended _ _ IT). rewrite EP. discriminate.
  Qed.
  Lemma submit_phase now i (T : dtile) fired addr kd (p : Z -> dphase) : (forall id, p id = TSendRead id \/ p id = TRecvWrite id) -> tile_inv c T -> tile_fit T -> is_new T = false -> part_of fired = POwn -> (forall n, fired <> VSent i n) -> (forall k id, fired <> VDone i k id) -> midread (x_phase T) = false ->
    tile_kept i fired T (dmap (fun rd => dt_phase (dt_ctl T (snd rd)) (p (q_id (fst rd)))) (submit now i (-1) addr kd (x_ctl T))).
  Proof.
    intros PP IT TF N HF NS ND MR. assert (NC : ~ ctl_ev i fired) by (intros H; apply ctl_ev_iff in H as [_ H]; congruence). assert (NR : ~ rt_ev i fired) by (intros H; apply rt_ev_iff in H as [_ H]; congruence).
    pose proof (submit_kept now i (-1) addr kd (x_ctl T) fired NC) as HS. destruct (submit now i (-1) addr kd (x_ctl T)) as [[r d'] new| |]; try exact I. destruct HS as (S1 & S2 & S3 & S4). cbn.
    destruct (PP (q_id r)) as [-> | ->]; (apply (lift_phase c); auto; cbn; try reflexivity; try discriminate; try lia; try (now apply rt_same)).
    all: try (intros k id H; destruct (ND _ _ H); fail).
    all: try (unfold asked; cbn; intros id <-; lia).
    all: ph.
  Qed.
  Lemma recv_case now i addr vec got (T : dtile) fired : tile_inv c T -> tile_fit T -> is_new T = false -> part_of fired = POwn -> (forall n, fired <> VSent i n) -> (forall k id, fired <> VDone i k id) -> midread (x_phase T) = false ->
    tile_kept i fired T (recv_rows now i addr vec got T).
  Proof.
    intros IT TF N HF NS ND MR. unfold recv_rows. destruct (zlen got <? vec); [|apply (submit_phase now i T fired addr (RWrite got) TRecvWrite); auto].
    assert (NC : ~ ctl_ev i fired) by (intros H; apply ctl_ev_iff in H as [_ H]; congruence). assert (NR : ~ rt_ev i fired) by (intros H; apply rt_ev_iff in H as [_ H]; congruence).
    cbn. apply (lift_phase c); auto; cbn; try reflexivity; try discriminate; try lia; try (now apply ctl_same); try (now apply rt_same); try (intros ? []; fail).
    - intros k id H. destruct (ND _ _ H).
    - ph.
  Qed.
  Lemma op_case now i (T : dtile) : tile_inv c T -> tile_fit T -> is_new T = false -> tile_kept i (VOp i) T (on_op now i T).
  Proof.
    intros IT TF N. unfold on_op. destruct (x_phase T) eqn:EP; try exact I. destruct (x_prog T) as [|[addr target width vec|addr source width vec|] rest]; try exact I.
    - apply (submit_phase now i T (VOp i) addr (RRead width vec) TSendRead); auto; try discriminate. now rewrite EP.
    - destruct (_ || _); [exact I|]. apply recv_case; auto; try discriminate. now rewrite EP.
    - destruct (x_cores T) as [|x0 xs] eqn:EC; [cbn; ow EP|]. rewrite <- EC. destruct (forallb core_over (x_cores T)) eqn:EA; cbn; ow EP.
  Qed.
  Lemma tile_done_case now i id (T : dtile) : tile_inv c T -> tile_fit T -> is_new T = false -> tile_kept i (VDone i (-1) id) T (tile_done now i id T).
  Proof.
    intros IT TF N. unfold tile_done. destruct (x_phase T) eqn:EP; try exact I; destruct (x_prog T) as [|[addr target width vec|addr source width vec|] rest]; try exact I; destruct (value_of id (c_values (x_ctl T))); try exact I; destruct (negb _); try exact I.
    - destruct (_ || _); [exact I|]. unfold send_rows. destruct (rows_of width vec l); cbn; ow EP; intros k id' H; injection H as <- _; reflexivity.
    - cbn; ow EP; intros k id' H; injection H as <- _; reflexivity.
  Qed.
  Lemma add_case now i (T : dtile) : tile_inv c T -> tile_fit T -> is_new T = false -> tile_kept i (VAdd i) T (on_add c now i T).
  Proof.
    intros IT TF N. unfold on_add. destruct (x_phase T) eqn:EP; try exact I. destruct (x_prog T) as [|[addr target width vec|addr source width vec|] rest']; try exact I. unfold dbind, timeout. destruct (_ <? 0); [exact I|]. cbn. ow EP.
    intros e HE HW. destruct e; try contradiction HE; cbn in HE, HW |- *; subst; try (right; split; [exact HW|discriminate]). left. now left.
  Qed.
  Lemma add_time_case now i (T : dtile) : tile_inv c T -> tile_fit T -> is_new T = false -> tile_kept i (VAddTime i) T (on_add_time c now i T).
  Proof. intros IT TF N. unfold on_add_time. destruct (x_phase T) eqn:EP; try exact I. destruct (now <? _); [exact I|]. cbn. ow EP. Qed.
  Lemma added_case now i (T : dtile) : tile_inv c T -> tile_fit T -> is_new T = false -> tile_kept i (VAdded i) T (on_added now i T).
  Proof. intros IT TF N. unfold on_added, send_rows. destruct (x_phase T) eqn:EP; try exact I. destruct rest; cbn; ow EP. Qed.
  Lemma read_end_case now i (T : dtile) : tile_inv c T -> tile_fit T -> is_new T = false -> tile_kept i (VReadEnd i) T (on_read_end now i T).
  Proof.
    intros IT TF N. unfold on_read_end. destruct (x_phase T) eqn:EP; try exact I. destruct (x_prog T) as [|[addr target width vec|addr source width vec|] rest']; try exact I. destruct (_ =? _); [|cbn; ow EP].
    apply recv_case; auto; try discriminate. now rewrite EP.
  Qed.
  Lemma all_cores_case i (T : dtile) : tile_inv c T -> tile_fit T -> is_new T = false -> tile_kept i (VAllCores i) T (on_all_cores i T).
  Proof. intros IT TF N. unfold on_all_cores. destruct (x_phase T) eqn:EP; try exact I. cbn. ow EP. Qed.
  Lemma stop_case now i (T : dtile) : tile_inv c T -> tile_fit T -> is_new T = false -> tile_kept i (VStop i) T (on_stop now i T).
  Proof. intros IT TF N. unfold on_stop. destruct (x_phase T) eqn:EP; try exact I. destruct (u_running (x_rt T)); cbn; ow EP. Qed.
  Lemma poll_case now i (T : dtile) : tile_inv c T -> tile_fit T -> is_new T = false -> tile_kept i (VPoll i) T (on_poll now i T).
  Proof. intros IT TF N. unfold on_poll. destruct (x_phase T) eqn:EP; try exact I. destruct (now <? _); [exact I|]. destruct (u_queue (x_rt T)) eqn:EQ; cbn; ow EP. Qed.
  Lemma poll_time_case i (T : dtile) : tile_inv c T -> tile_fit T -> is_new T = false -> tile_kept i (VPollTime i) T (on_poll_time i T).
  Proof.
    intros IT TF N. unfold on_poll_time. destruct (x_phase T) eqn:EP; try exact I. cbn. ow EP; try (unfold asked; rewrite EP; cbn; tauto).
    intros e [HE HP] HX HW. destruct e; try discriminate HP; try contradiction HX; cbn in HE; injection HE as ->; cbn in HW; rewrite ?EP in HW; try contradiction HW. cbn. auto.
  Qed.
  Lemma empty_case i (T : dtile) : tile_inv c T -> tile_fit T -> is_new T = false -> tile_kept i (VEmpty i) T (on_empty i T).
  Proof.
    intros IT TF N. unfold on_empty, router_stop. destruct (x_phase T) eqn:EP; try exact I. destruct (u_event (x_rt T)) as [[n []]|] eqn:EV; try (cbn; ow EP); destruct (u_sender (x_rt T)) eqn:ES; try exact I; cbn; ow EP; auto; try (apply rt_same; cbn; auto; discriminate).
  Qed.
  Lemma stopped_case now i (T : dtile) : tile_inv c T -> tile_fit T -> is_new T = false -> tile_kept i (VStopped i) T (on_stopped now i T).
  Proof.
    intros IT TF N. unfold on_stopped. destruct (x_phase T) eqn:EP; try exact I. pose proof (ctl_stop_kept now i (x_ctl T)) as HC.
    assert (HV : match ctl_stop now i (x_ctl T) with DGo d' _ => c_next d' = c_next (x_ctl T) /\ c_values d' = c_values (x_ctl T) | _ => True end) by (unfold ctl_stop; destruct (negb (c_running (x_ctl T))); [cbn; auto|]; try destruct (negb _); cbn; auto).
    destruct (ctl_stop now i (x_ctl T)) as [d' new| |]; try exact I. destruct HV as [E1 E2]. cbn in *. apply (lift_phase c); auto; cbn; rewrite ?EP; try reflexivity; try discriminate; try lia; try (apply rt_same; cbn; tauto); try (intros ? []; fail).
    - apply (kept_more _ _ _ _ new); auto. rewrite map_app. apply incl_appl, incl_refl.
    - intros e [HE HP] HX HW. destruct e; try discriminate HP; try contradiction HX; cbn in HE; injection HE as ->; cbn in HW; try contradiction HW. rewrite !map_app, in_app_iff. right. now left.
  Qed.
  Lemma sent_case i number (T : dtile) : tile_inv c T -> tile_fit T -> is_new T = false -> tile_kept i (VSent i number) T (on_sent i number T).
  Proof.
    intros IT TF N.
    assert (GO : forall T' new, x_cores T' = x_cores T -> x_ctl T' = x_ctl T -> (u_event (x_rt T') = u_event (x_rt T) /\ (forall n, u_event (x_rt T) = Some (n, Triggered) -> n <> number) \/ forall n, u_event (x_rt T') <> Some (n, Triggered)) -> u_buffers (x_rt T') = u_buffers (x_rt T) -> u_sender (x_rt T') = u_sender (x_rt T) ->
      u_queue (x_rt T') = u_queue (x_rt T) -> (u_running (x_rt T') = true -> u_running (x_rt T) = true) -> x_ended T' = x_ended T ->
      x_phase T' = x_phase T \/ (exists n, x_phase T = TSentWait n) /\ x_phase T' = TStopEnd /\ In (VStopped i) (map snd new) -> tile_step i (VSent i number) T T' new).
    { intros T' new EC ED EV EB ES EQ ER EE HP. assert (AK : forall k id, asked T' k id -> asked T k id). { intros k id. unfold asked. rewrite EC. destruct HP as [-> |([n EP] & EP' & _)]; [auto|]. rewrite EP, EP'. tauto. }
      assert (NE : x_phase T' <> TNew) by (unfold is_new in N; destruct HP as [-> |(_ & -> & _)]; [intros E; rewrite E in N; discriminate|discriminate]).
      constructor; auto.
      - destruct TF as [F1 F2 F3 F4]. constructor; rewrite ?EC, ?ED; eauto. destruct HP as [-> |([n EP] & EP' & _)]; [auto|]. rewrite EP'. discriminate.
      - apply tile_join with (k := 0); auto.
        + unfold is_new. destruct (x_phase T'); auto. contradiction.
        + intros. now rewrite EC.
        + discriminate.
        + apply kept_same; [intros e _; unfold core_at; now rewrite EC|]. intros e HE. apply (core_out i 0); auto. discriminate.
        + rewrite ED. apply kept_same; auto. intros e HE. apply (ctl_out i); auto. discriminate.
        + apply rt_same; auto.
        + intros e [HE HX] HW. destruct e; try discriminate HX; cbn in HE; injection HE as ->; cbn in HW |- *; try contradiction HW.
          all: try (rewrite ED in HW; destruct HW as [H1 H2]; right; split; [split; [exact H1|apply AK; exact H2]|discriminate]).
          all: try (destruct EV as [[EV NN]|EV]; [right; rewrite EV in HW; split; [exact HW|intros E; injection E as E; exact (NN _ HW E)]|destruct (EV _ HW)]).
          all: destruct HP as [EP|([m EP] & EP' & HI)]; [rewrite EP in HW; rewrite ?EE in HW; right; split; [exact HW|discriminate]|rewrite EP' in HW; try contradiction HW; left; apply (in_map key) in HI; exact HI].
      - unfold is_new. destruct (x_phase T'); auto. contradiction.
      - constructor; auto. destruct HP as [EP|([m EP] & EP' & _)]; [auto|right]. rewrite EP, EP'. auto. }
    unfold on_sent. destruct (u_event (x_rt T)) as [[n []]|] eqn:EV; try (apply GO; auto; left; rewrite EV; split; auto; discriminate). destruct (Z.eqb_spec n number) as [-> |NN]; [|apply GO; auto; left; rewrite EV; split; auto; intros n' H; injection H as <-; exact NN].
    assert (KEEP : tile_step i (VSent i number) T (dt_rt T (rt_event (x_rt T) (Some (number, Processed)))) []) by (apply GO; auto; right; cbn; discriminate).
    destruct (x_phase T) eqn:EP; try exact KEEP. destruct (_ =? number); [|exact KEEP]. unfold router_stop. cbn. destruct (u_sender (x_rt T)) eqn:ES; try exact I. cbn. apply GO; cbn; auto; try discriminate.
    - right. discriminate.
    - right. rewrite ?EP. eauto 6.
  Qed.

  (** *** Tile.run starts *)
  Lemma tile_start_case b now i (T : dtile) : tile_inv c T -> tile_kept i (VTile i) T (tile_start c b now i T).
  Proof.
    intros IT. pose proof (ti_phase _ _ IT) as PI. unfold tile_start, phase_inv in *. destruct (x_phase T) eqn:EP; try exact I. destruct PI as (m & cs & pr & ->). destruct (negb _); [exact I|].
    cbn [tile_new x_cores x_ctl x_rt ctl_run rt_run ctl_new rt_new c_running u_running].
    match goal with |- context [next_instr b now i ?t] => set (T0 := t) end.
    assert (HN : exists ph cy l3, next_instr b now i T0 = (MkDTile (x_ctl T0) (x_rt T0) (x_cores T0) (x_prog T0) ph cy false, l3) /\ (ph = TDone /\ map snd l3 = [VTileEnd i] \/ ph = TOpNew /\ map snd l3 = [VOp i])).
    { unfold next_instr. destruct (x_prog T0) eqn:EQ; [exists TDone, (now - b), [soon (VTileEnd i)]|exists TOpNew, (x_cycles T0), [start (VOp i)]]; split; cbn; auto; unfold dt_phase; rewrite EQ; reflexivity. }
    destruct HN as (ph & cy & l3 & -> & HP). unfold tile_kept.
    assert (NA : forall k id, ~ asked (MkDTile (x_ctl T0) (x_rt T0) (x_cores T0) (x_prog T0) ph cy false) k id).
    { intros k id. unfold asked. cbn. destruct (k =? -1); [destruct HP as [[-> _]|[-> _]]; tauto|]. intros (_ & x & H1 & H2). rewrite nth_error_map in H1. destruct (nth_error cs (Z.to_nat k)); [|discriminate]. injection H1 as <-. cbn in H2. exact H2. }
    constructor.
    - constructor.
      + cbn. apply Forall_forall. intros x H. apply in_map_iff in H as (kp & <- & _). apply core_new_fit.
      + intros k k' id H. destruct (NA _ _ H).
      + intros k id H. destruct (NA _ _ H).
      + cbn. destruct HP as [[-> _]|[-> _]]; discriminate.
    - intros e HE HW. left. unfold of_tile in HE. rewrite !map_app, !in_app_iff. unfold tile_needs in HW. destruct (part_of e) eqn:EQ.
      + unfold is_new in HW. cbn in HW. destruct HP as [[-> _]|[-> _]]; discriminate.
      + destruct HW as [_ (HK & x & H1 & H2)]. cbn in H1. assert (HL : (Z.to_nat k < length (map core_new cs))%nat) by (apply nth_error_Some; congruence). rewrite nth_error_map in H1. destruct (nth_error cs (Z.to_nat k)) eqn:EN; [|discriminate]. injection H1 as <-. left.
        assert (HE' : e = VCore i k). { destruct e; try discriminate EQ; cbn in EQ, HE, H2; injection EQ as ->; injection HE as ->; try contradiction H2; try reflexivity; try (destruct s); try contradiction H2; cbn in H2; intuition (try discriminate; try congruence). }
        subst e. rewrite map_length in HL. apply in_map_iff. exists (VCore i k). split; auto. rewrite map_map. apply in_map_iff. exists (Z.to_nat k). split; [cbn; f_equal; lia|]. apply in_seq. rewrite map_length. lia.
      + destruct HW as [_ HW]. right. left. destruct e; try discriminate EQ; cbn in EQ, HE, HW; injection HE as ->; try contradiction HW; cbn; intuition (try discriminate; try congruence).
      + destruct HW as [_ HW]. do 2 right. left. destruct e; try discriminate EQ; cbn in EQ, HE, HW; injection HE as ->; try contradiction HW; cbn; intuition (try discriminate; try congruence).
      + destruct HW as [_ HW]. do 3 right. destruct HP as [[-> ->]|[-> ->]]; destruct e; try discriminate EQ; cbn in EQ, HE, HW; injection HE as ->; try contradiction HW; cbn; auto; try discriminate HW; destruct HW as [[] _].
      + contradiction.
    - unfold is_new. cbn. destruct HP as [[-> _]|[-> _]]; reflexivity.
    - constructor; cbn; auto. destruct HP as [[-> _]|[-> _]]; auto.
    - reflexivity.
  Qed.
End Own.
