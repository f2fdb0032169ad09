(** Which events a tile waits for (continues DesWait and DesWaitCtl). *)
From Coq Require Import Permutation.
From Verif Require Import PyBase PyLemmas CoreModel DramModel DramProofs RouterModel SystemModel StatsProofs DesModel DesWait DesWaitCtl.

(** ** Parts *)
(** A part of the state with events [E] that are waited for according to [W] before and to [W'] after events [fired]. *)
Record comp (E : ev -> Prop) (W W' : Z -> ev -> Prop) (now : Z) (fired : list ev) (new : sched) : Prop := {
  cp_keep : forall t e, E e -> immediate e = false -> W t e -> In (key e) fired \/ W' t e;
  cp_new : Forall (fun z => E (snd z) /\ W' (now + fst (fst z)) (snd z) /\ snd (fst z) = prio_of (snd z) /\
                            (tracked (snd z) = true -> In (key (snd z)) fired \/ forall t, ~ W t (snd z))) new;
  cp_nodup : NoDup (keys new) }.
Lemma comp_same (E : ev -> Prop) (W W' : Z -> ev -> Prop) now fired : (forall t e, E e -> W t e -> W' t e) -> comp E W W' now fired [].
Proof. intros H. constructor; [auto|constructor|constructor]. Qed.
Lemma keys_app l l' : keys (l ++ l') = keys l ++ keys l'.
Proof. unfold keys. now rewrite map_app, filter_app, map_app. Qed.
Lemma keys_perm l l' : Permutation l l' -> Permutation (keys l) (keys l').
Proof.
  intros H. unfold keys. apply Permutation_map. apply (Permutation_map snd) in H. revert H. generalize (map snd l) (map snd l'). clear.
  induction 1; cbn; auto. - destruct (tracked x); auto. - destruct (tracked x), (tracked y); auto. constructor. - eapply perm_trans; eauto.
Qed.
Lemma in_keys e l : In e (keys l) <-> exists z, In z l /\ tracked (snd z) = true /\ key (snd z) = e.
Proof.
  unfold keys. rewrite in_map_iff. split.
  - intros (x & E & H). apply filter_In in H. destruct H as [H T]. apply in_map_iff in H. destruct H as (z & <- & H). eauto.
  - intros (z & H & T & E). exists (snd z). split; auto. apply filter_In. split; auto. now apply in_map.
Qed.
Lemma comp_join (E1 E2 : ev -> Prop) (W W' : Z -> ev -> Prop) now fired new1 new2 new : (forall e e', E1 e -> E2 e' -> key e <> key e') ->
  comp E1 W W' now fired new1 -> comp E2 W W' now fired new2 -> Permutation new (new1 ++ new2) ->
  comp (fun e => E1 e \/ E2 e) W W' now fired new.
Proof.
  intros D [K1 N1 U1] [K2 N2 U2] PM. constructor.
  - intros t e [H|H] HI HW; auto.
  - apply Forall_forall. intros z H. apply (Permutation_in _ PM), in_app_or in H. rewrite Forall_forall in N1, N2. destruct H as [H|H]; [apply N1 in H|apply N2 in H]; intuition.
  - apply (Permutation_NoDup (Permutation_sym (keys_perm _ _ PM))). rewrite keys_app. apply nodup_app; auto.
    intros a H1 H2. apply in_keys in H1, H2. destruct H1 as (z & I1 & _ & E). destruct H2 as (z' & I2 & _ & E'). rewrite Forall_forall in N1, N2. apply (D (snd z) (snd z')); [apply N1, I1|apply N2, I2|congruence].
Qed.
Lemma comp_weaken (E E' : ev -> Prop) W W' V V' now fired new : (forall e, E e <-> E' e) -> (forall t e, E e -> (W t e <-> V t e)) -> (forall t e, E e -> (W' t e <-> V' t e)) ->
  comp E W W' now fired new -> comp E' V V' now fired new.
Proof.
  intros HE HW HW' [K N U]. constructor; auto.
  - intros t e H HI HV. apply HE in H. destruct (K t e H HI) as [H1|H1]; auto. + now apply HW. + right. now apply HW'.
  - eapply Forall_impl; [|exact N]. cbn. intros z (H1 & H2 & H3 & H4). repeat split; auto.
    + now apply HE.
    + now apply HW'.
    + intros HT. destruct (H4 HT) as [H5|H5]; auto. right. intros t HV. apply (H5 t). now apply HW.
Qed.

(** ** The events of a tile *)
Definition ev_tile (e : ev) : option Z :=
  match e with
  | VMonitor | VMonitorInt | VAllTiles | VNodeEnd | VRunEnd => None
  | VTile i | VCore i _ | VStage i _ _ | VPipe i _ | VPut i _ _ | VGot i _ _ | VTime i _ _ | VLoadNew i _ | VLoadTime i _ | VLoaded i _
  | VStoreNew i _ | VStoreTime i _ | VStored i _ | VStageDone i _ _ | VPipeDone i _ | VCoreEnd i _ | VHandler i | VReqPut i | VReqGot i
  | VHandlerInt i | VThread i _ | VGrant i | VThreadTime i | VRelease i | VDone i _ _ | VSender i | VSendPut i | VSendGot i | VTravel i
  | VOffer i | VTaken i | VArrived i | VSent i _ | VSenderInt i | VOp i | VOpEnd i | VTileEnd i | VAdd i | VAddTime i | VAdded i | VRead i
  | VPopped i | VReadEnd i | VAllCores i | VStop i | VPoll i | VPollTime i | VEmpty i | VStopped i => Some i
  end.
Inductive part := PTile | PCore (k : Z) | PCtl | PRt | POwn | PNode.
Definition part_of (e : ev) : part :=
  match e with
  | VMonitor | VMonitorInt | VAllTiles | VNodeEnd | VRunEnd => PNode
  | VTile _ => PTile
  | VCore _ k | VStage _ k _ | VPipe _ k | VPut _ k _ | VGot _ k _ | VTime _ k _ | VLoadNew _ k | VLoadTime _ k | VLoaded _ k
  | VStoreNew _ k | VStoreTime _ k | VStored _ k | VStageDone _ k _ | VPipeDone _ k | VCoreEnd _ k => PCore k
  | VHandler _ | VReqPut _ | VReqGot _ | VHandlerInt _ | VThread _ _ | VGrant _ | VThreadTime _ | VRelease _ => PCtl
  | VSender _ | VSendPut _ | VSendGot _ | VTravel _ | VOffer _ | VTaken _ | VArrived _ | VSenderInt _ => PRt
  | _ => POwn
  end.
Lemma key_part e : part_of (key e) = part_of e.
Proof. now destruct e. Qed.
Lemma key_tile e : ev_tile (key e) = ev_tile e.
Proof. now destruct e. Qed.
Lemma core_ev_iff i k e : core_ev i k e <-> ev_tile e = Some i /\ part_of e = PCore k.
Proof. destruct e; cbn; split; intros H; try contradiction; destruct H as [H1 H2]; try discriminate; split; congruence. Qed.
Lemma ctl_ev_iff i e : ctl_ev i e <-> ev_tile e = Some i /\ part_of e = PCtl.
Proof. destruct e; cbn; intuition congruence. Qed.
Lemma rt_ev_iff i e : rt_ev i e <-> ev_tile e = Some i /\ part_of e = PRt.
Proof. destruct e; cbn; intuition congruence. Qed.

Section Tile.
  Context {K M : Type}.
  Variable P : machine K M.
  Variable c : sys_cfg.
  Notation dcore := (dcore K). Notation dctl := (dctl M). Notation dtile := (dtile K M). Notation dnode := (dnode K M).

  (** A process of the tile waits for the completion of request [id] of core [k] (-1: of the tile itself). *)
  Definition asked (T : dtile) (k id : Z) : Prop :=
    if k =? -1 then match x_phase T with TSendRead id' | TRecvWrite id' => id' = id | _ => False end
    else 0 <= k /\ exists x, nth_error (x_cores T) (Z.to_nat k) = Some x /\ core_asked id x.
  Definition own_waits (t : Z) (e : ev) (T : dtile) : Prop :=
    match e with
    | VDone _ k id => In id (map fst (c_values (x_ctl T))) /\ asked T k id
    | VSent _ _ => True
    | VOp _ => match x_phase T with TOpNew => True | _ => False end
    | VOpEnd _ => match x_phase T with TOpEnd at_ => t = at_ | _ => False end
    | VTileEnd _ => match x_phase T with TDone => x_ended T = false | _ => False end
    | VAdd _ => match x_phase T with TAddNew _ _ => True | _ => False end
    | VAddTime _ => match x_phase T with TAdding _ since => since + w_data_lat (y_net c) <= t | _ => False end
    | VAdded _ => match x_phase T with TAdded _ => True | _ => False end
    | VRead _ => match x_phase T with TReadNew _ => True | _ => False end
    | VPopped _ => match x_phase T with TPopped _ _ _ => True | _ => False end
    | VReadEnd _ => match x_phase T with TReadEnd _ _ _ => True | _ => False end
    | VAllCores _ => match x_phase T with THaltAll => True | _ => False end
    | VStop _ => match x_phase T with TStopNew => True | _ => False end
    | VPoll _ | VPollTime _ => match x_phase T with TPolling next => next <= t | _ => False end
    | VEmpty _ => match x_phase T with TEmptied => True | _ => False end
    | VStopped _ => match x_phase T with TStopEnd => True | _ => False end
    | _ => False
    end.
  Definition core_part (b k t : Z) (e : ev) (T : dtile) : Prop :=
    0 <= k /\ exists x, nth_error (x_cores T) (Z.to_nat k) = Some x /\ core_waits b t e x.
  Definition tile_waits (b t : Z) (e : ev) (T : dtile) : Prop :=
    match part_of e with
    | PTile => is_new T = true /\ t = b
    | PCore k => is_new T = false /\ core_part b k t e T
    | PCtl => is_new T = false /\ ctl_waits c t e (x_ctl T)
    | PRt => is_new T = false /\ rt_waits c t e (x_rt T)
    | POwn => is_new T = false /\ own_waits t e T
    | PNode => False
    end.
  Definition send_phase (p : dphase) : Prop := match p with TSendRead _ | TAddNew _ _ | TAdding _ _ | TAdded _ => True | _ => False end.
  Definition recv_phase (p : dphase) : Prop := match p with TReadNew _ | TReading _ _ | TPopped _ _ _ | TReadEnd _ _ _ | TRecvWrite _ => True | _ => False end.
  Definition phase_inv (T : dtile) : Prop :=
    match x_phase T with
    | TNew => exists m cs p, T = tile_new m cs p
    | TOpNew => x_prog T <> []
    | TPolling _ => u_running (x_rt T) = true
    | TEmptied => u_running (x_rt T) = true /\ u_queue (x_rt T) = []
    | TSentWait m => u_running (x_rt T) = true /\ u_queue (x_rt T) = [] /\ sent_ok m (x_rt T)
    | p => (send_phase p -> exists a g w v r, x_prog T = TSend a g w v :: r) /\ (recv_phase p -> exists a g w v r, x_prog T = TRecv a g w v :: r)
    end.
  Record tile_inv (T : dtile) : Prop := {
    ti_cores : Forall core_inv (x_cores T);
    ti_ctl : ctl_inv (x_ctl T);
    ti_rt : rt_inv c (x_rt T);
    ti_asked : forall r, In r (requests (x_ctl T)) -> asked T (q_core r) (q_id r);
    ti_phase : phase_inv T;
    ti_ended : x_phase T <> TDone -> x_ended T = false }.

  Record tile_moves (b now i : Z) (fired : list ev) (T T' : dtile) (new : sched) : Prop := {
    tm_inv : tile_inv T';
    tm_old : is_new T' = false;
    tm_comp : comp (fun e => ev_tile e = Some i) (fun t e => tile_waits b t e T) (fun t e => tile_waits b t e T') now fired new;
    tm_ended : x_ended T = true -> x_ended T' = true;
    tm_imm : forall t e, ev_tile e = Some i -> immediate e = true -> tile_waits b t e T' -> tile_waits b t e T /\ ~ In e fired \/ urgent_new e fired new;
    tm_handler : c_handler (x_ctl T') = HNew -> (is_new T = false /\ c_handler (x_ctl T) = HNew /\ ~ In (VHandler i) fired) \/ In (start (VHandler i)) new;
    tm_sender : u_sender (x_rt T') = ZNew -> (is_new T = false /\ u_sender (x_rt T) = ZNew /\ ~ In (VSender i) fired) \/ In (start (VSender i)) new;
    tm_got : forall p s, u_sender (x_rt T') = ZGot p s -> u_sender (x_rt T) = ZGot p s /\ ~ In (VSendGot i) fired \/ In (soon (VSendGot i)) new;
    tm_order : forall p s, x_phase T' = TEmptied -> u_sender (x_rt T') = ZGot p s ->
      u_sender (x_rt T) = ZGot p s /\ ~ In (VSendGot i) fired /\ (x_phase T = TEmptied /\ ~ In (VEmpty i) fired \/ In (soon (VEmpty i)) new) }.
  Definition tile_good (b now i : Z) (fired : list ev) (T : dtile) (r : dres dtile) : Prop :=
    match r with DGo T' new => tile_moves b now i fired T T' new | DRaise _ => True | DStuck => False end.

  (** Assembly of the parts. *)
  Lemma tile_comp b now i fired (T T' : dtile) k newk newd newr newo new : is_new T = false -> is_new T' = false ->
    (forall k', 0 <= k' -> k' <> k -> nth_error (x_cores T') (Z.to_nat k') = nth_error (x_cores T) (Z.to_nat k')) ->
    comp (core_ev i k) (fun t e => core_part b k t e T) (fun t e => core_part b k t e T') now fired newk ->
    comp (ctl_ev i) (fun t e => ctl_waits c t e (x_ctl T)) (fun t e => ctl_waits c t e (x_ctl T')) now fired newd ->
    comp (rt_ev i) (fun t e => rt_waits c t e (x_rt T)) (fun t e => rt_waits c t e (x_rt T')) now fired newr ->
    comp (fun e => ev_tile e = Some i /\ part_of e = POwn) (fun t e => own_waits t e T) (fun t e => own_waits t e T') now fired newo ->
    Permutation new (newk ++ newd ++ newr ++ newo) ->
    comp (fun e => ev_tile e = Some i) (fun t e => tile_waits b t e T) (fun t e => tile_waits b t e T') now fired new.
  Proof.
    intros N N' HO HK HD HR HP PM.
    assert (CK : comp (fun e => ev_tile e = Some i /\ part_of e = PCore k) (fun t e => tile_waits b t e T) (fun t e => tile_waits b t e T') now fired newk).
    { eapply comp_weaken; [apply core_ev_iff| | |exact HK]; intros t e H; apply core_ev_iff in H; destruct H as [_ H]; unfold tile_waits; rewrite H; tauto. }
    assert (CD : comp (fun e => ev_tile e = Some i /\ part_of e = PCtl) (fun t e => tile_waits b t e T) (fun t e => tile_waits b t e T') now fired newd).
    { eapply comp_weaken; [apply ctl_ev_iff| | |exact HD]; intros t e H; apply ctl_ev_iff in H; destruct H as [_ H]; unfold tile_waits; rewrite H; tauto. }
    assert (CR : comp (fun e => ev_tile e = Some i /\ part_of e = PRt) (fun t e => tile_waits b t e T) (fun t e => tile_waits b t e T') now fired newr).
    { eapply comp_weaken; [apply rt_ev_iff| | |exact HR]; intros t e H; apply rt_ev_iff in H; destruct H as [_ H]; unfold tile_waits; rewrite H; tauto. }
    assert (CP : comp (fun e => ev_tile e = Some i /\ part_of e = POwn) (fun t e => tile_waits b t e T) (fun t e => tile_waits b t e T') now fired newo).
    { eapply comp_weaken; [intros e; apply iff_refl| | |exact HP]; intros t e [_ H]; unfold tile_waits; rewrite H; tauto. }
    assert (CO : comp (fun e => ev_tile e = Some i /\ match part_of e with PTile | PNode => True | PCore k' => k' <> k | _ => False end) (fun t e => tile_waits b t e T) (fun t e => tile_waits b t e T') now fired []).
    { apply comp_same. intros t e [_ H]. unfold tile_waits. rewrite N, N'. destruct (part_of e) as [|k'| | | |]; try contradiction; auto.
      intros [_ [H1 [x [H2 H3]]]]. split; [reflexivity|]. split; auto. exists x. rewrite HO; auto. }
    assert (DJ : forall p q e e', part_of e = p -> part_of e' = q -> p <> q -> key e <> key e').
    { intros p q e e' H1 H2 H3 H4. apply H3. rewrite <- H1, <- H2, <- (key_part e), <- (key_part e'). congruence. }
    assert (J1 := fun D => comp_join _ _ _ _ now fired newr newo (newr ++ newo) D CR CP (Permutation_refl _)).
    specialize (J1 ltac:(intros e e' [_ H1] [_ H2]; apply (DJ _ _ _ _ H1 H2); discriminate)).
    assert (J2 := fun D => comp_join _ _ _ _ now fired newd _ (newd ++ newr ++ newo) D CD J1 (Permutation_refl _)).
    specialize (J2 ltac:(intros e e' [_ H1] [[_ H2]|[_ H2]]; apply (DJ _ _ _ _ H1 H2); discriminate)).
    assert (J3 := fun D => comp_join _ _ _ _ now fired newk _ (newk ++ newd ++ newr ++ newo) D CK J2 (Permutation_refl _)).
    specialize (J3 ltac:(intros e e' [_ H1] [[_ H2]|[[_ H2]|[_ H2]]]; apply (DJ _ _ _ _ H1 H2); discriminate)).
    assert (J4 := fun D => comp_join _ _ _ _ now fired [] _ new D CO J3 PM).
    specialize (J4 ltac:(intros e e' [_ H1] [[_ H2]|[[_ H2]|[[_ H2]|[_ H2]]]]; intros E; rewrite <- (key_part e), E, key_part, H2 in H1; congruence)).
    eapply comp_weaken; [|intros; apply iff_refl|intros; apply iff_refl|exact J4].
    intros e. split; [tauto|]. intros H. destruct (part_of e) as [|k'| | | |] eqn:EP; try tauto. destruct (Z.eq_dec k' k) as [-> |NE]; tauto.
  Qed.

  (** ** Changes of one part *)
  Definition calm (e : ev) : bool := match e with VHandler _ | VSender _ | VSendGot _ | VEmpty _ | VThread _ _ | VHandlerInt _ | VSenderInt _ => false | _ => true end.
  Lemma calm_out fired e : Forall (fun f => calm f = true) fired -> calm e = false -> ~ In e fired.
  Proof. intros H E I. rewrite Forall_forall in H. specialize (H _ I). congruence. Qed.
  Lemma imm_calm e : immediate e = true -> calm e = false.
  Proof. destruct e; discriminate || reflexivity. Qed.
  Lemma imm_part e : immediate e = true -> part_of e = PCtl \/ part_of e = PRt.
  Proof. destruct e; cbn; auto; discriminate. Qed.
  (** Only the memory, the items, the pending requests and the statistics change. *)
  Definition ctl_like (d d' : dctl) : Prop := same_waits d d' /\ c_bus d' = c_bus d /\ c_values d' = c_values d.
  Lemma like_waits d d' t e : ctl_like d d' -> ctl_waits c t e d <-> ctl_waits c t e d'.
  Proof. intros ((E1 & E2 & E3) & E4 & E5). unfold ctl_waits. rewrite E1, E2, E3, E4. destruct e; tauto. Qed.
  Lemma like_refl d : ctl_like d d.
  Proof. repeat split. Qed.
  Definition req_puts (i : Z) (l : sched) : Prop := Forall (fun z => z = soon (VReqPut i)) l.
  Lemma plain_keys (l : sched) : Forall (fun z => tracked (snd z) = false) l -> keys l = [].
  Proof. unfold keys. induction 1 as [|z l H _ IH]; [reflexivity|]. cbn. now rewrite H. Qed.
  Lemma like_comp now i fired d d' l : ctl_like d d' -> req_puts i l -> comp (ctl_ev i) (fun t e => ctl_waits c t e d) (fun t e => ctl_waits c t e d') now fired l.
  Proof.
    intros L H. constructor.
    - intros t e _ _ HW. right. now apply (like_waits d d').
    - eapply Forall_impl; [|exact H]. intros z ->. cbn. repeat split; auto. discriminate.
    - rewrite plain_keys; [constructor|]. eapply Forall_impl; [|exact H]. intros z ->. reflexivity.
  Qed.
  Lemma core_moves_comp b now i k fired (x x' : dcore) new : core_moves b now i k fired x x' new ->
    comp (core_ev i k) (fun t e => core_waits b t e x) (fun t e => core_waits b t e x') now fired new.
  Proof.
    intros H. constructor.
    - intros t e HE _ HW. exact (km_keep _ _ _ _ _ _ _ _ H t e HE HW).
    - eapply Forall_impl; [|exact (km_new _ _ _ _ _ _ _ _ H)]. cbn. intros z (H1 & H2 & H3 & H4). repeat split; auto.
    - exact (km_nodup _ _ _ _ _ _ _ _ H).
  Qed.

  Lemma lift_core b now i fired (T : dtile) k (x x' : dcore) d' newk newd new : tile_inv T -> is_new T = false -> 0 <= k -> nth_error (x_cores T) (Z.to_nat k) = Some x ->
    core_inv x' -> comp (core_ev i k) (fun t e => core_waits b t e x) (fun t e => core_waits b t e x') now fired newk ->
    (forall id, core_asked id x -> core_asked id x' \/ In (VDone i k id) fired /\ In id (map fst (c_values (x_ctl T)))) ->
    ctl_inv d' -> ctl_like (x_ctl T) d' ->
    (forall r, In r (requests d') -> In r (requests (x_ctl T)) \/ q_core r = k /\ core_asked (q_id r) x') ->
    req_puts i newd -> Forall (fun f => calm f = true) fired -> Permutation new (newk ++ newd) ->
    tile_moves b now i fired T (dt_core (dt_ctl T d') k x') new.
  Proof.
    intros [IC ID IR IA IP IE] N HK EN KI HC HA DI DL HR HN CF PM.
    assert (EN' : nth_error (upd (x_cores T) (Z.to_nat k) x') (Z.to_nat k) = Some x') by (rewrite nth_error_upd, Nat.eqb_refl, EN; reflexivity).
    assert (EO : forall k', 0 <= k' -> k' <> k -> nth_error (upd (x_cores T) (Z.to_nat k) x') (Z.to_nat k') = nth_error (x_cores T) (Z.to_nat k')).
    { intros k' H1 H2. rewrite nth_error_upd. destruct (Nat.eqb_spec (Z.to_nat k) (Z.to_nat k')); [lia|reflexivity]. }
    pose proof DL as ((E1 & E2 & E3) & E4 & E5).
    assert (AK : forall k' id, asked T k' id -> asked (dt_core (dt_ctl T d') k x') k' id \/ In (VDone i k' id) fired /\ In id (map fst (c_values (x_ctl T)))).
    { intros k' id. unfold asked. cbn. destruct (Z.eqb_spec k' (-1)) as [|NE]; [auto|]. intros [H1 [y [H2 H3]]]. destruct (Z.eq_dec k' k) as [-> |NK].
      - rewrite EN in H2. injection H2 as <-. destruct (HA id H3) as [H4|H4]; [left; split; auto; exists x'; auto|auto].
      - left. split; auto. exists y. split; auto. rewrite EO; auto. }
    constructor.
    - constructor; cbn; auto.
      + apply Forall_upd; auto.
      + intros r H. destruct (HR r H) as [H1|[H1 H2]].
        * destruct (AK _ _ (IA r H1)) as [H2|[_ H2]]; auto. exfalso. apply (ci_next _ ID r H1). exact H2.
        * unfold asked. cbn. destruct (Z.eqb_spec (q_core r) (-1)); [lia|]. rewrite H1. split; auto. exists x'. auto.
      + unfold phase_inv, is_new in *. cbn. destruct (x_phase T); auto. discriminate.
    - exact N.
    - apply (tile_comp b now i fired T _ k newk newd [] []); auto.
      + eapply comp_weaken; [intros; apply iff_refl| | |exact HC]; intros t e _; unfold core_part; cbn; split.
        * intros H. split; auto. exists x. auto.
        * intros [_ [y [H1 H2]]]. rewrite EN in H1. injection H1 as <-. exact H2.
        * intros H. split; auto. exists x'. auto.
        * intros [_ [y [H1 H2]]]. rewrite EN' in H1. injection H1 as <-. exact H2.
      + now apply like_comp.
      + apply comp_same. auto.
      + constructor; [|constructor|constructor]. intros t e [H1 H2] HI HW. destruct e; try discriminate H2; try (right; exact HW).
        cbn in HW |- *. destruct HW as [HV HW]. destruct (AK _ _ HW) as [H3|H3]; [right|left; cbn in H1; injection H1 as ->; apply H3]. rewrite E5. auto.
      + rewrite app_nil_r. exact PM.
    - auto.
    - intros t e HE HI HW. left. split; [|apply calm_out; auto; now apply imm_calm]. unfold tile_waits in *. destruct (imm_part e HI) as [H|H]; rewrite H in *; cbn in HW; destruct HW as [_ HW]; split; auto.
      apply (like_waits _ _ t e DL). exact HW.
    - cbn. rewrite E2. intros H. left. split; auto. split; auto. now apply calm_out.
    - cbn. intros H. left. split; auto. split; auto. now apply calm_out.
    - cbn. intros p s H. left. split; auto. now apply calm_out.
    - cbn. intros p s H1 H2. split; auto. split; [now apply calm_out|]. left. split; auto. now apply calm_out.
  Qed.
  Lemma set_ctl_same (T : dtile) : dt_ctl T (x_ctl T) = T.
  Proof. now destruct T. Qed.
  Lemma lift_core_good b now i fired (T : dtile) k (x : dcore) r : tile_inv T -> is_new T = false -> 0 <= k -> nth_error (x_cores T) (Z.to_nat k) = Some x ->
    core_good b now i k fired x r -> Forall (fun f => calm f = true) fired ->
    tile_good b now i fired T (dmap (fun dx => dt_core (dt_ctl T (fst dx)) k (snd dx)) (dmap (fun x' => (x_ctl T, x')) r)).
  Proof.
    intros IT N HK EN HG CF. destruct r as [x' new|e|]; cbn in *; auto. apply (lift_core b now i fired T k x x' (x_ctl T) new [] new); auto.
    - exact (km_inv _ _ _ _ _ _ _ _ HG).
    - exact (core_moves_comp _ _ _ _ _ _ _ _ HG).
    - intros id H. left. exact (km_asked _ _ _ _ _ _ _ _ HG id H).
    - apply (ti_ctl _ IT).
    - apply like_refl.
    - constructor.
    - rewrite app_nil_r. reflexivity.
  Qed.

  Definition quiet_ctl (i : Z) (fired : list ev) : Prop := forall e, In e fired -> ctl_ev i e.
  Lemma ctl_moves_comp now i fired (d d' : dctl) new : ctl_moves c now i fired d d' new ->
    comp (ctl_ev i) (fun t e => ctl_waits c t e d) (fun t e => ctl_waits c t e d') now fired new.
  Proof. intros []. constructor; auto. Qed.
  Lemma lift_ctl b now i fired (T : dtile) d' new : tile_inv T -> is_new T = false -> ctl_moves c now i fired (x_ctl T) d' new -> quiet_ctl i fired ->
    tile_moves b now i fired T (dt_ctl T d') new.
  Proof.
    intros [IC ID IR IA IP IE] N HM HQ. pose proof (cm_values _ _ _ _ _ _ _ HM) as EV.
    assert (AK : forall k' id, asked T k' id <-> asked (dt_ctl T d') k' id) by (intros; unfold asked; cbn; tauto).
    assert (OUT : forall e, part_of e <> PCtl -> ~ In e fired) by (intros e H HI; apply HQ, ctl_ev_iff in HI; now apply H).
    constructor.
    - constructor; cbn; auto.
      + exact (cm_inv _ _ _ _ _ _ _ HM).
      + intros r H. apply AK. apply IA. destruct (cm_req _ _ _ _ _ _ _ HM) as [l PM]. apply (Permutation_in _ (Permutation_sym PM)). apply in_or_app. now right.
      + unfold phase_inv, is_new in *. cbn. destruct (x_phase T); auto. discriminate.
    - exact N.
    - apply (tile_comp b now i fired T _ 0 [] new [] []); auto.
      + apply comp_same. auto.
      + now apply ctl_moves_comp.
      + apply comp_same. auto.
      + apply comp_same. intros t e _. destruct e; cbn; try tauto. rewrite EV. tauto.
      + cbn. rewrite app_nil_r. reflexivity.
    - auto.
    - intros t e HE HI HW. unfold tile_waits in *. destruct (imm_part e HI) as [H|H]; rewrite H in *; cbn in HW; destruct HW as [_ HW].
      + destruct (cm_imm _ _ _ _ _ _ _ HM t e) as [[H1 H2]|H1]; auto. apply ctl_ev_iff. auto.
      + left. split; auto. apply OUT. congruence.
    - cbn. intros H. apply (cm_fresh _ _ _ _ _ _ _ HM) in H. left. tauto.
    - cbn. intros H. left. split; auto. split; auto. now apply OUT.
    - cbn. intros p s H. left. split; auto. now apply OUT.
    - cbn. intros p s H1 H2. split; auto. split; [now apply OUT|]. left. split; auto. now apply OUT.
  Qed.
  Lemma lift_ctl_good b now i fired (T : dtile) r : tile_inv T -> is_new T = false -> ctl_good c now i fired (x_ctl T) r -> quiet_ctl i fired ->
    tile_good b now i fired T (dmap (dt_ctl T) r).
  Proof. intros IT N HG HQ. destruct r as [d' new|e|]; cbn in *; auto. now apply lift_ctl. Qed.

  Definition quiet_rt (i : Z) (fired : list ev) : Prop := forall e, In e fired -> rt_ev i e.
  Definition sents (i : Z) (l : sched) : Prop := Forall (fun z => exists n, z = soon (VSent i n)) l.
  Lemma lift_rt b now i fired (T : dtile) u' newr newo : tile_inv T -> is_new T = false -> rt_moves c now i fired (x_rt T) u' newr -> quiet_rt i fired -> sents i newo ->
    tile_moves b now i fired T (dt_rt T u') (newo ++ newr).
  Proof.
    intros [IC ID IR IA IP IE] N HM HQ HS.
    assert (OUT : forall e, part_of e <> PRt -> ~ In e fired) by (intros e H HI; apply HQ, rt_ev_iff in HI; now apply H).
    constructor.
    - constructor; cbn; auto.
      + exact (rm_inv _ _ _ _ _ _ _ HM).
      + unfold phase_inv, is_new in *. cbn. pose proof (rm_running _ _ _ _ _ _ _ HM) as ER. pose proof (rm_queue _ _ _ _ _ _ _ HM) as EQ. pose proof (rm_sent _ _ _ _ _ _ _ HM) as ES.
        destruct (x_phase T); auto; try discriminate; rewrite ?ER; intuition auto.
    - exact N.
    - apply (tile_comp b now i fired T _ 0 [] [] newr newo); auto.
      + apply comp_same. auto.
      + apply comp_same. auto.
      + destruct HM; constructor; auto.
      + constructor.
        * intros t e _ _ H. right. destruct e; exact H.
        * eapply Forall_impl; [|exact HS]. intros z [n ->]. cbn. repeat split; auto. discriminate.
        * rewrite plain_keys; [constructor|]. eapply Forall_impl; [|exact HS]. intros z [n ->]. reflexivity.
      + cbn. apply Permutation_app_comm.
    - auto.
    - intros t e HE HI HW. left. unfold tile_waits in *. destruct (imm_part e HI) as [H|H]; rewrite H in *; cbn in HW; destruct HW as [_ HW].
      + split; auto. apply OUT. congruence.
      + destruct (rm_imm _ _ _ _ _ _ _ HM t e) as [H1 H2]; auto. apply rt_ev_iff. auto.
    - cbn. intros H. left. split; auto. split; auto. now apply OUT.
    - cbn. intros H. apply (rm_fresh _ _ _ _ _ _ _ HM) in H. left. tauto.
    - cbn. intros p s H. apply (rm_got _ _ _ _ _ _ _ HM) in H. destruct H as [H|[H _]]; auto. right. apply in_or_app. now right.
    - cbn. intros p s H1 H2. apply (rm_got _ _ _ _ _ _ _ HM) in H2. destruct H2 as [[H2 H3]|[_ H3]].
      + split; auto. split; auto. left. split; auto. now apply OUT.
      + exfalso. apply H3. unfold phase_inv in IP. rewrite H1 in IP. apply IP.
  Qed.
  Lemma lift_rt_good b now i fired (T : dtile) r : tile_inv T -> is_new T = false -> rt_good c now i fired (x_rt T) r -> quiet_rt i fired ->
    tile_good b now i fired T (dmap (dt_rt T) r).
  Proof. intros IT N HG HQ. destruct r as [u' new|e|]; cbn in *; auto. apply (lift_rt b now i fired T u' new []); auto. constructor. Qed.

  Definition own_comp (now i : Z) (fired : list ev) (T T' : dtile) (new : sched) : Prop :=
    comp (fun e => ev_tile e = Some i /\ part_of e = POwn) (fun t e => own_waits t e T) (fun t e => own_waits t e T') now fired new.
  Definition send_puts (i : Z) (l : sched) : Prop := Forall (fun z => z = soon (VSendPut i)) l.
  Lemma lift_own b now i fired (T T' : dtile) newd newr newo new : tile_inv T -> is_new T = false -> is_new T' = false -> x_cores T' = x_cores T ->
    ctl_inv (x_ctl T') -> ctl_like (x_ctl T) (x_ctl T') ->
    (forall r, In r (requests (x_ctl T')) -> In r (requests (x_ctl T)) \/ asked T' (q_core r) (q_id r)) ->
    (forall id, asked T (-1) id -> asked T' (-1) id \/ In id (map fst (c_values (x_ctl T)))) ->
    u_running (x_rt T') = u_running (x_rt T) -> u_sender (x_rt T') = u_sender (x_rt T) -> u_event (x_rt T') = u_event (x_rt T) ->
    phase_inv T' -> (x_phase T' <> TDone -> x_ended T' = false) -> (x_ended T = true -> x_ended T' = true) ->
    (forall e, In e fired -> part_of e = POwn) -> own_comp now i fired T T' newo ->
    (x_phase T' = TEmptied -> x_phase T = TEmptied /\ ~ In (VEmpty i) fired \/ In (soon (VEmpty i)) new) ->
    req_puts i newd -> send_puts i newr -> Permutation new (newd ++ newr ++ newo) -> tile_moves b now i fired T T' new.
  Proof.
    intros [IC ID IR IA IP IE] N N' EC DI DL HR HA E1 E2 E3 PI HE1 HE2 HQ HC HO HD HS PM. pose proof DL as ((F1 & F2 & F3) & F4 & F5).
    assert (OUT : forall e, part_of e <> POwn -> ~ In e fired) by (intros e H HI; now apply HQ in HI).
    constructor.
    - constructor; auto.
      + now rewrite EC.
      + destruct IR as [R1 R2 R3]. constructor; unfold under_way in *; rewrite ?E1, ?E2, ?E3 in *; auto.
      + intros r H. destruct (HR r H) as [H1|H1]; auto. pose proof (IA r H1) as H2. destruct (Z.eq_dec (q_core r) (-1)) as [EQ|NE].
        * rewrite EQ in *. destruct (HA _ H2) as [H3|H3]; auto. exfalso. apply (ci_next _ ID r H1). exact H3.
        * unfold asked in *. destruct (Z.eqb_spec (q_core r) (-1)); [contradiction|]. now rewrite EC.
    - exact N'.
    - apply (tile_comp b now i fired T T' 0 [] newd newr newo); auto.
      + intros. now rewrite EC.
      + apply comp_same. intros t e _. unfold core_part. now rewrite EC.
      + now apply like_comp.
      + constructor.
        * intros t e _ _ H. right. unfold rt_waits in *. rewrite E1, E2. exact H.
        * eapply Forall_impl; [|exact HS]. intros z ->. cbn. repeat split; auto. discriminate.
        * rewrite plain_keys; [constructor|]. eapply Forall_impl; [|exact HS]. intros z ->. reflexivity.
    - exact HE2.
    - intros t e HE HI HW. left. split; [|apply OUT; destruct (imm_part e HI) as [H|H]; rewrite H; discriminate]. unfold tile_waits in *. destruct (imm_part e HI) as [H|H]; rewrite H in *; destruct HW as [_ HW]; split; auto.
      + apply (like_waits _ _ t e DL). exact HW.
      + unfold rt_waits in *. now rewrite E1, E2 in HW.
    - rewrite F2. intros H. left. split; auto. split; auto. now apply OUT.
    - rewrite E2. intros H. left. split; auto. split; auto. now apply OUT.
    - rewrite E2. intros p s H. left. split; auto. now apply OUT.
    - rewrite E2. intros p s H1 H2. split; auto. split; [now apply OUT|]. auto.
  Qed.
  (** Only the phase (and what does not matter) changes. *)
  Lemma lift_phase b now i e (T T' : dtile) newr newo new : tile_inv T -> is_new T = false -> is_new T' = false -> x_cores T' = x_cores T -> x_ctl T' = x_ctl T ->
    (forall id, asked T (-1) id -> asked T' (-1) id \/ In id (map fst (c_values (x_ctl T)))) ->
    u_running (x_rt T') = u_running (x_rt T) -> u_sender (x_rt T') = u_sender (x_rt T) -> u_event (x_rt T') = u_event (x_rt T) ->
    phase_inv T' -> (x_phase T' <> TDone -> x_ended T' = false) -> (x_ended T = true -> x_ended T' = true) ->
    part_of e = POwn -> own_comp now i [e] T T' newo ->
    (x_phase T' = TEmptied -> In (soon (VEmpty i)) new) ->
    send_puts i newr -> new = newr ++ newo -> tile_moves b now i [e] T T' new.
  Proof.
    intros IT N N' EC ED HA E1 E2 E3 PI HE1 HE2 HQ HC HO HS ->. apply (lift_own b now i [e] T T' [] newr newo); auto; try rewrite ED.
    - apply (ti_ctl _ IT).
    - apply like_refl.
    - auto.
    - intros e' [<- |[]]. exact HQ.
    - constructor.
  Qed.
  Ltac own_tac EP := let t := fresh "t" in let e := fresh "e" in let H1 := fresh in let H2 := fresh in let HI := fresh in let HW := fresh in
    constructor;
    [ intros t e [H1 H2] HI HW; destruct e; try discriminate H2; cbn in H1; injection H1 as ->; cbn in HW |- *; try (rewrite EP in HW);
      first [exfalso; exact HW | left; now left | right; exact HW
            | destruct HW as [HV HW]; unfold asked in *; cbn in *; rewrite EP in HW; destruct (_ =? -1); [contradiction HW|right; split; [exact HV|exact HW]] ]
    | repeat (apply Forall_cons || apply Forall_nil); cbn; repeat split; auto; try lia; try (intros _; first [left; now left | right; intros ? HX; cbn in HX; rewrite EP in HX; exact HX])
    | cbv [keys tracked key map filter snd start soon later]; repeat constructor; cbn; intuition congruence ].
  Ltac own_start IT EP := pose proof (ti_phase _ IT) as PI; unfold phase_inv in PI; rewrite EP in PI; pose proof (ti_ended _ IT) as EE; rewrite EP in EE; specialize (EE ltac:(discriminate)).
  Ltac no_ask EP := let id := fresh in intros id; unfold asked; cbn; rewrite EP; contradiction.

  Ltac phase_go IT N EP T' newr newo hp := match goal with |- tile_moves ?b ?now ?i [?e] ?T _ ?new =>
    apply (lift_phase b now i e T T' newr newo new IT N);
    [reflexivity|reflexivity|reflexivity|no_ask EP|reflexivity|reflexivity|reflexivity|hp|cbn; auto; try (intros HX; contradiction HX; reflexivity)|cbn; auto|reflexivity|own_tac EP
    |cbn; first [discriminate | intros _; auto; fail | intros _; now left] |repeat constructor|reflexivity] end.
  Ltac old T EP := assert (N : is_new T = false) by (unfold is_new; now rewrite EP).

  Lemma next_instr_moves b now i (T : dtile) at_ : tile_inv T -> x_phase T = TOpEnd at_ ->
    let T1 := MkDTile (x_ctl T) (x_rt T) (x_cores T) (tl (x_prog T)) (x_phase T) (x_cycles T) (x_ended T) in
    tile_moves b now i [VOpEnd i] T (fst (next_instr b now i T1)) (snd (next_instr b now i T1)).
  Proof.
    intros IT EP T1. own_start IT EP. unfold next_instr. cbn. old T EP. destruct (tl (x_prog T)) as [|o r] eqn:ET; cbn.
    - phase_go IT N EP (MkDTile (x_ctl T) (x_rt T) (x_cores T) [] TDone (now - b) (x_ended T)) (@nil (Z * prio * ev)) [soon (VTileEnd i)] ltac:(split; intros []).
    - phase_go IT N EP (dt_phase T1 TOpNew) (@nil (Z * prio * ev)) [start (VOp i)] ltac:(cbn; congruence).
  Qed.

  Lemma on_op_end_good b now i (T : dtile) : tile_inv T -> tile_waits b now (VOpEnd i) T -> tile_good b now i [VOpEnd i] T (on_op_end b now i T).
  Proof.
    intros IT [N HW]. cbn in HW. unfold on_op_end. destruct (x_phase T) eqn:EP; try contradiction. subst. rewrite Z.eqb_refl. rewrite <- EP. cbn -[next_instr]. now apply (next_instr_moves b at_ i T at_).
  Qed.
  (** A request of the tile. *)
  Lemma submit_own b now i e (T : dtile) addr kd p : tile_inv T -> is_new T = false -> (forall id, ~ asked T (-1) id) -> part_of e = POwn ->
    (p = TSendRead /\ (exists a g w v r, x_prog T = TSend a g w v :: r) \/ p = TRecvWrite /\ (exists a g w v r, x_prog T = TRecv a g w v :: r)) ->
    (forall t e', ev_tile e' = Some i -> own_waits t e' T -> In (key e') [e] \/ match e' with VDone _ _ _ | VSent _ _ => True | _ => False end) ->
    (x_ended T = false) ->
    tile_good b now i [e] T (dmap (fun rd => dt_phase (dt_ctl T (snd rd)) (p (q_id (fst rd)))) (submit now i (-1) addr kd (x_ctl T))).
  Proof.
    intros IT N NA HP PP HK HE. pose proof (submit_spec now i (-1) addr kd _ (ti_ctl _ IT)) as S. destruct (submit now i (-1) addr kd (x_ctl T)) as [[r d'] new|x|]; cbn; auto.
    destruct S as (DI & SW & EB & E1 & E2 & EV & PM & ->).
    assert (A' : forall id, asked (dt_phase (dt_ctl T d') (p (q_id r))) (-1) id <-> q_id r = id) by (intros id; unfold asked; cbn; destruct PP as [[-> _]|[-> _]]; tauto).
    apply (lift_own b now i [e] T _ [soon (VReqPut i)] [] []); auto.
    - unfold is_new. cbn. now destruct PP as [[-> _]|[-> _]].
    - split; [exact SW|split; auto].
    - intros r' H. apply (Permutation_in _ PM) in H. destruct H as [<- |H]; auto. right. rewrite E2. now apply A'.
    - intros id H. now apply NA in H.
    - unfold phase_inv. cbn. destruct PP as [[-> H]|[-> H]]; cbn; tauto.
    - intros e' [<- |[]]. exact HP.
    - constructor; [|constructor|constructor]. intros t e' [H1 H2] HI HW. destruct (HK t e' H1 HW) as [H|H]; auto. right. destruct e'; try contradiction; auto. cbn in *. destruct HW as [HV HW].
      split; [now rewrite EV|]. unfold asked in *. cbn in *. destruct (Z.eqb_spec k (-1)) as [-> |]; auto. exfalso. now apply (NA id).
    - cbn. destruct PP as [[-> _]|[-> _]]; discriminate.
    - repeat constructor.
    - constructor.
  Qed.
  Lemma recv_rows_good b now i e (T : dtile) addr vec got : tile_inv T -> is_new T = false -> (forall id, ~ asked T (-1) id) -> part_of e = POwn ->
    (exists a g w v r, x_prog T = TRecv a g w v :: r) -> (e = VOp i /\ x_phase T = TOpNew \/ e = VReadEnd i /\ exists s g d, x_phase T = TReadEnd s g d) ->
    tile_good b now i [e] T (recv_rows now i addr vec got T).
  Proof.
    intros IT N NA HP PP HK. assert (HE : x_ended T = false) by (apply (ti_ended _ IT); destruct HK as [[_ ->]|[_ (? & ? & ? & ->)]]; discriminate).
    unfold recv_rows. destruct (zlen got <? vec).
    - cbn. destruct HK as [[-> EP]|[-> (s & g & d & EP)]].
      + phase_go IT N EP (dt_phase T (TReadNew got)) (@nil (Z * prio * ev)) [start (VRead i)] ltac:(unfold phase_inv; cbn; tauto).
      + phase_go IT N EP (dt_phase T (TReadNew got)) (@nil (Z * prio * ev)) [start (VRead i)] ltac:(unfold phase_inv; cbn; tauto).
    - apply (submit_own b now i e T addr (RWrite got) TRecvWrite); auto. intros t e' H1 HW.
      destruct HK as [[-> EP]|[-> (s & g & d & EP)]]; destruct e'; cbn in H1, HW |- *; try discriminate H1; auto; rewrite EP in HW; try contradiction HW; injection H1 as ->; auto.
  Qed.
  Lemma on_op_good b now i (T : dtile) : tile_inv T -> tile_waits b now (VOp i) T -> tile_good b now i [VOp i] T (on_op now i T).
  Proof.
    intros IT [N HW]. cbn in HW. destruct (x_phase T) eqn:EP; try contradiction. own_start IT EP. assert (NA : forall id, ~ asked T (-1) id) by (intros id H; unfold asked in H; cbn in H; now rewrite EP in H).
    unfold on_op. rewrite EP. destruct (x_prog T) as [|[a g w v|a g w v|] pr] eqn:EPR; [contradiction|..].
    - apply (submit_own b now i (VOp i) T a (RRead w v) TSendRead); auto. { left. split; eauto 8. }
      intros t e' H1 HW'. destruct e'; cbn in H1, HW' |- *; try discriminate H1; auto; rewrite EP in HW'; try contradiction HW'; injection H1 as ->; auto.
    - destruct ((w <? 0) || (v <? 0)); [exact I|]. apply recv_rows_good; auto. eauto 8.
    - destruct (x_cores T) as [|x xs] eqn:EC.
      + cbn. phase_go IT N EP (dt_phase T TStopNew) (@nil (Z * prio * ev)) [start (VStop i)] ltac:(unfold phase_inv; cbn; tauto).
      + rewrite <- EC. destruct (forallb core_over (x_cores T)).
        * cbn. phase_go IT N EP (dt_phase T THaltAll) (@nil (Z * prio * ev)) [soon (VAllCores i)] ltac:(unfold phase_inv; cbn; tauto).
        * cbn. phase_go IT N EP (dt_phase T THaltWait) (@nil (Z * prio * ev)) (@nil (Z * prio * ev)) ltac:(unfold phase_inv; cbn; tauto).
  Qed.

  (** The own events the tile waits for, other than those of its cores' requests and of sending_event. *)
  Definition only (i : Z) (e : ev) (T : dtile) : Prop :=
    (forall t e', ev_tile e' = Some i -> own_waits t e' T -> key e' = e \/ match e' with VDone _ k _ => k <> -1 | VSent _ _ => True | _ => False end) /\
    (forall id, asked T (-1) id -> e = VDone i (-1) id /\ In id (map fst (c_values (x_ctl T)))).
  Definition step_ev (e : ev) : bool := match e with VDone _ _ _ | VSent _ _ => false | _ => match part_of e with POwn => true | _ => false end end.
  Lemma own_step now i e (T T' : dtile) d z : only i e T -> x_cores T' = x_cores T -> x_ctl T' = x_ctl T ->
    ev_tile z = Some i -> step_ev z = true -> own_waits (now + d) z T' -> key z <> e -> own_comp now i [e] T T' [(d, prio_of z, z)].
  Proof.
    intros [HK HD] EC ED H1 H2 H3 H4. assert (PZ : part_of z = POwn) by (unfold step_ev in H2; destruct z; cbn in *; congruence). constructor.
    - intros t e' [F1 F2] HI HW. destruct (HK t e' F1 HW) as [H|H]; [left; now left|]. right. destruct e'; try contradiction; auto. cbn in *. rewrite ED. destruct HW as [HV HW]. split; auto.
      unfold asked in *. destruct (Z.eqb_spec k (-1)); [contradiction|]. now rewrite EC.
    - constructor; [|constructor]. cbn. repeat split; auto. intros _. right. intros t HW. destruct (HK t z H1 HW) as [H|H]; auto. destruct z; try contradiction; discriminate H2.
    - unfold keys. cbn. destruct (tracked z); repeat constructor. intros [].
  Qed.
  Lemma phase_step b now i e (T T' : dtile) d z : tile_inv T -> is_new T = false -> is_new T' = false -> only i e T -> part_of e = POwn -> x_cores T' = x_cores T -> x_ctl T' = x_ctl T ->
    u_running (x_rt T') = u_running (x_rt T) -> u_sender (x_rt T') = u_sender (x_rt T) -> u_event (x_rt T') = u_event (x_rt T) ->
    phase_inv T' -> x_ended T = false -> x_ended T' = false -> (x_phase T' = TEmptied -> (d, z) = (0, VEmpty i)) ->
    ev_tile z = Some i -> step_ev z = true -> own_waits (now + d) z T' -> key z <> e -> tile_moves b now i [e] T T' [(d, prio_of z, z)].
  Proof.
    intros IT N N' HO HE EC ED E1 E2 E3 PI X1 X2 HM H1 H2 H3 H4. apply (lift_phase b now i e T T' [] [(d, prio_of z, z)]); auto.
    - intros id H. right. now apply HO in H.
    - intros H. rewrite X1 in H. discriminate.
    - now apply own_step.
    - intros H. apply HM in H. injection H as -> ->. now left.
    - constructor.
  Qed.
  Ltac only_tac EP := split;
    [ let t := fresh in let e' := fresh in let F1 := fresh in let HW := fresh in intros t e' F1 HW; destruct e'; cbn in F1, HW |- *; try discriminate F1; auto; try (rewrite EP in HW); try (exfalso; exact HW); try (injection F1 as ->); auto;
      let HU := fresh in destruct HW as [HU HW]; unfold asked in HW; rewrite EP in HW; match type of HW with if ?kk =? -1 then _ else _ => destruct (Z.eqb_spec kk (-1)) as [-> |]; auto end; first [contradiction HW | subst; auto]
    | let id := fresh in let H := fresh in intros id H; unfold asked in H; cbn in H; rewrite EP in H; first [contradiction H | subst; auto] ].

  Lemma value_in id (l : list (Z * list Z)) : In id (map fst l) -> exists v, value_of id l = Some v.
  Proof.
    intros H. unfold value_of. destruct (find (fun x => fst x =? id) l) as [x|] eqn:E; [eauto|]. apply in_map_iff in H. destruct H as (x & <- & H). apply (find_none _ _ E) in H. cbn in H. lia.
  Qed.
  Lemma op_end_moves b now i e (T : dtile) : tile_inv T -> is_new T = false -> only i e T -> part_of e = POwn -> x_ended T = false -> VOpEnd i <> e ->
    tile_moves b now i [e] T (fst (op_end now i T)) (snd (op_end now i T)).
  Proof.
    intros IT N HO HE X NE. apply (phase_step b now i e T (dt_phase T (TOpEnd now)) 0 (VOpEnd i)); auto; try discriminate.
    - unfold phase_inv. cbn. tauto.
    - cbn. lia.
  Qed.
  Lemma send_rows_moves b now i e rows (T : dtile) : tile_inv T -> is_new T = false -> only i e T -> part_of e = POwn -> x_ended T = false -> VOpEnd i <> e -> VAdd i <> e ->
    (exists a g w v r, x_prog T = TSend a g w v :: r) -> tile_moves b now i [e] T (fst (send_rows now i rows T)) (snd (send_rows now i rows T)).
  Proof.
    intros IT N HO HE X NE NE' HP. unfold send_rows. destruct rows as [|row rest]; [now apply op_end_moves|]. cbn.
    apply (phase_step b now i e T (dt_phase T (TAddNew row rest)) 0 (VAdd i)); auto; try discriminate.
    - unfold phase_inv. cbn. tauto.
    - exact I.
  Qed.
  Lemma tile_done_good b now i id (T : dtile) : tile_inv T -> tile_waits b now (VDone i (-1) id) T -> tile_good b now i [VDone i (-1) id] T (tile_done now i id T).
  Proof.
    intros IT [N [HV HA]]. destruct (value_in _ _ HV) as [data EV]. unfold asked in HA. cbn in HA. unfold tile_done. rewrite EV. destruct (x_phase T) eqn:EP; try contradiction; subst; own_start IT EP; cbn in PI.
    - destruct PI as [PI _]. destruct (PI I) as (a & g & w & v & r & PR). rewrite PR, Z.eqb_refl. cbn -[send_rows]. destruct ((w <? 0) || (v <? 0)); [exact I|].
      apply send_rows_moves; auto; try discriminate. only_tac EP.
    - destruct PI as [_ PI]. destruct (PI I) as (a & g & w & v & r & PR). rewrite PR, Z.eqb_refl. cbn -[op_end]. apply op_end_moves; auto; try discriminate. only_tac EP.
  Qed.
  Lemma on_added_good b now i (T : dtile) : tile_inv T -> tile_waits b now (VAdded i) T -> tile_good b now i [VAdded i] T (on_added now i T).
  Proof.
    intros IT [N HW]. cbn in HW. unfold on_added. destruct (x_phase T) eqn:EP; try contradiction. own_start IT EP. apply send_rows_moves; auto; try discriminate. - only_tac EP. - apply PI. exact I.
  Qed.
  Lemma on_add_time_good b now i (T : dtile) : tile_inv T -> tile_waits b now (VAddTime i) T -> tile_good b now i [VAddTime i] T (on_add_time c now i T).
  Proof.
    intros IT [N HW]. cbn in HW. unfold on_add_time. destruct (x_phase T) eqn:EP; try contradiction. own_start IT EP. destruct (now <? since + w_data_lat (y_net c)) eqn:L; [lia|]. cbn.
    match goal with |- tile_moves _ _ _ _ _ ?T' _ => apply (phase_step b now i (VAddTime i) T T' 0 (VAdded i)) end; auto; try discriminate. - only_tac EP. - exact I.
  Qed.
  Lemma on_add_good b now i (T : dtile) : tile_inv T -> tile_waits b now (VAdd i) T -> tile_good b now i [VAdd i] T (on_add c now i T).
  Proof.
    intros IT [N HW]. cbn in HW. unfold on_add. destruct (x_phase T) eqn:EP; try contradiction. own_start IT EP. destruct PI as [PI _]. destruct (PI I) as (a & g & w & v & r & PR). rewrite PR. cbn. unfold timeout. destruct (w_data_lat (y_net c) <? 0) eqn:L; [exact I|]. cbn.
    match goal with |- tile_moves _ _ _ _ _ ?T' _ => apply (lift_phase b now i (VAdd i) T T' [soon (VSendPut i)] [later (w_data_lat (y_net c)) (VAddTime i)]) end; auto; try discriminate.
    - no_ask EP.
    - unfold phase_inv. cbn. split; [eauto 10|intros []].
    - apply (own_step now i (VAdd i) T _ (w_data_lat (y_net c)) (VAddTime i)); auto; try discriminate. + only_tac EP. + cbn. lia.
    - repeat constructor.
  Qed.
  Lemma on_read_end_good b now i (T : dtile) : tile_inv T -> tile_waits b now (VReadEnd i) T -> tile_good b now i [VReadEnd i] T (on_read_end now i T).
  Proof.
    intros IT [N HW]. cbn in HW. unfold on_read_end. destruct (x_phase T) eqn:EP; try contradiction. own_start IT EP. destruct PI as [_ PI]. destruct (PI I) as (a & g & w & v & r & PR). rewrite PR. destruct (zlen data =? w).
    - apply recv_rows_good; eauto 8. intros id H. unfold asked in H. cbn in H. now rewrite EP in H.
    - cbn -[op_end]. apply op_end_moves; auto; try discriminate. only_tac EP.
  Qed.
  Lemma on_stop_good b now i (T : dtile) : tile_inv T -> tile_waits b now (VStop i) T -> tile_good b now i [VStop i] T (on_stop now i T).
  Proof.
    intros IT [N HW]. cbn in HW. unfold on_stop. destruct (x_phase T) eqn:EP; try contradiction. own_start IT EP. destruct (u_running (x_rt T)) eqn:ER; cbn.
    - apply (phase_step b now i (VStop i) T (dt_phase T (TPolling now)) 0 (VPoll i)); auto; try discriminate. + only_tac EP. + cbn. lia.
    - apply (phase_step b now i (VStop i) T (dt_phase T TStopEnd) 0 (VStopped i)); auto; try discriminate. + only_tac EP.
  Qed.
  Lemma on_poll_good b now i (T : dtile) : tile_inv T -> tile_waits b now (VPoll i) T -> tile_good b now i [VPoll i] T (on_poll now i T).
  Proof.
    intros IT [N HW]. cbn in HW. unfold on_poll. destruct (x_phase T) eqn:EP; try contradiction. own_start IT EP. destruct (now <? next) eqn:L; [lia|]. destruct (u_queue (x_rt T)) as [|p q] eqn:EQ; cbn.
    - apply (phase_step b now i (VPoll i) T (dt_phase T TEmptied) 0 (VEmpty i)); auto; try discriminate. + only_tac EP. + unfold phase_inv. cbn. auto. + exact I.
    - apply (lift_phase b now i (VPoll i) T (dt_phase T (TPolling (now + 1))) [] [later 1 (VPollTime i)]); auto; try discriminate; [no_ask EP| |constructor]. own_tac EP.
  Qed.
  Lemma on_poll_time_good b now i (T : dtile) : tile_inv T -> tile_waits b now (VPollTime i) T -> tile_good b now i [VPoll i] T (on_poll_time i T).
  Proof.
    intros IT [N HW]. cbn in HW. unfold on_poll_time. destruct (x_phase T) eqn:EP; try contradiction. own_start IT EP. cbn. apply (lift_phase b now i (VPoll i) T T [] [start (VPoll i)]); auto; try discriminate.
    - apply (ti_phase _ IT).
    - constructor.
      + intros t e [H1 H2] HI H. auto.
      + repeat constructor; cbn; auto. rewrite EP. lia.
      + repeat constructor. intros [].
    - rewrite EP. discriminate.
    - constructor.
  Qed.
  Lemma on_all_cores_good b now i (T : dtile) : tile_inv T -> tile_waits b now (VAllCores i) T -> tile_good b now i [VAllCores i] T (on_all_cores i T).
  Proof.
    intros IT [N HW]. cbn in HW. unfold on_all_cores. destruct (x_phase T) eqn:EP; try contradiction. own_start IT EP. cbn.
    apply (phase_step b now i (VAllCores i) T (dt_phase T TStopNew) 0 (VStop i)); auto; try discriminate. only_tac EP.
  Qed.

  (** ** Two parts *)
  Lemma on_got_good b now i k s (T : dtile) x : tile_inv T -> is_new T = false -> 0 <= k -> nth_error (x_cores T) (Z.to_nat k) = Some x -> core_waits b now (VGot i k s) x ->
    tile_good b now i [VGot i k s] T (dmap (fun dx => dt_core (dt_ctl T (fst dx)) k (snd dx)) (on_got P c now i k s (x_ctl T) x)).
  Proof.
    intros IT N HK EN HW. assert (KI : core_inv x) by (pose proof (ti_cores _ IT) as F; rewrite Forall_forall in F; apply F; exact (nth_error_In _ _ EN)).
    assert (L : forall x' new, core_moves b now i k [VGot i k s] x x' new -> tile_moves b now i [VGot i k s] T (dt_core (dt_ctl T (x_ctl T)) k x') new).
    { intros x' new HM. apply (lift_core b now i [VGot i k s] T k x x' (x_ctl T) new [] new); auto.
      - exact (km_inv _ _ _ _ _ _ _ _ HM).
      - exact (core_moves_comp _ _ _ _ _ _ _ _ HM).
      - intros id H. left. exact (km_asked _ _ _ _ _ _ _ _ HM id H).
      - apply (ti_ctl _ IT).
      - apply like_refl.
      - constructor.
      - rewrite app_nil_r. reflexivity. }
    unfold on_got. destruct s.
    - pose proof (fun d HD => got_moves b now i k SF x d ltac:(discriminate) HD KI HW) as G. destruct (buf_put i k SF x) as [x1 l1]. destruct (G 0 ltac:(lia)) as (o & EO & _). rewrite EO. unfold timeout. cbn. destruct (k_fetch_lat (y_core c) <? 0) eqn:LT; [exact I|]. cbn.
      destruct (G (k_fetch_lat (y_core c)) ltac:(lia)) as (o' & EO' & HM). rewrite EO in EO'. injection EO' as <-. now apply L.
    - pose proof (fun d HD => got_moves b now i k SD x d ltac:(discriminate) HD KI HW) as G. destruct (buf_put i k SD x) as [x1 l1]. destruct (G 0 ltac:(lia)) as (o & EO & _). rewrite EO. unfold timeout. cbn. destruct (k_data_lat (y_core c) <? 0) eqn:LT; [exact I|]. cbn.
      destruct (G (k_data_lat (y_core c)) ltac:(lia)) as (o' & EO' & HM). rewrite EO in EO'. injection EO' as <-. now apply L.
    - pose proof (got_execute b now i k x KI HW) as G. destruct (buf_put i k SX x) as [x1 l1]. destruct G as (o & EO & G). rewrite EO.
      assert (LC : tile_good b now i [VGot i k SX] T (dmap (fun dx => dt_core (dt_ctl T (fst dx)) k (snd dx)) (dbind (DGo (x_ctl T, x1) l1) (fun _ =>
                match m_local P (k_core x1) o with
                | (Raise e, _) => DRaise e
                | (Ok _, k1) => match exec_time (y_core c) o with
                                | Raise e => DRaise e
                                | Ok t => timeout t (VTime i k SX) (x_ctl T, set_xp (set_core (set_stage x1 SX (GWork o)) k1) XTiming)
                                end
                end)))).
      { cbn. destruct (m_local P (k_core x1) o) as [[u|e] k1]; [|exact I]. destruct (exec_time (y_core c) o) as [t|e]; [|exact I]. unfold timeout. destruct (t <? 0) eqn:LT; [exact I|]. cbn. apply L. apply G. lia. }
      unfold execute. destruct o; try exact LC; clear LC.
      + cbn. destruct (m_load P (k_core x1) read) as [[a|e] k1]; [|exact I]. pose proof (submit_spec now i k a (RRead width vec) _ (ti_ctl _ IT)) as S.
        destruct (submit now i k a (RRead width vec) (x_ctl T)) as [[r d'] new|e|]; cbn; auto. destruct S as (DI & SW & EB & E1 & E2 & EV & PM & ->).
        destruct (G k1) as (_ & _ & G3). specialize (G3 (q_id r) I). eapply (lift_core b now i [VGot i k SX] T k x _ d' l1 [soon (VReqPut i)]); auto.
        * exact (km_inv _ _ _ _ _ _ _ _ G3).
        * exact (core_moves_comp _ _ _ _ _ _ _ _ G3).
        * intros id H. left. exact (km_asked _ _ _ _ _ _ _ _ G3 id H).
        * split; auto.
        * intros r' H. apply (Permutation_in _ PM) in H. destruct H as [<- |H]; auto. right. split; auto. reflexivity.
        * repeat constructor.
      + cbn. destruct (m_store P (k_core x1) dest read width vec) as [[[a v]|e] k1]; [|exact I]. cbn. apply L. apply G. exact I.
  Qed.
  Lemma store_time_good b now i k (T : dtile) x : tile_inv T -> is_new T = false -> 0 <= k -> nth_error (x_cores T) (Z.to_nat k) = Some x -> core_waits b now (VStoreTime i k) x ->
    tile_good b now i [VStoreTime i k] T (dmap (fun dx => dt_core (dt_ctl T (fst dx)) k (snd dx)) (store_time now i k (x_ctl T) x)).
  Proof.
    intros IT N HK EN HW. assert (KI : core_inv x) by (pose proof (ti_cores _ IT) as F; rewrite Forall_forall in F; apply F; exact (nth_error_In _ _ EN)).
    pose proof (fun id => store_time_moves b now i k x id KI HW) as G. unfold store_time. cbn in HW. destruct (k_xp x) as [| | | | | | |a rows| |] eqn:EX; try contradiction. destruct (t_x (k_stage x)) as [| | |o| | |] eqn:ES; try contradiction.
    pose proof (submit_spec now i k a (RWrite rows) _ (ti_ctl _ IT)) as S.
    destruct (submit now i k a (RWrite rows) (x_ctl T)) as [[r d'] new|e|]; cbn; auto. destruct S as (DI & SW & EB & E1 & E2 & EV & PM & ->). specialize (G (q_id r)).
    apply (lift_core b now i [VStoreTime i k] T k x _ d' [] [soon (VReqPut i)]); auto.
    - exact (km_inv _ _ _ _ _ _ _ _ G).
    - exact (core_moves_comp _ _ _ _ _ _ _ _ G).
    - intros id H. left. exact (km_asked _ _ _ _ _ _ _ _ G id H).
    - split; auto.
    - intros r' H. apply (Permutation_in _ PM) in H. destruct H as [<- |H]; auto. right. split; auto. unfold core_asked. cbn. rewrite ES. reflexivity.
    - repeat constructor.
  Qed.
  Lemma core_done_good b now i k id (T : dtile) : k <> -1 -> tile_inv T -> tile_waits b now (VDone i k id) T -> exists x, nth_error (x_cores T) (Z.to_nat k) = Some x /\ 0 <= k /\
    tile_good b now i [VDone i k id] T (dmap (fun dx => dt_core (dt_ctl T (fst dx)) k (snd dx)) (dmap (fun x' => (x_ctl T, x')) (load_done i k id (c_values (x_ctl T)) x))).
  Proof.
    intros NK IT [N [HV HA]]. unfold asked in HA. destruct (Z.eqb_spec k (-1)); [contradiction|]. destruct HA as [HK [x [EN HA]]]. exists x. split; auto. split; auto.
    assert (KI : core_inv x) by (pose proof (ti_cores _ IT) as F; rewrite Forall_forall in F; apply F; exact (nth_error_In _ _ EN)).
    pose proof (load_done_good b now i k id (c_values (x_ctl T)) x KI HA (value_in _ _ HV)) as G. destruct (load_done i k id (c_values (x_ctl T)) x) as [x' new|e|]; cbn; auto. destruct G as (G1 & G2 & G3 & G4 & G5).
    apply (lift_core b now i [VDone i k id] T k x x' (x_ctl T) new [] new); auto.
    - constructor; auto. eapply Forall_impl; [|exact G4]. cbn. intros z (H1 & H2 & H3 & H4). auto.
    - intros id' H. right. rewrite (G3 id' H) in *. split; [now left|exact HV].
    - apply (ti_ctl _ IT).
    - apply like_refl.
    - constructor.
    - rewrite app_nil_r. reflexivity.
  Qed.
  Lemma thread_end_good b now i (T : dtile) : tile_inv T -> tile_waits b now (VThreadTime i) T -> tile_good b now i [VThreadTime i] T (dmap (dt_ctl T) (thread_end P c now i (x_ctl T))).
  Proof.
    intros IT [N HW]. pose proof (thread_end_spec P c now i _ (ti_ctl _ IT) HW) as S. destruct (thread_end P c now i (x_ctl T)) as [d' new|e|]; cbn; auto.
    destruct S as (DI & (F1 & F2 & F3) & (r0 & s0 & EB) & EB' & r & data & l & PM & EV & -> & HL). destruct IT as [IC ID IR IA IP IE].
    assert (IR0 : In r (requests (x_ctl T))) by (apply (Permutation_in _ (Permutation_sym PM)); now left).
    constructor.
    - constructor; cbn; auto.
      + intros r' H. apply IA. apply (Permutation_in _ (Permutation_sym PM)). now right.
      + unfold phase_inv, is_new in *. cbn. destruct (x_phase T); auto. discriminate.
    - exact N.
    - apply (tile_comp b now i [VThreadTime i] T _ 0 [] (l ++ [soon (VRelease i)]) [] [soon (VDone i (q_core r) (q_id r))]); auto.
      + apply comp_same. auto.
      + constructor.
        * intros t e HE HI H. destruct e; try contradiction HE; try discriminate HI; cbn in HE, H |- *; subst; rewrite ?F1, ?F2; auto. rewrite EB in H. contradiction.
        * apply Forall_app. split; [|repeat constructor; discriminate]. eapply Forall_impl; [|exact HL]. intros z ->. cbn. repeat split; auto. discriminate.
        * rewrite plain_keys; [constructor|]. apply Forall_app. split; [|repeat constructor]. eapply Forall_impl; [|exact HL]. intros z ->. reflexivity.
      + apply comp_same. auto.
      + constructor.
        * intros t e _ _ H. right. destruct e; try exact H. cbn in *. rewrite EV, map_app, in_app_iff. tauto.
        * constructor; [|constructor]. split; [split; reflexivity|]. split; [split|split; [reflexivity|]].
          -- cbn. rewrite EV, map_app, in_app_iff. right. now left.
          -- exact (IA r IR0).
          -- intros _. right. intros t [H _]. now apply (ci_next _ ID r IR0).
        * repeat constructor. intros [].
      + cbn. rewrite <- app_assoc. apply Permutation_app_head. apply perm_swap.
    - auto.
    - intros t e HE HI H. left. split; [|cbn; intros [<- |[]]; discriminate HI]. unfold tile_waits in *. destruct (imm_part e HI) as [HP|HP]; rewrite HP in *; destruct H as [_ H]; split; auto.
      destruct e; try discriminate HI; cbn in *; try discriminate HP; rewrite ?F1, ?F2, ?F3 in H; auto.
    - cbn. rewrite F2. intros H. left. split; auto. split; auto. intuition discriminate.
    - cbn. intros H. left. split; auto. split; auto. intuition discriminate.
    - cbn. intros p s H. left. split; auto. intuition discriminate.
    - cbn. intros p s H1 H2. split; auto. split; [intuition discriminate|]. left. split; auto. intuition discriminate.
  Qed.
End Tile.
