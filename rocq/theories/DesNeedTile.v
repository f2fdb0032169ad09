(** The events that a tile needs (continues DesNeed and DesNeedCtl). *)
From Verif Require Import PyBase PyLemmas CoreModel DramModel DramProofs RouterModel SystemModel DesModel DesWait DesWaitCtl DesWaitTile DesNeed DesNeedCtl.

Lemma kept_more (E need need' : ev -> Prop) fired new new' : incl (map snd new) (map snd new') -> kept E need need' fired new -> kept E need need' fired new'.
Proof. intros H K e HE HW. destruct (K e HE HW) as [H1|H1]; [left|right; exact H1]. apply in_map_iff in H1 as (y & <- & H1). apply in_map, H, H1. Qed.
Lemma kept_same (E need need' : ev -> Prop) fired new : (forall e, E e -> need' e -> need e) -> (forall e, E e -> key e <> key fired) -> kept E need need' fired new.
Proof. intros H1 H2 e HE HW. right. auto. Qed.

Section Tile.
  Context {K M : Type}.
  Variable P : machine K M.
  Variable c : sys_cfg.
  Notation dcore := (dcore K). Notation dctl := (dctl M). Notation dtile := (dtile K M). Notation dnode := (dnode K M).

  Definition own_needs (e : ev) (T : dtile) : Prop :=
    match e with
    | VDone _ k id => In id (map fst (c_values (x_ctl T))) /\ asked T k id
    | VSent _ n => u_event (x_rt T) = Some (n, Triggered)
    | VOp _ => match x_phase T with TOpNew => True | _ => False end
    | VOpEnd _ => match x_phase T with TOpEnd _ => True | _ => False end
    | VTileEnd _ => match x_phase T with TDone => x_ended T = false | _ => False end
    | VAdd _ => match x_phase T with TAddNew _ _ => True | _ => False end
    | VAddTime _ => match x_phase T with TAdding _ _ => True | _ => False end
    | VAdded _ => match x_phase T with TAdded _ => True | _ => False end
    | VRead _ => match x_phase T with TReadNew _ => True | _ => False end
    | VPopped _ => match x_phase T with TPopped _ _ _ => True | _ => False end
    | VReadEnd _ => match x_phase T with TReadEnd _ _ _ => True | _ => False end
    | VAllCores _ => match x_phase T with THaltAll => True | _ => False end
    | VStop _ => match x_phase T with TStopNew => True | _ => False end
    | VPoll _ => match x_phase T with TPolling _ => True | _ => False end
    | VEmpty _ => match x_phase T with TEmptied => True | _ => False end
    | VStopped _ => match x_phase T with TStopEnd => True | _ => False end
    | _ => False
    end.
  Definition core_at (k : Z) (e : ev) (T : dtile) : Prop := 0 <= k /\ exists x, nth_error (x_cores T) (Z.to_nat k) = Some x /\ core_needs e x.
  Definition tile_needs (e : ev) (T : dtile) : Prop :=
    match part_of e with
    | PTile => is_new T = true
    | PCore k => is_new T = false /\ core_at k e T
    | PCtl => is_new T = false /\ ctl_needs e (x_ctl T)
    | PRt => is_new T = false /\ rt_needs e (x_rt T)
    | POwn => is_new T = false /\ own_needs e T
    | PNode => False
    end.
  Record tile_fit (T : dtile) : Prop := {
    tf_cores : Forall core_fit (x_cores T);
    tf_inj : forall k k' id, asked T k id -> asked T k' id -> k = k';
    tf_lt : forall k id, asked T k id -> id < c_next (x_ctl T);
    tf_wait : x_phase T = THaltWait -> forallb core_over (x_cores T) = false }.
  (** Between the two ends of a receive buffer. *)
  Definition midput (z : sstate) : bool := match z with ZPutting _ _ | ZPut _ _ => true | _ => false end.
  Definition midread (p : dphase) : bool := match p with TReading _ _ | TPopped _ _ _ => true | _ => false end.
  Record aside (T T' : dtile) : Prop := {
    as_buffers : u_buffers (x_rt T') = u_buffers (x_rt T) \/ is_new T = true;
    as_sender : u_sender (x_rt T') = u_sender (x_rt T) \/ midput (u_sender (x_rt T)) = false /\ midput (u_sender (x_rt T')) = false;
    as_phase : x_phase T' = x_phase T \/ midread (x_phase T) = false /\ midread (x_phase T') = false }.
  Definition of_tile (i : Z) (e : ev) : Prop := ev_tile e = Some i.
  Definition own_ev (i : Z) (e : ev) : Prop := ev_tile e = Some i /\ part_of e = POwn.
  Record tile_step (i : Z) (fired : ev) (T T' : dtile) (new : sched) : Prop := {
    ts_fit : tile_fit T';
    ts_kept : kept (of_tile i) (fun e => tile_needs e T) (fun e => tile_needs e T') fired new;
    ts_old : is_new T' = false;
    ts_aside : aside T T';
    ts_ended : x_ended T' = x_ended T }.
  Definition tile_kept (i : Z) (fired : ev) (T : dtile) (r : dres dtile) : Prop :=
    match r with DGo T' new => tile_step i fired T T' new | _ => True end.

  Lemma part_neq e fired : part_of e <> part_of fired -> key e <> key fired.
  Proof. intros H E. apply H. rewrite <- (key_part e), <- (key_part fired). congruence. Qed.
  Lemma tile_join i fired (T T' : dtile) k new : is_new T = false -> is_new T' = false ->
    (forall k', 0 <= k' -> k' <> k -> nth_error (x_cores T') (Z.to_nat k') = nth_error (x_cores T) (Z.to_nat k')) ->
    (forall k', k' <> k -> part_of fired <> PCore k') ->
    kept (core_ev i k) (fun e => core_at k e T) (fun e => core_at k e T') fired new ->
    kept (ctl_ev i) (fun e => ctl_needs e (x_ctl T)) (fun e => ctl_needs e (x_ctl T')) fired new ->
    kept (rt_ev i) (fun e => rt_needs e (x_rt T)) (fun e => rt_needs e (x_rt T')) fired new ->
    kept (own_ev i) (fun e => own_needs e T) (fun e => own_needs e T') fired new ->
    kept (of_tile i) (fun e => tile_needs e T) (fun e => tile_needs e T') fired new.
  Proof.
    intros N N' HO HF HK HD HR HP e HE HW. unfold tile_needs in *. rewrite N, N' in *. destruct (part_of e) as [|k'| | | |] eqn:EP; try contradiction; try discriminate HW; destruct HW as [_ HW].
    - destruct (Z.eq_dec k' k) as [-> |NE].
      + destruct (HK e) as [H|[H1 H2]]; auto. apply core_ev_iff. auto.
      + right. split; [|apply part_neq; rewrite EP; intros E; now apply (HF k' NE)]. split; auto. destruct HW as (H0 & x & H1 & H2). split; auto. exists x. split; auto. rewrite <- HO; auto.
    - destruct (HD e) as [H|[H1 H2]]; auto. apply ctl_ev_iff. auto.
    - destruct (HR e) as [H|[H1 H2]]; auto. apply rt_ev_iff. auto.
    - destruct (HP e) as [H|[H1 H2]]; auto. split; auto.
  Qed.
  Lemma core_out i k fired e : core_ev i k e -> part_of fired <> PCore k -> key e <> key fired.
  Proof. intros H1 H2. apply core_ev_iff in H1 as [_ H1]. apply part_neq. congruence. Qed.
  Lemma ctl_out i fired e : ctl_ev i e -> part_of fired <> PCtl -> key e <> key fired.
  Proof. intros H1 H2. apply ctl_ev_iff in H1 as [_ H1]. apply part_neq. congruence. Qed.
  Lemma rt_out i fired e : rt_ev i e -> part_of fired <> PRt -> key e <> key fired.
  Proof. intros H1 H2. apply rt_ev_iff in H1 as [_ H1]. apply part_neq. congruence. Qed.
  Lemma over_upd (l : list dcore) k x x' : nth_error l k = Some x -> (core_over x' = true -> core_over x = true) -> forallb core_over l = false -> forallb core_over (upd l k x') = false.
  Proof.
    revert k. induction l as [|a l IH]; intros [|k] H HO HF; try discriminate; cbn in *.
    - injection H as ->. destruct (core_over x'), (core_over x); cbn in *; auto; discriminate (HO eq_refl).
    - destruct (core_over a); cbn in *; eauto.
  Qed.
  Lemma aside_same T T' : u_buffers (x_rt T') = u_buffers (x_rt T) -> u_sender (x_rt T') = u_sender (x_rt T) -> x_phase T' = x_phase T -> aside T T'.
  Proof. intros. constructor; auto. Qed.

  (** A core changes, and requests may be added. *)
  Lemma lift_core' i fired (T : dtile) k x x' A d' p newk new : tile_inv c T -> tile_fit T -> is_new T = false -> 0 <= k -> nth_error (x_cores T) (Z.to_nat k) = Some x ->
    core_step A i k fired x x' newk -> incl (map snd newk) (map snd new) ->
    kept (ctl_ev i) (fun e => ctl_needs e (x_ctl T)) (fun e => ctl_needs e d') fired new -> c_values d' = c_values (x_ctl T) -> c_next (x_ctl T) <= c_next d' ->
    (forall id, A id -> id = c_next (x_ctl T) /\ id < c_next d') ->
    part_of fired = PCore k \/ (exists id, fired = VDone i k id) /\ (forall id, ~ core_asked id x') ->
    p = x_phase T /\ (p = THaltWait -> forallb core_over (upd (x_cores T) (Z.to_nat k) x') = false) \/ x_phase T = THaltWait /\ p = THaltAll /\ In (VAllCores i) (map snd new) ->
    tile_step i fired T (dt_phase (dt_core (dt_ctl T d') k x') p) new.
  Proof.
    intros IT TF N HK EN [S1 S2 S3 S4] HI HD EV EX HA HF HP.
    assert (N' : is_new (dt_phase (dt_core (dt_ctl T d') k x') p) = false) by (unfold is_new in *; cbn; destruct HP as [[-> _]|(_ & -> & _)]; auto).
    assert (EN' : nth_error (upd (x_cores T) (Z.to_nat k) x') (Z.to_nat k) = Some x') by (rewrite nth_error_upd, Nat.eqb_refl, EN; reflexivity).
    assert (EO : forall k', 0 <= k' -> k' <> k -> nth_error (upd (x_cores T) (Z.to_nat k) x') (Z.to_nat k') = nth_error (x_cores T) (Z.to_nat k')).
    { intros k' H1 H2. rewrite nth_error_upd. destruct (Nat.eqb_spec (Z.to_nat k) (Z.to_nat k')); [lia|reflexivity]. }
    assert (NF : forall e, part_of e = POwn -> (forall id, e <> VDone i k id) -> key e <> key fired).
    { intros e H1 H2. destruct HF as [HF|[[id ->] _]]; [apply part_neq; congruence|]. intros E. apply (H2 id). destruct e; try discriminate H1; try discriminate E. exact E. }
    assert (AK : forall k' id, asked (dt_phase (dt_core (dt_ctl T d') k x') p) k' id -> asked T k' id \/ k' = k /\ A id).
    { intros k' id. unfold asked. cbn. destruct (Z.eqb_spec k' (-1)) as [|NE]; [destruct HP as [[-> _]|(_ & -> & _)]; [auto|contradiction]|]. intros [H1 [y [H2 H3]]]. destruct (Z.eq_dec k' k) as [-> |NK].
      - rewrite EN' in H2. injection H2 as <-. destruct (S3 id H3) as [H4|H4]; auto. left. split; auto. exists x. auto.
      - left. split; auto. exists y. split; auto. rewrite <- EO; auto. }
    constructor.
    - destruct TF as [F1 F2 F3 F4]. constructor; cbn.
      + now apply Forall_upd.
      + intros k1 k2 id H1 H2. apply AK in H1, H2. destruct H1 as [H1|[-> H1]], H2 as [H2|[-> H2]]; eauto.
        * apply HA in H2. apply F3 in H1. lia.
        * apply HA in H1. apply F3 in H2. lia.
      + intros k1 id H1. apply AK in H1. destruct H1 as [H1|[_ H1]]; [apply F3 in H1; lia|apply HA in H1; lia].
      + intros E. destruct HP as [[_ HP]|(_ & HP & _)]; [auto|congruence].
    - apply tile_join with (k := k); auto.
      + intros k' NE. destruct HF as [HF|[[id ->] _]]; [congruence|discriminate].
      + apply (kept_more _ _ _ _ newk); auto. intros e HE (_ & y & H1 & H2). cbn in H1. rewrite EN' in H1. injection H1 as <-. destruct (S2 e HE H2) as [H|[H3 H4]]; auto. right. split; auto. split; auto. exists x. auto.
      + apply kept_same; auto. intros e HE. apply (rt_out i); auto. destruct HF as [HF|[[id ->] _]]; [rewrite HF|]; discriminate.
      + intros e [HE HO] HW.
        assert (HX : match e with VDone _ _ _ => True | _ => In (key e) (map key (map snd new)) \/ own_needs e T end).
        { destruct HP as [[-> _]|(EP & -> & HP)]; destruct e; try discriminate HO; cbn in HW |- *; try (right; exact HW); try contradiction; auto. left. cbn in HE. injection HE as ->. apply (in_map key) in HP. exact HP. }
        destruct e; try discriminate HO; try (destruct HX as [HX|HX]; [left; exact HX|right; split; [exact HX|apply NF; [reflexivity|discriminate]]]). clear HX. right. cbn in HW.
        destruct HW as [HV HW]. rewrite EV in HV. cbn in HE. injection HE as ->. destruct (AK _ _ HW) as [H|[-> H]].
        * split; [split; auto|]. destruct HF as [HF|[[id' ->] HF]]; [apply part_neq; rewrite HF; discriminate|]. intros E. cbn in E. injection E as -> ->. unfold asked in HW. cbn in HW. destruct (Z.eqb_spec k (-1)); [lia|].
          destruct HW as (_ & y & H1 & H2). rewrite EN' in H1. injection H1 as <-. exact (HF _ H2).
        * exfalso. apply HA in H. apply in_map_iff in HV as (v & <- & HV). pose proof (ci_values _ (ti_ctl _ _ IT)) as CV. rewrite Forall_forall in CV. apply CV in HV. lia.
    - exact N'.
    - constructor; cbn; auto. destruct HP as [[-> _]|(EP & -> & _)]; [auto|rewrite EP; auto].
    - reflexivity.
  Qed.
  Lemma set_phase_same (T : dtile) d k x : dt_phase (dt_core (dt_ctl T d) k x) (x_phase T) = dt_core (dt_ctl T d) k x.
  Proof. reflexivity. Qed.
  Lemma lift_core i fired (T : dtile) k x x' A d' newk new : tile_inv c T -> tile_fit T -> is_new T = false -> 0 <= k -> nth_error (x_cores T) (Z.to_nat k) = Some x ->
    core_step A i k fired x x' newk -> incl (map snd newk) (map snd new) ->
    kept (ctl_ev i) (fun e => ctl_needs e (x_ctl T)) (fun e => ctl_needs e d') fired new -> c_values d' = c_values (x_ctl T) -> c_next (x_ctl T) <= c_next d' ->
    (forall id, A id -> id = c_next (x_ctl T) /\ id < c_next d') ->
    part_of fired = PCore k \/ (exists id, fired = VDone i k id) /\ (forall id, ~ core_asked id x') -> fired <> VCoreEnd i k ->
    tile_step i fired T (dt_core (dt_ctl T d') k x') new.
  Proof.
    intros IT TF N HK EN S HI HD EV EX HA HF HC. rewrite <- set_phase_same. apply (lift_core' i fired T k x x' A d' (x_phase T) newk new); auto. left. split; auto. intros E. apply (over_upd _ _ x x' EN); [|now apply (tf_wait _ TF)].
    intros E'. destruct (ks_over _ _ _ _ _ _ _ S E'); [assumption|contradiction].
  Qed.
  Lemma lift_core_kept i fired (T : dtile) k x r : tile_inv c T -> tile_fit T -> is_new T = false -> 0 <= k -> nth_error (x_cores T) (Z.to_nat k) = Some x ->
    core_kept i k fired x r -> part_of fired = PCore k -> fired <> VCoreEnd i k ->
    tile_kept i fired T (dmap (fun dx => dt_core (dt_ctl T (fst dx)) k (snd dx)) (dmap (fun x' => (x_ctl T, x')) r)).
  Proof.
    intros IT TF N HK EN HR HF HC. destruct r as [x' new| |]; try exact I. cbn in *. eapply lift_core; eauto; try lia; try contradiction.
    - apply incl_refl.
    - apply kept_same; auto. intros e HE. apply (ctl_out i); auto. rewrite HF. discriminate.
  Qed.
  (** The memory controller changes. *)
  Lemma lift_ctl i fired (T : dtile) d' new : tile_inv c T -> tile_fit T -> is_new T = false ->
    kept (ctl_ev i) (fun e => ctl_needs e (x_ctl T)) (fun e => ctl_needs e d') fired new -> c_next d' = c_next (x_ctl T) ->
    (forall id, In id (map fst (c_values d')) -> In id (map fst (c_values (x_ctl T))) \/ exists r, In r (requests (x_ctl T)) /\ q_id r = id /\ In (VDone i (q_core r) id) (map snd new)) ->
    part_of fired = PCtl -> tile_step i fired T (dt_ctl T d') new.
  Proof.
    intros IT TF N HD EX HV HF. assert (AK : forall k' id, asked (dt_ctl T d') k' id <-> asked T k' id) by (intros; unfold asked; cbn; tauto). constructor.
    - destruct TF as [F1 F2 F3 F4]. constructor; cbn; auto. rewrite EX. exact F3.
    - apply tile_join with (k := 0); auto.
      + intros k' _. rewrite HF. discriminate.
      + apply kept_same; auto. intros e HE. apply (core_out i 0); auto. rewrite HF. discriminate.
      + apply kept_same; auto. intros e HE. apply (rt_out i); auto. rewrite HF. discriminate.
      + intros e [HE HP] HW. assert (NF : key e <> key fired) by (apply part_neq; congruence). destruct e; try discriminate HP; cbn in HW |- *; try (right; split; [exact HW|exact NF]).
        destruct HW as [H1 H2]. apply AK in H2. cbn in HE. injection HE as ->. destruct (HV _ H1) as [H|(r & R1 & R2 & R3)]; [right; auto|]. left. pose proof (ti_asked _ _ IT r R1) as H3. rewrite R2 in H3. rewrite (tf_inj _ TF _ _ _ H2 H3). apply (in_map key) in R3. exact R3.
    - exact N.
    - apply aside_same; reflexivity.
    - reflexivity.
  Qed.
  Lemma lift_ctl_kept i fired (T : dtile) r : tile_inv c T -> tile_fit T -> is_new T = false -> ctl_kept i fired (x_ctl T) r ->
    match r with DGo d' _ => c_next d' = c_next (x_ctl T) /\ c_values d' = c_values (x_ctl T) | _ => True end -> part_of fired = PCtl -> tile_kept i fired T (dmap (dt_ctl T) r).
  Proof. intros IT TF N HK HV HF. destruct r as [d' new| |]; try exact I. cbn in *. destruct HV as [E1 E2]. apply lift_ctl; auto. rewrite E2. auto. Qed.
  (** The router changes. *)
  Lemma lift_rt i fired (T : dtile) u' new : tile_fit T -> is_new T = false -> kept (rt_ev i) (fun e => rt_needs e (x_rt T)) (fun e => rt_needs e u') fired new ->
    (forall n, u_event u' = Some (n, Triggered) -> u_event (x_rt T) = Some (n, Triggered) \/ In (VSent i n) (map snd new)) ->
    u_buffers u' = u_buffers (x_rt T) -> (u_sender u' = u_sender (x_rt T) \/ midput (u_sender (x_rt T)) = false /\ midput (u_sender u') = false) ->
    part_of fired = PRt -> tile_step i fired T (dt_rt T u') new.
  Proof.
    intros TF N HR HE EB ES HF. assert (AK : forall k' id, asked (dt_rt T u') k' id <-> asked T k' id) by (intros; unfold asked; cbn; tauto). constructor.
    - destruct TF as [F1 F2 F3 F4]. constructor; cbn; auto.
    - apply tile_join with (k := 0); auto.
      + intros k' _. rewrite HF. discriminate.
      + apply kept_same; auto. intros e HX. apply (core_out i 0); auto. rewrite HF. discriminate.
      + apply kept_same; auto. intros e HX. apply (ctl_out i); auto. rewrite HF. discriminate.
      + intros e [HX HP] HW. assert (NF : key e <> key fired) by (apply part_neq; congruence). destruct e; try discriminate HP; cbn in HW |- *; try (right; split; [exact HW|exact NF]).
        cbn in HX. injection HX as ->. destruct (HE _ HW) as [H|H]; [right; auto|left]. apply (in_map key) in H. exact H.
    - exact N.
    - constructor; auto.
    - reflexivity.
  Qed.
  (** The process of an instruction goes on. *)
  Lemma lift_phase i fired (T T' : dtile) new : tile_inv c T -> tile_fit T -> is_new T = false -> is_new T' = false -> x_cores T' = x_cores T ->
    kept (ctl_ev i) (fun e => ctl_needs e (x_ctl T)) (fun e => ctl_needs e (x_ctl T')) fired new -> c_values (x_ctl T') = c_values (x_ctl T) -> c_next (x_ctl T) <= c_next (x_ctl T') ->
    kept (rt_ev i) (fun e => rt_needs e (x_rt T)) (fun e => rt_needs e (x_rt T')) fired new -> u_event (x_rt T') = u_event (x_rt T) -> u_buffers (x_rt T') = u_buffers (x_rt T) -> u_sender (x_rt T') = u_sender (x_rt T) ->
    x_ended T' = x_ended T -> part_of fired = POwn -> (forall n, fired <> VSent i n) -> (forall k id, fired = VDone i k id -> k = -1) ->
    (forall id, asked T' (-1) id -> id = c_next (x_ctl T) /\ id < c_next (x_ctl T')) ->
    midread (x_phase T) = false -> midread (x_phase T') = false -> (x_phase T' = THaltWait -> forallb core_over (x_cores T) = false) ->
    (forall e, own_ev i e -> match e with VDone _ _ _ | VSent _ _ => False | _ => True end -> own_needs e T' -> In (key e) (map key (map snd new))) ->
    tile_step i fired T T' new.
  Proof.
    intros IT TF N N' EC HD EV EX HR E1 E2 E3 EE HF NS ND HA M1 M2 HW HO.
    assert (AK : forall k id, k <> -1 -> asked T' k id -> asked T k id). { intros k id NE. unfold asked. destruct (Z.eqb_spec k (-1)); [contradiction|]. now rewrite EC. }
    constructor; auto.
    - destruct TF as [F1 F2 F3 F4]. constructor; rewrite ?EC; auto.
      + intros k k' id H1 H2. destruct (Z.eq_dec k (-1)) as [-> |N1], (Z.eq_dec k' (-1)) as [-> |N2]; auto.
        * apply HA in H1. apply AK in H2; auto. apply F3 in H2. lia.
        * apply HA in H2. apply AK in H1; auto. apply F3 in H1. lia.
        * apply AK in H1, H2; auto. eauto.
      + intros k id H1. destruct (Z.eq_dec k (-1)) as [-> |N1]; [apply HA in H1; lia|]. apply AK in H1; auto. apply F3 in H1. lia.
    - apply tile_join with (k := 0); auto.
      + intros. now rewrite EC.
      + intros k' _. rewrite HF. discriminate.
      + apply kept_same; [intros e _; unfold core_at; now rewrite EC|]. intros e HX. apply (core_out i 0); auto. rewrite HF. discriminate.
      + intros e HE H. pose proof (HO e HE) as HX. destruct HE as [HE HP]. destruct e; try discriminate HP; try (left; exact (HX I H)); cbn in HE; injection HE as ->; cbn in H; right.
        * destruct H as [H1 H2]. rewrite EV in H1. destruct (Z.eq_dec k (-1)) as [-> |NE].
          -- exfalso. apply HA in H2. apply in_map_iff in H1 as (v & <- & H1). pose proof (ci_values _ (ti_ctl _ _ IT)) as CV. rewrite Forall_forall in CV. apply CV in H1. lia.
          -- split; [split; auto|]. intros E. apply NE. destruct fired; try discriminate E. cbn in E. injection E as -> -> ->. eapply ND; reflexivity.
        * rewrite E1 in H. split; [exact H|]. intros E. destruct fired; try discriminate E. cbn in E. injection E as -> ->. eapply NS; reflexivity.
    - constructor; auto.
  Qed.
End Tile.
