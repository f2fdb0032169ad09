(** Refinement: the events of a router and of a tile's process that concern one tile. *)
From Verif Require Import PyBase PyLemmas MemoryModel CoreModel DramModel RouterModel SystemModel NodeModel NodeSpec DesModel DesRel DesCtl DesCore.

Section Tile.
  Variable Q : cop -> Prop.
  Variables (c : sys_cfg) (b now i : Z).
  Notation P := (real c).
  Notation U := (usable Q c).
  Notation booted_rel := (booted_rel Q c b now i).
  Notation vgo := (vgo c b now i). Notation vcrash := (vcrash c b now i). Notation vstep := (vstep c b now i).
  Notation tile_sim := (tile_sim Q c b now i).
  Notation dtile := (dtile core cells_valid).
  Notation rt_rel := (rt_rel c now i).
  Notation view_rt v r := (MkView (v_tile v) r (v_tc v) (v_cc v)).
  Hypothesis Hi : known_router (y_net c) i = true.

  Lemma booted_rt x v u' r' : booted_rel x v -> rt_rel (ahead_of (x_phase x)) r' u' -> r_client r' = r_client (v_rt v) ->
    u_running u' = u_running (x_rt x) -> (u_queue (x_rt x) = [] -> u_queue u' = []) -> booted_rel (dt_rt x u') (view_rt v r').
  Proof.
    intros [] R Hc Hr Hq. constructor; cbn; try assumption.
    - unfold phase_rel in *. cbn. rewrite Hc. destruct (x_phase x); auto; intuition.
    - unfold run_rel in *. cbn. rewrite Hr. exact br_run.
  Qed.
  Lemma view_rt_same v : view_rt v (v_rt v) = v.
  Proof. now destruct v. Qed.

  (** A step of the routers. *)
  Lemma net_action a n : tile_of a = i -> n_crash n = None ->
    nstep (y_net c) now a n =
      match a with
      | NSubmit i target data => n_submit (y_net c) now i target data n
      | NAdded i => n_added (y_net c) now i n
      | NTake i => n_take (y_net c) now i n
      | NTravel i => n_travel (y_net c) now i n
      | NStore i => n_store buffer_capacity i n
      | NCount i => n_count i n
      | NDone i => n_done i n
      | NRead i src => n_read (y_net c) i src n
      | NPop i => n_pop i n
      | NGot i => n_got i n
      | NHalt i => n_halt now i n
      | NPoll i => n_poll now i n
      | NStopped i => n_stopped i n
      end.
  Proof. intros H1 H2. unfold nstep, nstep_cap. rewrite H2, H1, Hi. reflexivity. Qed.
  Lemma net_step a v r : net_own a = true -> tile_of a = i ->
    (forall n, n_crash n = None -> n_router n i = v_rt v -> nstep (y_net c) now a n = Some (set_router n i r)) ->
    vstep v (view_rt v r).
  Proof. intros Ho Ha H. apply v_net with (a := a); [exact Ho|]. intros n H1 H2. eexists. split; [now apply H|now apply only_set]. Qed.

  Lemma send_get_sim x v : booted_rel x v -> vgo v (booted_rel (dt_rt x (fst (send_get now i (x_rt x))))).
  Proof.
    intros B. assert (Bs : booted_rel (dt_rt x (x_rt x)) v) by (destruct x; exact B).
    unfold send_get. destruct (u_sender (x_rt x)) eqn:Es; try (apply vgo_here; exact Bs).
    - destruct (u_queue (x_rt x)) as [|p rest] eqn:Eq; [apply vgo_here; exact Bs|].
      assert (R := br_rt _ _ _ _ _ _ _ B). destruct R. rewrite Es in rr_sender. cbn in rr_sender.
      assert (Er : u_running (x_rt x) = true) by (destruct (u_running (x_rt x)); [reflexivity|rewrite rr_empty in Eq by reflexivity; discriminate]).
      rewrite Eq in rr_queue, rr_src. assert (Hp : pk_src p = i) by now inversion rr_src.
      destruct (get_latency (y_net c) (pk_src p) (pk_dst p)) as [lat inter] eqn:El.
      set (r' := MkRouter true rest (STravel p now inter) (r_buffers (v_rt v)) (r_client (v_rt v)) (r_stat (v_rt v))
                  (r_submitted (v_rt v)) (r_delivered (v_rt v))).
      assert (S : forall n, n_crash n = None -> n_router n i = v_rt v -> nstep (y_net c) now (NTake i) n =
                (if negb (known_router (y_net c) (pk_dst p)) then Some (net_crash (set_router n i r') KeyError)
                 else if lat <? 0 then Some (net_crash (set_router n i r') ValueError) else Some (set_router n i r'))).
      { intros n H1 H2. rewrite net_action by auto. unfold n_take. rewrite H2, rr_running, Er, rr_sender, rr_queue, El. reflexivity. }
      destruct (known_router (y_net c) (pk_dst p)) eqn:Ek; cbn [negb] in S.
      + destruct (lat <? 0) eqn:Elat.
        * right. apply v_net_crash with (a := NTake i); [reflexivity|]. intros n H1 H2. eexists. split; [now apply S|discriminate].
        * eapply vgo_one; [apply net_step with (a := NTake i) (r := r'); [reflexivity|reflexivity|exact S]|].
          apply booted_rt; [exact B| |reflexivity|reflexivity|cbn; congruence].
          constructor; cbn; auto.
          -- intro H. congruence.
          -- now inversion rr_src.
          -- rewrite El. cbn. repeat split; auto; lia.
      + right. apply v_net_crash with (a := NTake i); [reflexivity|]. intros n H1 H2. eexists. split; [now apply S|discriminate].
    - destruct dangling; [|apply vgo_here; exact Bs].
      destruct (u_queue (x_rt x)) as [|p rest] eqn:Eq; [apply vgo_here; exact Bs|].
      destruct (br_rt _ _ _ _ _ _ _ B). destruct (u_running (x_rt x)) eqn:Er.
      + specialize (rr_alive eq_refl). rewrite Es in rr_alive. contradiction.
      + rewrite rr_empty in Eq by reflexivity. discriminate.
  Qed.

  Lemma send_put_sim x v : booted_rel x v -> tile_sim U v (dmap (dt_rt x) (go (send_get now i (x_rt x)))).
  Proof. intro B. cbn. now apply send_get_sim. Qed.

  Lemma booted_sender x v z r' : booted_rel x v -> sender_rel c now i z (r_sender r') ->
    (u_running (x_rt x) = true -> match z with ZDead _ => False | _ => True end) ->
    r' = set_sender (v_rt v) (r_sender r') ->
    booted_rel (dt_rt x (rt_sender (x_rt x) z)) (view_rt v r').
  Proof.
    intros B S Ha E. apply booted_rt; [exact B| |rewrite E; reflexivity|reflexivity|auto].
    destruct (br_rt _ _ _ _ _ _ _ B). rewrite E. constructor; cbn; auto.
  Qed.
  Lemma set_sender_same r : r = set_sender r (r_sender r).
  Proof. now destruct r. Qed.

  Lemma sender_start_sim x v : booted_rel x v -> tile_sim U v (dmap (dt_rt x) (sender_start now i (x_rt x))).
  Proof.
    intro B. unfold sender_start. destruct (u_sender (x_rt x)) eqn:Es; try exact I. cbn.
    assert (B' : booted_rel (dt_rt x (rt_sender (x_rt x) ZWaiting)) v).
    { rewrite <- (view_rt_same v). apply booted_sender; auto; [|apply set_sender_same].
      assert (R := rr_sender _ _ _ _ _ _ (br_rt _ _ _ _ _ _ _ B)). rewrite Es in R. exact R. }
    exact (send_get_sim _ _ B').
  Qed.

  Lemma on_send_sim x v : booted_rel x v -> tile_sim U v (dmap (dt_rt x) (on_send c i (x_rt x))).
  Proof.
    intro B. unfold on_send. assert (R := rr_sender _ _ _ _ _ _ (br_rt _ _ _ _ _ _ _ B)).
    destruct (u_sender (x_rt x)) eqn:Es; try exact I.
    - cbn in R. destruct R as (R1 & R2 & R3 & R4).
      destruct (get_latency (y_net c) (pk_src p) (pk_dst p)) as [lat inter] eqn:El. rewrite R3. cbn [negb]. cbn in R1, R4.
      unfold timeout. destruct (lat <? 0) eqn:E; [lia|]. cbn. apply vgo_here.
      rewrite <- (view_rt_same v). apply booted_rt; auto.
      destruct (br_rt _ _ _ _ _ _ _ B). constructor; cbn; auto.
    - cbn. apply vgo_here. destruct x; exact B.
  Qed.
  Lemma on_travel_sim x v : booted_rel x v -> tile_sim U v (dmap (dt_rt x) (on_travel c now i (x_rt x))).
  Proof.
    intro B. unfold on_travel. assert (R := rr_sender _ _ _ _ _ _ (br_rt _ _ _ _ _ _ _ B)).
    destruct (u_sender (x_rt x)) eqn:Es; try exact I. destruct (now <? _) eqn:E; [exact I|]. cbn. apply vgo_here.
    rewrite <- (view_rt_same v). apply booted_sender; auto; [|apply set_sender_same].
    cbn in *. destruct R as (R1 & R2 & R3). split; [|auto]. exists since. split; [exact R1|lia].
  Qed.
  Lemma sender_int_sim x v : booted_rel x v -> tile_sim U v (dmap (dt_rt x) (sender_int (x_rt x))).
  Proof.
    intro B. unfold sender_int. assert (R := rr_sender _ _ _ _ _ _ (br_rt _ _ _ _ _ _ _ B)).
    destruct (u_running (x_rt x)) eqn:Er; [exact I|]. destruct (u_sender (x_rt x)) eqn:Es; try exact I. cbn. apply vgo_here.
    rewrite <- (view_rt_same v). apply booted_sender; [exact B|exact R|intro; congruence|apply set_sender_same].
  Qed.
  Lemma on_arrived_sim x v : booted_rel x v -> tile_sim U v (dmap (dt_rt x) (on_arrived now i (x_rt x))).
  Proof.
    intro B. unfold on_arrived. destruct (br_rt _ _ _ _ _ _ _ B). 
    destruct (u_sender (x_rt x)) eqn:Es; try exact I. destruct (u_event (x_rt x)) as [[n [| |]]|] eqn:Ee; try exact I.
    destruct rr_sender as [S1 S2].
    set (st x := MkRStats (packets_created x)
           (if inter then packets_sent_internode x + 1 else packets_sent_internode x)
           (if inter then packets_sent_intranode x else packets_sent_intranode x + 1)
           (packets_sent x + 1) (packets_received x) (packets_read x)).
    set (u1 := rt_event (rt_sender (rt_stat (x_rt x) (st (u_stat (x_rt x)))) ZWaiting) (Some (n, Triggered))).
    set (r' := set_sender (set_stat (v_rt v) (st (r_stat (v_rt v)))) SIdle).
    assert (B' : booted_rel (dt_rt x u1) (view_rt v r')).
    { apply booted_rt; auto. constructor; cbn; auto.
      rewrite rr_stat. destruct (ahead_of (x_phase x)); reflexivity. }
    assert (S : vstep v (view_rt v r')).
    { apply net_step with (a := NDone i); [reflexivity|reflexivity|]. intros m H1 H2. rewrite net_action by auto.
      unfold n_done. rewrite H2, S1. reflexivity. }
    assert (G := send_get_sim _ _ B'). change (x_rt (dt_rt x u1)) with u1 in G.
    change (MkRStats _ _ _ _ _ _) with (st (u_stat (x_rt x))). fold u1.
    destruct (send_get now i u1) as [u2 l]. cbn. eapply vgo_step; [exact S|]. exact G.
  Qed.

  (** ** The tile's process *)
  Record parts (x : dtile) (v : view) : Prop := {
    pa_ctl : ctl_rel (t_dram (v_tile v)) (x_ctl x);
    pa_cores : cores_rel Q (c_values (x_ctl x)) (v_cc v) (t_cores (v_tile v)) (x_cores x);
    pa_rt : rt_rel false (v_rt v) (x_rt x) }.
  Lemma booted_parts x v : booted_rel x v -> ahead_of (x_phase x) = false -> parts x v.
  Proof. intros [] H. rewrite H in br_rt. constructor; assumption. Qed.
  Lemma not_ended x v : booted_rel x v -> x_phase x <> TDone -> x_ended x = false.
  Proof. intros [] H. destruct (x_ended x); [|reflexivity]. now specialize (br_ended eq_refl). Qed.
  Lemma parts_booted x v ph : parts x v -> ahead_of ph = false -> x_ended x = false ->
    phase_rel c b i (dt_phase x ph) (v_tile v) (v_rt v) (v_tc v) -> run_rel (dt_phase x ph) -> booted_rel (dt_phase x ph) v.
  Proof. intros [] Ha He Hp Hr. constructor; cbn; try assumption; [now rewrite Ha|congruence]. Qed.
  Lemma parts_tile x v T r tc : parts x v -> t_dram T = t_dram (v_tile v) -> t_cores T = t_cores (v_tile v) ->
    rt_rel false r (x_rt x) -> parts x (MkView T r tc (v_cc v)).
  Proof. intros [] H1 H2 H3. constructor; cbn; rewrite ?H1, ?H2; assumption. Qed.
  Lemma tc_same T T' tc : t_prog T' <> [] -> tc_after b now T T' tc = tc.
  Proof. intro H. unfold tc_after. destruct (t_prog T'); [congruence|reflexivity]. Qed.
  Lemma run_eq x v : booted_rel x v -> match x_phase x with TStopEnd => False | _ => True end -> c_running (x_ctl x) = u_running (x_rt x).
  Proof. intros [] H. unfold run_rel in br_run. destruct (x_phase x); try contradiction; try exact br_run; destruct br_run; congruence. Qed.

  (** A step of the tile's process without the router. *)
  Lemma tile_quiet v T : (forall n, n_crash n = None -> n_router n i = v_rt v -> tile_step buffer_capacity c now i n (v_tile v) = Go (n, T)) ->
    vstep v (MkView T (v_rt v) (tc_after b now (v_tile v) T (v_tc v)) (v_cc v)).
  Proof. intro H. apply v_tile_step. intros n H1 H2. exists n. split; [now apply H|]. rewrite <- H2. now apply only_same. Qed.
  (** ... and with it. *)
  Lemma tile_net v T r a : tile_of a = i ->
    (forall n, n_crash n = None -> n_router n i = v_rt v -> tile_step buffer_capacity c now i n (v_tile v) = with_net buffer_capacity c now a n T) ->
    (forall n, n_crash n = None -> n_router n i = v_rt v -> nstep (y_net c) now a n = Some (set_router n i r)) ->
    vstep v (MkView T r (tc_after b now (v_tile v) T (v_tc v)) (v_cc v)).
  Proof.
    intros Ha H1 H2. apply v_tile_step. intros n Hc Hr. exists (set_router n i r). split; [|now apply only_set].
    rewrite H1 by assumption. unfold with_net. specialize (H2 n Hc Hr). unfold nstep in H2. rewrite H2.
    replace (n_crash (set_router n i r)) with (@None exn) by (cbn; congruence). reflexivity.
  Qed.
  Lemma tile_net_crash v T a e : tile_of a = i ->
    (forall n, n_crash n = None -> n_router n i = v_rt v -> tile_step buffer_capacity c now i n (v_tile v) = with_net buffer_capacity c now a n T) ->
    (forall n, n_crash n = None -> n_router n i = v_rt v -> exists n', nstep (y_net c) now a n = Some n' /\ n_crash n' = Some e) ->
    vcrash v.
  Proof.
    intros Ha H1 H2. apply v_tile_crash with (e := e). intros n Hc Hr. rewrite H1 by assumption. unfold with_net.
    destruct (H2 n Hc Hr) as (n' & Hn & Hx). unfold nstep in Hn. now rewrite Hn, Hx.
  Qed.

  (** The instruction's process ends. *)
  Lemma end_sim x v log : parts x v -> x_ended x = false -> c_running (x_ctl x) = u_running (x_rt x) ->
    t_prog (v_tile v) = x_prog x -> x_prog x <> [] -> r_client (v_rt v) = KIdle ->
    (forall n, n_crash n = None -> n_router n i = v_rt v -> tile_step buffer_capacity c now i n (v_tile v) = Go (n, next_op (v_tile v) log)) ->
    vgo v (booted_rel (fst (op_end now i x))).
  Proof.
    intros Pa He Hr Hp Hn Hc S. eapply vgo_one; [apply tile_quiet; exact S|]. unfold op_end, fst.
    apply parts_booted; auto.
    - apply parts_tile; auto. apply Pa.
    - unfold phase_rel. cbn. rewrite Hp. repeat split; auto. intro E. unfold tc_after. cbn. rewrite Hp, E.
      destruct (x_prog x); [congruence|reflexivity].
  Qed.

  Lemma send_rows_sim x v rows : parts x v -> x_ended x = false -> u_running (x_rt x) = true -> c_running (x_ctl x) = true ->
    t_prog (v_tile v) = x_prog x -> is_send (x_prog x) -> r_client (v_rt v) = KIdle ->
    t_phase (v_tile v) = PSending rows -> vgo v (booted_rel (fst (send_rows now i rows x))).
  Proof.
    intros Pa He Hu Hc Hp Hs Hk Hph.
    assert (Hs' : exists a t w n rest, x_prog x = TSend a t w n :: rest)
      by (unfold is_send in Hs; destruct (x_prog x) as [|[]]; try contradiction; repeat eexists).
    destruct Hs' as (a & t & w & n & rest & Hx). destruct rows as [|row rows]; cbn [send_rows].
    - apply end_sim with (log := []); auto; [congruence|congruence|]. intros m H1 H2. unfold tile_step. rewrite Hp, Hx, Hph, H2, Hk. reflexivity.
    - apply vgo_here. unfold fst. apply parts_booted; auto.
      + unfold phase_rel. cbn. repeat split; auto. congruence.
      + unfold run_rel. cbn. auto.
  Qed.

  Lemma parts_ctl x v D' d' T : parts x v -> keeps (x_ctl x) d' -> ctl_rel D' d' -> t_dram T = D' -> t_cores T = t_cores (v_tile v) ->
    parts (dt_ctl x d') (MkView T (v_rt v) (v_tc v) (v_cc v)).
  Proof.
    intros [] [K1 K2] R H1 H2. constructor; cbn; rewrite ?H1, ?H2; auto. eapply cores_mono; [exact K2|exact pa_cores0].
  Qed.

  Lemma recv_rows_sim x v got addr src w vec rest : parts x v -> x_ended x = false -> c_running (x_ctl x) = u_running (x_rt x) ->
    t_prog (v_tile v) = x_prog x -> x_prog x = TRecv addr src w vec :: rest -> r_client (v_rt v) = KIdle ->
    t_phase (v_tile v) = PRecv got -> tile_sim U v (recv_rows now i addr vec got x).
  Proof.
    intros Pa He Hr Hp Hx Hk Hph. unfold recv_rows. destruct (zlen got <? vec) eqn:E.
    - cbn. apply vgo_here. apply parts_booted; auto. unfold phase_rel. cbn. rewrite Hx. repeat split; auto; [congruence|discriminate|lia].
    - assert (S := submit_rel now i _ _ (-1) addr (RWrite got) (pa_ctl _ _ Pa)).
      assert (T : forall n, n_crash n = None -> n_router n i = v_rt v -> tile_step buffer_capacity c now i n (v_tile v) =
                match dc_submit now (-1) addr (RWrite got) (t_dram (v_tile v)) with
                | (Raise e, _) => Crash e
                | (Ok r, d) => Go (n, MkTile d (t_cores (v_tile v)) (t_prog (v_tile v)) (PRecvWrite (q_id r))
                                       (t_log (v_tile v) ++ [EvRecv addr src w vec got]))
                end).
      { intros n H1 H2. unfold tile_step. rewrite Hp, Hx, Hph, H2, Hk, E. rewrite <- Hx, <- Hp. reflexivity. }
      destruct (submit now i (-1) addr (RWrite got) (x_ctl x)) as [[r d'] new|e|]; [| |contradiction].
      + destruct S as (D' & S & R' & K & Hrun). rewrite S in T. cbn.
        eapply vgo_one; [apply tile_quiet; exact T|]. rewrite tc_same by (cbn; congruence).
        apply parts_booted; auto.
        * eapply parts_ctl; eauto.
        * unfold phase_rel. cbn. repeat split; auto. congruence.
        * unfold run_rel. cbn. destruct K as [K _]. congruence.
      + cbn. intros _. eapply v_tile_crash. intros n H1 H2. rewrite T, S by assumption. reflexivity.
  Qed.

  Lemma on_op_sim x v : booted_rel x v -> tile_sim U v (on_op now i x).
  Proof.
    intro B. unfold on_op. destruct (x_phase x) eqn:Eph; try exact I.
    assert (Pa := booted_parts x v B ltac:(now rewrite Eph)). assert (He := not_ended x v B ltac:(congruence)).
    assert (Hr := run_eq x v B ltac:(now rewrite Eph)).
    assert (Hp := br_phase _ _ _ _ _ _ _ B). unfold phase_rel in Hp. rewrite Eph in Hp. destruct Hp as (Hp & Hn & Hph & Hk).
    destruct (x_prog x) as [|[addr target w vec|addr src w vec|] rest] eqn:Ex; [exact I| | |].
    - assert (S := submit_rel now i _ _ (-1) addr (RRead w vec) (pa_ctl _ _ Pa)).
      assert (T : forall n, n_crash n = None -> n_router n i = v_rt v -> tile_step buffer_capacity c now i n (v_tile v) =
                match dc_submit now (-1) addr (RRead w vec) (t_dram (v_tile v)) with
                | (Raise e, _) => Crash e
                | (Ok r, d) => Go (n, MkTile d (t_cores (v_tile v)) (t_prog (v_tile v)) (PSendRead (q_id r)) (t_log (v_tile v)))
                end).
      { intros n H1 H2. unfold tile_step. rewrite Hp, Hph. reflexivity. }
      destruct (submit now i (-1) addr (RRead w vec) (x_ctl x)) as [[r d'] new|e|]; [| |contradiction].
      + destruct S as (D' & S & R' & K & Hrun). rewrite S in T. cbn.
        eapply vgo_one; [apply tile_quiet; exact T|]. rewrite tc_same by (cbn; congruence).
        apply parts_booted; auto.
        * eapply parts_ctl; eauto.
        * unfold phase_rel. cbn. repeat split; auto; congruence.
        * unfold run_rel. cbn. destruct K as [K _]. split; congruence.
      + cbn. intros _. eapply v_tile_crash. intros n H1 H2. rewrite T, S by assumption. reflexivity.
    - destruct ((w <? 0) || (vec <? 0)) eqn:Ew.
      + cbn. intros _. apply v_tile_crash with (e := ValueError). intros n H1 H2. unfold tile_step. rewrite Hp, Hph, Ew. reflexivity.
      + set (T := set_phase (v_tile v) (PRecv [])).
        assert (S : vstep v (MkView T (v_rt v) (tc_after b now (v_tile v) T (v_tc v)) (v_cc v))).
        { apply tile_quiet. intros n H1 H2. unfold tile_step. rewrite Hp, Hph, Ew. reflexivity. }
        assert (L := recv_rows_sim x _ [] addr src w vec rest
                  (parts_tile x v T (v_rt v) (tc_after b now (v_tile v) T (v_tc v)) Pa eq_refl eq_refl (pa_rt _ _ Pa)) He Hr
                  ltac:(cbn; congruence) ltac:(congruence) Hk eq_refl).
        destruct (recv_rows now i addr vec [] x) as [x' new|e|]; cbn in *; [eapply vgo_step; eassumption| |exact I].
        intro HU. eapply vcrash_trans; [exact S|]. now apply L.
    - assert (G : forall ph, (ph = THaltWait \/ (all_over (x_cores x) /\ (ph = THaltAll \/ ph = TStopNew))) -> vgo v (booted_rel (dt_phase x ph))).
      { intros ph Hph'. apply vgo_here. apply parts_booted; auto.
        - destruct Hph' as [->|[_ [->| ->]]]; reflexivity.
        - unfold phase_rel. cbn. rewrite Ex. destruct Hph' as [->|[Ha [->| ->]]]; repeat split; auto; discriminate.
        - unfold run_rel. cbn. destruct Hph' as [->|[Ha [->| ->]]]; assumption. }
      destruct (x_cores x) as [|k0 ks] eqn:Ec.
      + cbn. apply G. right. split; [reflexivity|auto].
      + destruct (forallb core_over (k0 :: ks)) eqn:Eo; cbn; apply G; auto.
  Qed.

  Lemma on_op_end_sim x v : booted_rel x v -> tile_sim U v (on_op_end b now i x).
  Proof.
    intro B. unfold on_op_end. destruct (x_phase x) eqn:Eph; try exact I. destruct (negb (now =? at_)) eqn:En; [exact I|].
    assert (now = at_) by lia. subst at_.
    assert (Pa := booted_parts x v B ltac:(now rewrite Eph)). assert (He := not_ended x v B ltac:(congruence)).
    assert (Hr := run_eq x v B ltac:(now rewrite Eph)).
    assert (Hp := br_phase _ _ _ _ _ _ _ B). unfold phase_rel in Hp. rewrite Eph in Hp. destruct Hp as (Hp & Hph & Hk & Hn & Hc).
    cbn. apply vgo_here. unfold next_instr. cbn. destruct (tl (x_prog x)) as [|o r] eqn:Et; cbn.
    - destruct Pa. constructor; cbn; auto.
      + unfold phase_rel. cbn. repeat split; auto.
    - destruct Pa. constructor; cbn; auto; [|congruence].
      unfold phase_rel. cbn. repeat split; auto. discriminate.
  Qed.

  Lemma tile_done_sim x v id : booted_rel x v -> tile_sim U v (tile_done now i id x).
  Proof.
    intro B. unfold tile_done. destruct (x_phase x) eqn:Eph; try exact I.
    - assert (Pa := booted_parts x v B ltac:(now rewrite Eph)). assert (He := not_ended x v B ltac:(congruence)).
      assert (Hr := br_run _ _ _ _ _ _ _ B). unfold run_rel in Hr. rewrite Eph in Hr. destruct Hr as [Hu Hc].
      assert (Hp := br_phase _ _ _ _ _ _ _ B). unfold phase_rel in Hp. rewrite Eph in Hp. destruct Hp as (Hp & Hn & Hph & Hk).
      destruct (x_prog x) as [|[addr target w vec|addr src w vec|] rest] eqn:Ex; try exact I.
      destruct (value_of id (c_values (x_ctl x))) as [data|] eqn:Ev; [|exact I].
      destruct (negb (id =? id0)) eqn:Eid; [exact I|]. assert (id0 = id) by lia. subst id0.
      assert (Hv := cr_values _ _ (pa_ctl _ _ Pa) id). rewrite Ev in Hv.
      destruct ((w <? 0) || (vec <? 0)) eqn:Ew.
      + cbn. intros _. apply v_tile_crash with (e := ValueError). intros n H1 H2. unfold tile_step. rewrite Hp, Hph, Hv, Ew. reflexivity.
      + cbn. set (T := MkTile (t_dram (v_tile v)) (t_cores (v_tile v)) (t_prog (v_tile v)) (PSending (rows_of w vec data))
                          (t_log (v_tile v) ++ [EvSend addr target w vec data])).
        eapply vgo_step; [apply tile_quiet with (T := T)|].
        * intros n H1 H2. unfold tile_step. rewrite Hp, Hph, Hv, Ew. unfold T. now rewrite Hp.
        * apply send_rows_sim; auto.
          -- apply parts_tile; auto. apply Pa.
          -- cbn. congruence.
          -- now rewrite Ex.
    - assert (Pa := booted_parts x v B ltac:(now rewrite Eph)). assert (He := not_ended x v B ltac:(congruence)).
      assert (Hr := run_eq x v B ltac:(now rewrite Eph)).
      assert (Hp := br_phase _ _ _ _ _ _ _ B). unfold phase_rel in Hp. rewrite Eph in Hp. destruct Hp as (Hp & Hn & Hph & Hk).
      destruct (x_prog x) as [|[addr target w vec|addr src w vec|] rest] eqn:Ex; try exact I.
      destruct (value_of id (c_values (x_ctl x))) as [data|] eqn:Ev; [|exact I].
      destruct (negb (id =? id0)) eqn:Eid; [exact I|]. assert (id0 = id) by lia. subst id0.
      assert (Hv := cr_values _ _ (pa_ctl _ _ Pa) id). rewrite Ev in Hv.
      cbn. apply end_sim with (log := []); auto; [congruence|congruence|].
      intros n H1 H2. unfold tile_step. rewrite Hp, Hph, Hv. reflexivity.
  Qed.

  Lemma on_add_sim x v : booted_rel x v -> tile_sim U v (on_add c now i x).
  Proof.
    intro B. unfold on_add. destruct (x_phase x) eqn:Eph; try exact I.
    assert (Pa := booted_parts x v B ltac:(now rewrite Eph)). assert (He := not_ended x v B ltac:(congruence)).
    assert (Hr := br_run _ _ _ _ _ _ _ B). unfold run_rel in Hr. rewrite Eph in Hr. destruct Hr as [Hu Hc].
    assert (Hp := br_phase _ _ _ _ _ _ _ B). unfold phase_rel in Hp. rewrite Eph in Hp. destruct Hp as (Hp & Hn & Hph & Hk & Hs).
    destruct (x_prog x) as [|[addr target w vec|addr src w vec|] r0] eqn:Ex; try exact I.
    set (p := MkPacket i target row).
    set (T := set_phase (v_tile v) (PSending rest)).
    set (r' := MkRouter true (r_queue (v_rt v) ++ [p]) (r_sender (v_rt v)) (r_buffers (v_rt v)) (KAdding now) (r_stat (v_rt v))
                  (r_submitted (v_rt v) ++ [p]) (r_delivered (v_rt v))).
    assert (S1 : forall n, n_crash n = None -> n_router n i = v_rt v ->
                 tile_step buffer_capacity c now i n (v_tile v) = with_net buffer_capacity c now (NSubmit i target row) n T).
    { intros n H1 H2. unfold tile_step. rewrite Hp, Hph, H2, Hk. reflexivity. }
    assert (S2 : forall n, n_crash n = None -> n_router n i = v_rt v -> nstep (y_net c) now (NSubmit i target row) n =
                (if w_data_lat (y_net c) <? 0 then Some (net_crash (set_router n i r') ValueError) else Some (set_router n i r'))).
    { intros n H1 H2. rewrite net_action by auto. unfold n_submit.
      rewrite H2, Hk, (rr_running _ _ _ _ _ _ (pa_rt _ _ Pa)), Hu. reflexivity. }
    unfold dbind, timeout. destruct (w_data_lat (y_net c) <? 0) eqn:El; cbn.
    - intros _. eapply tile_net_crash with (e := ValueError); [|exact S1|]; [reflexivity|].
      intros n H1 H2. eexists. split; [now apply S2|reflexivity].
    - eapply vgo_one; [apply tile_net with (a := NSubmit i target row); [reflexivity|exact S1|exact S2]|].
      rewrite tc_same by (cbn; congruence).
      assert (R := pa_rt _ _ Pa). destruct Pa as [Pc Pk _]. destruct R.
      constructor; cbn; try assumption; try congruence.
      + constructor; cbn; try assumption; try congruence.
        apply Forall_app. split; [exact rr_src|constructor; [reflexivity|constructor]].
      + unfold phase_rel. cbn. repeat split; auto; congruence.
      + unfold run_rel. cbn. auto.
  Qed.

  Lemma on_add_time_sim x v : booted_rel x v -> tile_sim U v (on_add_time c now i x).
  Proof.
    intro B. unfold on_add_time. destruct (x_phase x) eqn:Eph; try exact I. destruct (now <? _) eqn:Et; [exact I|].
    assert (Pa := booted_parts x v B ltac:(now rewrite Eph)). assert (He := not_ended x v B ltac:(congruence)).
    assert (Hr := br_run _ _ _ _ _ _ _ B). unfold run_rel in Hr. rewrite Eph in Hr.
    assert (Hp := br_phase _ _ _ _ _ _ _ B). unfold phase_rel in Hp. rewrite Eph in Hp. destruct Hp as (Hp & Hn & Hph & Hk & Hs).
    cbn. set (up t := MkRStats (packets_created t + 1) (packets_sent_internode t) (packets_sent_intranode t)
             (packets_sent t) (packets_received t) (packets_read t)).
    eapply vgo_one; [apply net_step with (a := NAdded i) (r := set_client (set_stat (v_rt v) (up (r_stat (v_rt v)))) KIdle);
                     [reflexivity|reflexivity|]|].
    - intros n H1 H2. rewrite net_action by auto. unfold n_added. rewrite H2, Hk, Et. reflexivity.
    - assert (R := pa_rt _ _ Pa). destruct Pa as [Pc Pk _]. destruct R.
      constructor; cbn; try assumption; try congruence.
      + constructor; cbn; try assumption; try congruence. now rewrite rr_stat.
      + unfold phase_rel. cbn. repeat split; auto; congruence.
  Qed.

  Lemma on_added_sim x v : booted_rel x v -> tile_sim U v (on_added now i x).
  Proof.
    intro B. unfold on_added. destruct (x_phase x) eqn:Eph; try exact I.
    assert (Pa := booted_parts x v B ltac:(now rewrite Eph)). assert (He := not_ended x v B ltac:(congruence)).
    assert (Hr := br_run _ _ _ _ _ _ _ B). unfold run_rel in Hr. rewrite Eph in Hr. destruct Hr as [Hu Hc].
    assert (Hp := br_phase _ _ _ _ _ _ _ B). unfold phase_rel in Hp. rewrite Eph in Hp. destruct Hp as (Hp & Hn & Hph & Hk & Hs).
    cbn. apply send_rows_sim; auto.
  Qed.

  Lemma on_read_end_sim x v : booted_rel x v -> tile_sim U v (on_read_end now i x).
  Proof.
    intro B. unfold on_read_end. destruct (x_phase x) eqn:Eph; try exact I.
    assert (He := not_ended x v B ltac:(congruence)). assert (Hr := run_eq x v B ltac:(now rewrite Eph)).
    assert (Hp := br_phase _ _ _ _ _ _ _ B). unfold phase_rel in Hp. rewrite Eph in Hp. destruct Hp as (Hp & Hn & Hph & Hk & Hv).
    destruct (x_prog x) as [|[addr target w vec|addr source w vec|] r0] eqn:Ex; try exact I.
    set (r' := MkRouter (r_running (v_rt v)) (r_queue (v_rt v)) (r_sender (v_rt v)) (r_buffers (v_rt v)) KIdle
                 (count_read (r_stat (v_rt v))) (r_submitted (v_rt v)) (r_delivered (v_rt v) ++ [(src, data)])).
    assert (N : forall n, n_crash n = None -> n_router n i = v_rt v -> nstep (y_net c) now (NGot i) n = Some (set_router n i r')).
    { intros n H1 H2. rewrite net_action by auto. unfold n_got. rewrite H2, Hk. reflexivity. }
    assert (R : rt_rel false r' (x_rt x)).
    { destruct B. rewrite Eph in br_rt. destruct br_rt. constructor; cbn; auto. }
    destruct (zlen data =? w) eqn:Ew.
    - set (T := set_phase (v_tile v) (PRecv (got ++ [data]))).
      assert (S : vstep v (MkView T r' (tc_after b now (v_tile v) T (v_tc v)) (v_cc v))).
      { apply tile_net with (a := NGot i); [reflexivity| |exact N]. intros n H1 H2. unfold tile_step. rewrite Hp, Hph, H2, Hk, Ew. reflexivity. }
      assert (Pa : parts x (MkView T r' (tc_after b now (v_tile v) T (v_tc v)) (v_cc v))) by (destruct B; constructor; cbn; assumption).
      assert (L := recv_rows_sim x _ (got ++ [data]) addr source w vec r0 Pa He Hr
                ltac:(cbn; congruence) ltac:(congruence) eq_refl eq_refl).
      destruct (recv_rows now i addr vec (got ++ [data]) x) as [x' new|e|]; cbn in *; [eapply vgo_step; eassumption| |exact I].
      intro HU. eapply vcrash_trans; [exact S|]. now apply L.
    - cbn. set (T := next_op (v_tile v) [EvMismatch addr source w vec (got ++ [data])]).
      eapply vgo_one; [apply tile_net with (a := NGot i) (T := T); [reflexivity| |exact N]|].
      + intros n H1 H2. unfold tile_step. rewrite Hp, Hph, H2, Hk, Ew. reflexivity.
      + apply parts_booted; auto; [destruct B; constructor; cbn; assumption|].
        unfold phase_rel. cbn. rewrite Hp, Ex. repeat split; auto; try congruence. intro E. unfold tc_after. cbn in *. rewrite Hp, E. reflexivity.
  Qed.

  Lemma on_all_cores_sim x v : booted_rel x v -> tile_sim U v (on_all_cores i x).
  Proof.
    intro B. unfold on_all_cores. destruct (x_phase x) eqn:Eph; try exact I.
    assert (Pa := booted_parts x v B ltac:(now rewrite Eph)). assert (He := not_ended x v B ltac:(congruence)).
    assert (Hr := run_eq x v B ltac:(now rewrite Eph)).
    assert (Hp := br_phase _ _ _ _ _ _ _ B). unfold phase_rel in Hp. rewrite Eph in Hp.
    cbn. apply vgo_here. apply parts_booted; auto.
  Qed.

  Lemma all_halted x v : booted_rel x v -> all_over (x_cores x) -> forallb halted (t_cores (v_tile v)) = true.
  Proof.
    intros B H. apply forallb_forall. intros p Hp. apply In_nth_error in Hp as [j Hj].
    destruct (br_cores _ _ _ _ _ _ _ B) as [L C].
    destruct (nth_error (x_cores x) j) as [y|] eqn:Ey.
    - destruct (C _ _ _ Hj Ey). unfold all_over in H. rewrite forallb_forall in H. specialize (H y (nth_error_In _ _ Ey)).
      assert (Ho : over y = true) by (unfold over; unfold core_over in H; destruct (k_proc y); congruence).
      destruct (kr_over Ho) as (H1 & _). unfold halted. now rewrite H1.
    - apply nth_error_None in Ey. rewrite <- L in Ey. apply nth_error_None in Ey. congruence.
  Qed.
  Lemma halt_head (l : list top) : is_halt l -> exists r, l = THalt :: r.
  Proof. destruct l as [|[]]; try contradiction. intros _. eauto. Qed.

  Lemma on_stop_sim x v : booted_rel x v -> tile_sim U v (on_stop now i x).
  Proof.
    intro B. unfold on_stop. destruct (x_phase x) eqn:Eph; try exact I.
    assert (Pa := booted_parts x v B ltac:(now rewrite Eph)). assert (He := not_ended x v B ltac:(congruence)).
    assert (Hr := run_eq x v B ltac:(now rewrite Eph)).
    assert (Hp := br_phase _ _ _ _ _ _ _ B). unfold phase_rel in Hp. rewrite Eph in Hp. destruct Hp as (Hp & Hn & Hph & Hk & Hh & Ha).
    assert (Hall := all_halted x v B Ha). destruct (halt_head _ Hh) as [r0 Ex].
    assert (Rr := rr_running _ _ _ _ _ _ (pa_rt _ _ Pa)).
    assert (S1 : forall n, n_crash n = None -> n_router n i = v_rt v ->
                 tile_step buffer_capacity c now i n (v_tile v) = with_net buffer_capacity c now (NHalt i) n (set_phase (v_tile v) PHalting)).
    { intros n H1 H2. unfold tile_step. rewrite Hp, Ex, Hph, Hall. reflexivity. }
    destruct (u_running (x_rt x)) eqn:Eu; cbn.
    - eapply vgo_one; [eapply tile_net with (a := NHalt i) (r := set_client (v_rt v) (KPolling now)); [reflexivity|exact S1|]|].
      + intros n H1 H2. rewrite net_action by auto. unfold n_halt. rewrite H2, Hk, Rr. reflexivity.
      + rewrite tc_same by (cbn; congruence). apply parts_booted; auto.
        * apply parts_tile; auto. destruct (pa_rt _ _ Pa). constructor; cbn; auto; congruence.
        * unfold phase_rel. cbn. auto.
        * unfold run_rel. cbn. auto.
    - eapply vgo_one; [apply tile_quiet with (T := set_phase (v_tile v) PHalting)|].
      + intros n H1 H2. rewrite S1 by assumption. unfold with_net.
        assert (E : nstep (y_net c) now (NHalt i) n = Some n) by (rewrite net_action by auto; unfold n_halt; now rewrite H2, Hk, Rr).
        unfold nstep in E. now rewrite E, H1.
      + rewrite tc_same by (cbn; congruence). apply parts_booted; auto.
        * apply parts_tile; auto. apply Pa.
        * unfold phase_rel. cbn. auto.
  Qed.

  Lemma on_poll_sim x v : booted_rel x v -> tile_sim U v (on_poll now i x).
  Proof.
    intro B. unfold on_poll. destruct (x_phase x) eqn:Eph; try exact I. destruct (now <? next) eqn:Et; [exact I|].
    assert (Pa := booted_parts x v B ltac:(now rewrite Eph)). assert (He := not_ended x v B ltac:(congruence)).
    assert (Hr := br_run _ _ _ _ _ _ _ B). unfold run_rel in Hr. rewrite Eph in Hr.
    assert (Hp := br_phase _ _ _ _ _ _ _ B). unfold phase_rel in Hp. rewrite Eph in Hp. destruct Hp as (Hp & Hn & Hph & Hk & Hh).
    assert (Rq := rr_queue _ _ _ _ _ _ (pa_rt _ _ Pa)).
    assert (G : forall k ph, vstep v (view_rt v (set_client (v_rt v) k)) ->
                ((exists m, ph = TPolling m /\ k = KPolling m) \/ (ph = TEmptied /\ k = KDraining /\ u_queue (x_rt x) = [])) ->
                vgo v (booted_rel (dt_phase x ph))).
    { intros k ph S Hx. eapply vgo_one; [exact S|]. apply parts_booted; auto.
      - apply (parts_tile x v (v_tile v)); auto. destruct (pa_rt _ _ Pa). constructor; cbn; auto.
      - destruct Hx as [(m & -> & _)|[-> _]]; reflexivity.
      - unfold phase_rel. cbn. destruct Hx as [(m & -> & ->)|(-> & -> & Hq)]; repeat split; auto.
      - unfold run_rel. cbn. destruct Hx as [(m & -> & _)|[-> _]]; exact Hr. }
    destruct (u_queue (x_rt x)) as [|p q] eqn:Eq; cbn.
    - apply G with (k := KDraining); [|auto]. apply net_step with (a := NPoll i); [reflexivity|reflexivity|].
      intros n H1 H2. rewrite net_action by auto. unfold n_poll. rewrite H2, Hk, Et, Rq. reflexivity.
    - apply G with (k := KPolling (now + 1)); [|left; eauto]. apply net_step with (a := NPoll i); [reflexivity|reflexivity|].
      intros n H1 H2. rewrite net_action by auto. unfold n_poll. rewrite H2, Hk, Et, Rq. reflexivity.
  Qed.
  Lemma on_poll_time_sim x v : booted_rel x v -> tile_sim U v (on_poll_time i x).
  Proof. intro B. unfold on_poll_time. destruct (x_phase x) eqn:Eph; try exact I. cbn. now apply vgo_here. Qed.

  Lemma router_stop_sim x v : booted_rel x v -> (match x_phase x with TEmptied | TSentWait _ => True | _ => False end) ->
    tile_sim U v (router_stop i x).
  Proof.
    intros B Hx. unfold router_stop. destruct (u_sender (x_rt x)) eqn:Es; try exact I.
    assert (Pa := booted_parts x v B ltac:(destruct (x_phase x); try contradiction; reflexivity)).
    assert (He := not_ended x v B ltac:(destruct (x_phase x); try contradiction; discriminate)).
    assert (Hp := br_phase _ _ _ _ _ _ _ B). unfold phase_rel in Hp.
    assert (Hp' : t_prog (v_tile v) = x_prog x /\ x_prog x <> [] /\ t_phase (v_tile v) = PHalting /\ r_client (v_rt v) = KDraining /\
              is_halt (x_prog x) /\ u_queue (x_rt x) = []) by (destruct (x_phase x); try contradiction; exact Hp).
    clear Hp. destruct Hp' as (Hp & Hn & Hph & Hk & Hh & Hq). assert (R := pa_rt _ _ Pa). destruct R. rewrite Es in rr_sender. cbn in rr_sender.
    cbn. eapply vgo_one; [eapply net_step with (a := NStopped i); [reflexivity|reflexivity|]|].
    - intros n H1 H2. rewrite net_action by auto. unfold n_stopped. rewrite H2, Hk, rr_sender. reflexivity.
    - destruct Pa. constructor; cbn; try assumption; try congruence.
      + constructor; cbn; try assumption; try congruence.
      + unfold phase_rel. cbn. auto.
  Qed.

  Lemma on_empty_sim x v : booted_rel x v -> tile_sim U v (on_empty i x).
  Proof.
    intro B. unfold on_empty. destruct (x_phase x) eqn:Eph; try exact I.
    assert (W : forall n, tile_sim U v (DGo (dt_phase x (TSentWait n)) [])).
    { intro n. cbn. apply vgo_here.
      assert (Pa := booted_parts x v B ltac:(now rewrite Eph)). assert (He := not_ended x v B ltac:(congruence)).
      assert (Hr := br_run _ _ _ _ _ _ _ B). unfold run_rel in Hr. rewrite Eph in Hr.
      assert (Hp := br_phase _ _ _ _ _ _ _ B). unfold phase_rel in Hp. rewrite Eph in Hp.
      apply parts_booted; auto. }
    assert (S := router_stop_sim x v B ltac:(now rewrite Eph)).
    destruct (u_event (x_rt x)) as [[n [| |]]|]; auto.
  Qed.
  Lemma on_sent_sim x v number : booted_rel x v -> tile_sim U v (on_sent i number x).
  Proof.
    intro B. unfold on_sent. assert (H0 : tile_sim U v (DGo x [])) by now apply vgo_here.
    destruct (u_event (x_rt x)) as [[n [| |]]|]; auto. destruct (n =? number); auto.
    assert (B' : booted_rel (dt_rt x (rt_event (x_rt x) (Some (n, Processed)))) v).
    { rewrite <- (view_rt_same v). apply booted_rt; auto. destruct (br_rt _ _ _ _ _ _ _ B). constructor; cbn; auto. }
    assert (H1 : tile_sim U v (DGo (dt_rt x (rt_event (x_rt x) (Some (n, Processed)))) [])) by now apply vgo_here.
    destruct (x_phase x) eqn:Eph; auto. destruct (number0 =? number); auto.
    apply router_stop_sim; [exact B'|]. cbn. now rewrite Eph.
  Qed.

  Lemma on_stopped_sim x v : booted_rel x v -> tile_sim U v (on_stopped now i x).
  Proof.
    intro B. unfold on_stopped. destruct (x_phase x) eqn:Eph; try exact I.
    assert (Pa := booted_parts x v B ltac:(now rewrite Eph)). assert (He := not_ended x v B ltac:(congruence)).
    assert (Hr := br_run _ _ _ _ _ _ _ B). unfold run_rel in Hr. rewrite Eph in Hr.
    assert (Hp := br_phase _ _ _ _ _ _ _ B). unfold phase_rel in Hp. rewrite Eph in Hp. destruct Hp as (Hp & Hn & Hph & Hk & Hh).
    destruct (halt_head _ Hh) as [r0 Ex].
    assert (C := pa_ctl _ _ Pa). destruct C.
    assert (S : forall n, n_crash n = None -> n_router n i = v_rt v -> tile_step buffer_capacity c now i n (v_tile v) =
       (if c_running (x_ctl x) && negb (zlen (c_pending (x_ctl x)) =? 0) then Crash RuntimeError
        else Go (n, MkTile (dc_stop now (t_dram (v_tile v))) (t_cores (v_tile v)) (tl (t_prog (v_tile v))) PNext (t_log (v_tile v) ++ [EvHalt])))).
    { intros n H1 H2. unfold tile_step. rewrite Hp, Ex, Hph, H2, Hk, cr_running, cr_pending. reflexivity. }
    unfold ctl_stop. destruct (c_running (x_ctl x)) eqn:Er; cbn [negb andb] in *.
    - destruct (negb (zlen (c_pending (x_ctl x)) =? 0)) eqn:Ez.
      + cbn. intros _. eapply v_tile_crash. exact S.
      + cbn. eapply vgo_one; [apply tile_quiet; exact S|].
        assert (Pr := pa_rt _ _ Pa). destruct Pa as [_ Pk _].
        constructor; cbn; try assumption; try congruence.
        * unfold dc_stop. rewrite cr_running. cbn [negb]. constructor; cbn; try assumption; try discriminate; try congruence.
        * unfold phase_rel. cbn. rewrite Hp. repeat split; auto. intro E. unfold tc_after. cbn. rewrite Hp, E, Ex. reflexivity.
    - cbn. eapply vgo_one; [apply tile_quiet; exact S|].
      assert (Pr := pa_rt _ _ Pa). destruct Pa as [Pc Pk _].
      constructor; cbn; try assumption; try congruence.
      + unfold dc_stop. rewrite cr_running. exact Pc.
      + unfold phase_rel. cbn. rewrite Hp. repeat split; auto. intro E. unfold tc_after. cbn. rewrite Hp, E, Ex. reflexivity.
  Qed.

  Lemma core_end_sim x v k : 0 <= k -> booted_rel x v -> tile_sim U v (core_end i k x).
  Proof.
    intros Hk0 B. unfold core_end. destruct (nth_error (x_cores x) (Z.to_nat k)) as [y|] eqn:Ey; [|exact I].
    destruct (k_proc y) eqn:Ep; try exact I.
    set (x1 := dt_core x k (set_proc y CEnded (k_cycles y))).
    assert (B1 : booted_rel x1 v).
    { destruct (booted_find Q c b now i k x v y B Hk0 Ey) as (p & Hp & Hr).
      rewrite <- (view_same k v p Hp). 
      replace x1 with (dt_core (dt_ctl x (x_ctl x)) k (set_proc y CEnded (k_cycles y))) by (unfold x1; now destruct x).
      eapply booted_core; [exact B|exact Hk0|exact Ey|apply keeps_refl|apply B| | |auto].
      - destruct Hr. constructor; cbn; auto; [discriminate|]. intros _. apply kr_over. unfold over. now rewrite Ep.
      - intros _. reflexivity. }
    assert (H1 : tile_sim U v (DGo x1 [])) by now apply vgo_here.
    fold x1. destruct (x_phase x) eqn:Eph; auto. destruct (forallb core_over (x_cores x1)) eqn:Eo; auto. cbn.
    apply vgo_here. assert (E1 : x_phase x1 = THaltWait) by exact Eph.
    assert (Pa := booted_parts x1 v B1 ltac:(now rewrite E1)). assert (He := not_ended x1 v B1 ltac:(congruence)).
    assert (Hr := run_eq x1 v B1 ltac:(now rewrite E1)).
    assert (Hp := br_phase _ _ _ _ _ _ _ B1). unfold phase_rel in Hp. rewrite E1 in Hp. destruct Hp as (Hp & Hn & Hph & Hk & Hh).
    apply parts_booted; auto. unfold phase_rel. cbn. repeat split; auto.
  Qed.
End Tile.
