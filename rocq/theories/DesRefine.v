(** Refinement: all events of a node. *)
From Verif Require Import PyBase PyLemmas MemoryModel CoreModel DramModel RouterModel SystemModel NodeModel NodeSpec DesModel DesRel DesCtl DesCore DesTile.

Section Refine.
  Variable Q : cop -> Prop.
  Variables (c : sys_cfg) (b now : Z).
  Notation P := (real c).
  Notation U := (usable Q c).
  Notation node_rel := (node_rel Q c b now).
  Notation tile_rel := (tile_rel Q c b now).
  Notation booted_rel := (booted_rel Q c b now).
  Notation tile_sim := (tile_sim Q c b now).
  Notation dnode := (dnode core cells_valid).
  Notation dtile := (dtile core cells_valid).
  Notation view_rt v r := (MkView (v_tile v) r (v_tc v) (v_cc v)).

  Definition ncrash (N : node) : Prop := exists N', nsteps c now N N' /\ s_crash (nd_sys N') <> None.
  Definition node_sim (N : node) (r : dres dnode) : Prop :=
    match r with
    | DGo n' _ => (exists N', nsteps c now N N' /\ node_rel n' N') \/ ncrash N
    | DRaise _ => U -> ncrash N
    | DStuck => True
    end.
  Lemma sim_after N N1 r : nsteps c now N N1 -> node_sim N1 r -> node_sim N r.
  Proof.
    intros S H. assert (C : ncrash N1 -> ncrash N).
    { intros (N2 & H1 & H2). exists N2. split; [eapply nsteps_trans; eassumption|exact H2]. }
    destruct r; cbn in *; auto. destruct H as [(N2 & H1 & H2)|H]; [left|auto].
    exists N2. split; [eapply nsteps_trans; eassumption|exact H2].
  Qed.
  Lemma sim_here n N l : node_rel n N -> node_sim N (DGo n l).
  Proof. intro H. left. exists N. split; [constructor|exact H]. Qed.
  Lemma sim_bind N r f : node_sim N r -> (forall n' N' l, r = DGo n' l -> node_rel n' N' -> node_sim N' (f n')) -> node_sim N (dbind r f).
  Proof.
    intros H F. destruct r as [n' l|e|]; cbn [dbind]; auto. destruct H as [(N' & H1 & H2)|H].
    - specialize (F _ _ _ eq_refl H2). destruct (f n') eqn:E; eapply sim_after; eauto.
    - destruct (f n'); cbn; auto.
  Qed.

  Lemma the_tile_known n N i x : node_rel n N -> the_tile n i = Some x -> known_router (y_net c) i = true.
  Proof.
    intros R H. unfold the_tile in H. destruct (i <? 0) eqn:E; [discriminate|].
    assert (Z.to_nat i < length (z_tiles n))%nat by (apply nth_error_Some; congruence).
    assert (L := nr_length _ _ _ _ _ _ R). unfold zlen in L. unfold known_router. lia.
  Qed.
  Lemma the_tile_nneg (n : dnode) i x : the_tile n i = Some x -> 0 <= i.
  Proof. unfold the_tile. destruct (i <? 0) eqn:E; [discriminate|lia]. Qed.
  Lemma the_tile_put (n : dnode) i j x y : the_tile n i = Some x -> the_tile (put_tile n i y) j = if j =? i then Some y else the_tile n j.
  Proof.
    intros H. assert (Hi := the_tile_nneg _ _ _ H). unfold the_tile in *. destruct (i <? 0) eqn:E; [discriminate|].
    destruct (j <? 0) eqn:Ej; [destruct (j =? i) eqn:Eji; [lia|reflexivity]|]. cbn.
    rewrite nth_error_upd. destruct (j =? i) eqn:Eji; destruct (Nat.eqb (Z.to_nat i) (Z.to_nat j)) eqn:En; try reflexivity;
      try (apply Nat.eqb_eq in En; lia); try (apply Nat.eqb_neq in En; lia).
    apply Nat.eqb_eq in En. now rewrite <- En, H.
  Qed.
  Lemma booted_tile i x v : booted_rel i x v -> tile_rel i x v.
  Proof.
    intro B. unfold tile_rel. destruct (is_new x) eqn:E; [|exact B].
    assert (H := br_phase _ _ _ _ _ _ _ B). unfold is_new in E. unfold phase_rel in H. destruct (x_phase x); try discriminate. contradiction.
  Qed.
  Lemma tile_booted i x v : tile_rel i x v -> is_new x = false -> booted_rel i x v.
  Proof. unfold tile_rel. intros H E. now rewrite E in H. Qed.
  Lemma rel_put n N N' i x y : node_rel n N -> the_tile n i = Some x -> local i N N' -> booted_rel i y (view_of N' i) ->
    node_rel (put_tile n i y) N'.
  Proof.
    intros R Hx L B. destruct R, L. constructor; cbn; try congruence.
    - unfold zlen in *. now rewrite length_upd.
    - intros j z H. rewrite (the_tile_put _ _ _ _ _ Hx) in H. destruct (j =? i) eqn:E.
      + injection H as <-. assert (j = i) by lia. subst j. now apply booted_tile.
      + rewrite lo_other by lia. auto.
  Qed.
  Lemma lift_tile n N i x r : node_rel n N -> now <= z_next n -> the_tile n i = Some x ->
    tile_sim i U (view_of N i) r -> node_sim N (dmap (put_tile n i) r).
  Proof.
    intros R Ht Hx S. assert (Hk := the_tile_known _ _ _ _ R Hx).
    assert (G := nr_good _ _ _ _ _ _ R). assert (Hs := nr_start _ _ _ _ _ _ R). assert (Hn := nr_next _ _ _ _ _ _ R).
    assert (Ht' : now <= nd_next N) by (rewrite Hn; exact Ht).
    destruct r as [x' l|e|]; cbn in *.
    - destruct S as [(v' & S & B)|S].
      + destruct (S N G Ht' Hs Hk eq_refl) as (N' & H1 & H2 & H3). left. exists N'. split; [exact H1|].
        eapply rel_put; eauto. now rewrite H3.
      + right. exact (S N G Ht' Hs Hk eq_refl).
    - intro HU. exact (S HU N G Ht' Hs Hk eq_refl).
    - exact I.
  Qed.
  Lemma on_tile_sim n N i f : node_rel n N -> now <= z_next n ->
    (forall x, the_tile n i = Some x -> known_router (y_net c) i = true -> booted_rel i x (view_of N i) -> tile_sim i U (view_of N i) (f x)) ->
    node_sim N (on_tile n i f).
  Proof.
    intros R Ht H. unfold on_tile. destruct (the_tile n i) as [x|] eqn:Hx; [|exact I].
    destruct (is_new x) eqn:E; [exact I|]. eapply lift_tile; eauto. apply H; auto; [eapply the_tile_known; eauto|].
    apply tile_booted; [|exact E]. eapply nr_tiles; eauto.
  Qed.
  Lemma on_ctl_sim n N i f : node_rel n N -> now <= z_next n ->
    (forall D d, ctl_rel D d -> ctl_sim c now D d (f d)) -> node_sim N (on_ctl n i f).
  Proof.
    intros R Ht H. unfold on_ctl. apply on_tile_sim; auto. intros x _ _ B. apply lift_ctl; [exact B|]. apply H. apply B.
  Qed.
  Lemma on_core2_sim n N i k f : node_rel n N -> now <= z_next n ->
    (forall D d p y cy, ctl_rel D d -> core_rel Q (c_values d) cy p y -> step_sim Q c b now k U (c_values d) cy D d p y (f d y)) ->
    node_sim N (on_core2 n i k f).
  Proof.
    intros R Ht H. unfold on_core2. apply on_tile_sim; auto. intros x _ _ B.
    apply (lift_core2 Q c b now i k U x (view_of N i) f B). intros y p Hc Hy. now apply H.
  Qed.
  Lemma on_inert_sim n N i k f : node_rel n N -> now <= z_next n ->
    (forall values cy p y, core_rel Q values cy p y -> core_sim y (f y)) ->
    (forall values cy p y e, core_rel Q values cy p y -> f y = DRaise e -> U -> False) -> node_sim N (on_core n i k f).
  Proof.
    intros R Ht H1 H2. unfold on_core, on_core2. apply on_tile_sim; auto. intros x _ _ B.
    exact (lift_inert Q c b now i k U x (view_of N i) f B H1 H2).
  Qed.

  (** ** The start of a tile *)
  Lemma start_tile_sim n N i : node_rel n N -> now <= z_next n -> node_sim N (start_tile c n i now).
  Proof.
    intros R Ht. unfold start_tile. destruct (the_tile n i) as [x|] eqn:Hx; [|exact I].
    apply lift_tile with (x := x); auto. rewrite (nr_begin _ _ _ _ _ _ R). unfold tile_start.
    destruct (x_phase x) eqn:Ep; try exact I. destruct (now =? b) eqn:E; [|exact I]. assert (now = b) by lia. cbn [negb].
    assert (T := nr_tiles _ _ _ _ _ _ R _ _ Hx). unfold DesRel.tile_rel in T. unfold is_new in T. rewrite Ep in T.
    destruct T as [_ T]. unfold boot in T. subst b.
    destruct (ctl_run now i (x_ctl x)) as [d l1]. destruct (rt_run c i (x_rt x)) as [u l2]. cbn [fst] in T.
    destruct (next_instr now now i (dt_rt (dt_ctl x d) u)) as [t1 l3]. cbn. now apply vgo_here.
  Qed.

  (** ** Receive buffers *)
  Lemma net_node a N n' : good N -> now <= nd_next N -> net_own a = true ->
    nstep (y_net c) now a (s_net (nd_sys N)) = Some n' -> n_crash n' = None ->
    exists N', nsteps c now N N' /\ nd_start N' = nd_start N /\ nd_next N' = nd_next N /\ nd_busy N' = nd_busy N /\ good N' /\
      forall j, view_of N' j = view_rt (view_of N j) (n_router n' j).
  Proof.
    intros [g1 g2] Ht Ho Hn Hc. eexists. split; [apply nsteps_one with (a := NdSys (SNet a))|].
    - unfold node_step. destruct (nd_next N <? now) eqn:E; [lia|]. unfold sstep, sstep_cap. rewrite g1, Ho.
      unfold nstep in Hn. rewrite Hn. cbn [negb]. reflexivity.
    - cbn. repeat split; auto.
  Qed.
  Lemma key_neq dst src : buffer_key (y_net c) dst src = true -> src <> dst /\ 0 <= src < w_nodes (y_net c) * w_tiles (y_net c).
  Proof. unfold buffer_key. intro H. lia. Qed.
  Lemma sender_booted n N i x : node_rel n N -> the_tile n i = Some x -> u_sender (x_rt x) <> ZNew -> booted_rel i x (view_of N i).
  Proof.
    intros R Hx H. assert (T := nr_tiles _ _ _ _ _ _ R _ _ Hx). unfold DesRel.tile_rel in T. destruct (is_new x); [|exact T].
    destruct T as [(_ & _ & E & _) _]. contradiction.
  Qed.
  Lemma phase_booted n N i x : node_rel n N -> the_tile n i = Some x -> x_phase x <> TNew -> booted_rel i x (view_of N i).
  Proof.
    intros R Hx H. assert (T := nr_tiles _ _ _ _ _ _ R _ _ Hx). unfold DesRel.tile_rel, is_new in T.
    destruct (x_phase x); try exact T. contradiction.
  Qed.

  Lemma buffer_set (u : drt) src items s : zlen (u_buffers u) = w_nodes (y_net c) * w_tiles (y_net c) \/
      (w_nodes (y_net c) * w_tiles (y_net c) < 0 /\ u_buffers u = []) -> 0 <= s < w_nodes (y_net c) * w_tiles (y_net c) -> 0 <= src ->
    buffer_of (rt_buffer u src items) s = if s =? src then items else buffer_of u s.
  Proof.
    intros L Hs H0. unfold buffer_of. cbn. destruct L as [L|[L _]]; [|lia]. unfold zlen in L.
    destruct (s =? src) eqn:E.
    - assert (s = src) by lia. subst s. apply nth_error_nth. rewrite nth_error_upd, Nat.eqb_refl.
      destruct (nth_error (u_buffers u) (Z.to_nat src)) eqn:En; [reflexivity|]. apply nth_error_None in En. lia.
    - destruct (nth_error (u_buffers u) (Z.to_nat s)) eqn:En.
      + rewrite (nth_error_nth _ _ _ En). apply nth_error_nth. rewrite nth_error_upd.
        destruct (Nat.eqb (Z.to_nat src) (Z.to_nat s)) eqn:Eq; [apply Nat.eqb_eq in Eq; lia|exact En].
      + apply nth_error_None in En. lia.
  Qed.
  Lemma buffers_length (u : drt) src items : zlen (u_buffers u) = w_nodes (y_net c) * w_tiles (y_net c) \/
      (w_nodes (y_net c) * w_tiles (y_net c) < 0 /\ u_buffers u = []) ->
    zlen (u_buffers (rt_buffer u src items)) = w_nodes (y_net c) * w_tiles (y_net c) \/
      (w_nodes (y_net c) * w_tiles (y_net c) < 0 /\ u_buffers (rt_buffer u src items) = []).
  Proof.
    cbn. unfold zlen. rewrite length_upd. intros [H|[H1 H2]]; [now left|right]. split; [exact H1|]. rewrite H2. now destruct (Z.to_nat src).
  Qed.

  Lemma recv_put_sim n N src dst : node_rel n N -> now <= z_next n -> node_sim N (recv_put src dst n).
  Proof.
    intros R Ht. unfold recv_put. destruct (the_tile n src) as [t|] eqn:Hs; [|now apply sim_here].
    destruct (u_sender (x_rt t)) as [| | | | |p inter| | |] eqn:Es; try now apply sim_here.
    destruct (pk_dst p =? dst) eqn:Ed; cbn [negb]; [|now apply sim_here]. assert (pk_dst p = dst) by lia. subst dst. clear Ed.
    assert (B := sender_booted _ _ _ _ R Hs ltac:(congruence)).
    assert (S := rr_sender _ _ _ _ _ _ (br_rt _ _ _ _ _ _ _ B)). rewrite Es in S. cbn in S. destruct S as (S1 & S2 & S3 & S4).
    destruct (key_neq _ _ S4) as [Hne Hrange]. cbn zeta.
    rewrite (the_tile_put _ _ _ _ _ Hs). destruct (pk_dst p =? src) eqn:E; [lia|].
    destruct (the_tile n (pk_dst p)) as [t'|] eqn:Hd; [|exact I].
    destruct (buffer_of (x_rt t') src) as [|y0 ys] eqn:Eb; [|now apply sim_here].
    destruct (is_new t') eqn:En; [exact I|].
    assert (B' := tile_booted _ _ _ (nr_tiles _ _ _ _ _ _ R _ _ Hd) En).
    assert (R1 := br_rt _ _ _ _ _ _ _ B). assert (R2 := br_rt _ _ _ _ _ _ _ B').
    assert (Hbuf := rr_buffers _ _ _ _ _ _ R2 src Hrange). rewrite Eb in Hbuf. cbn in Hbuf.
    assert (Hk := the_tile_known _ _ _ _ R Hs). destruct (nr_good _ _ _ _ _ _ R) as [g1 g2].
    set (net := s_net (nd_sys N)) in *.
    set (r1 := set_sender (n_router net src) (SStored p inter)).
    set (r2 := set_buffer (n_router net (pk_dst p)) src [pk_data p]).
    assert (A : nstep (y_net c) now (NStore src) net = Some (set_router (set_router net src r1) (pk_dst p) r2)).
    { rewrite (net_action c now src Hk) by auto. unfold n_store. cbn in S1. fold net in S1. rewrite S1. fold r1. cbn [set_router n_router].
      rewrite set_fun_neq by lia. rewrite S2. fold net in Hbuf. rewrite Hbuf. reflexivity. }
    destruct (net_node (NStore src) _ _ (conj g1 g2) ltac:(rewrite (nr_next _ _ _ _ _ _ R); exact Ht) eq_refl A g2) as (N' & H1 & H2 & H3 & H4 & H5 & H6).
    left. exists N'. split; [exact H1|].
    assert (Hd' : the_tile (put_tile n src (dt_rt t (rt_sender (x_rt t) (ZPut p inter)))) (pk_dst p) = Some t')
      by (rewrite (the_tile_put _ _ _ _ _ Hs); destruct (pk_dst p =? src) eqn:E'; [lia|exact Hd]).
    assert (V1 : view_of N' src = view_rt (view_of N src) r1).
    { rewrite H6. f_equal. cbn. rewrite set_fun_neq by lia. apply set_fun_eq. }
    assert (V2 : view_of N' (pk_dst p) = view_rt (view_of N (pk_dst p)) r2).
    { rewrite H6. f_equal. cbn. apply set_fun_eq. }
    destruct R. constructor; cbn; try congruence.
    - unfold zlen in *. now rewrite !length_upd.
    - intros k z Hz. rewrite (the_tile_put _ _ _ _ _ Hd') in Hz. destruct (k =? pk_dst p) eqn:Ek.
      + injection Hz as <-. assert (k = pk_dst p) by lia. subst k. apply booted_tile. rewrite V2.
        apply booted_rt; auto. destruct R2. constructor; cbn [u_running u_queue u_sender u_stat rt_buffer]; cbn [r2 set_buffer r_running r_queue r_sender r_stat r_buffers]; auto.
        * now apply buffers_length.
        * intros s Hs'. unfold set_fun. rewrite buffer_set by (auto; lia). destruct (s =? src); [reflexivity|auto].
      + rewrite (the_tile_put _ _ _ _ _ Hs) in Hz. destruct (k =? src) eqn:Ek'.
        * injection Hz as <-. assert (k = src) by lia. subst k. apply booted_tile. rewrite V1.
          apply booted_sender; auto. cbn. auto.
        * assert (V : view_of N' k = view_of N k).
          { rewrite H6. cbn. rewrite !set_fun_neq by lia. reflexivity. }
          rewrite V. auto.
  Qed.

  Lemma recv_get_sim n N src dst : node_rel n N -> now <= z_next n -> node_sim N (recv_get src dst n).
  Proof.
    intros R Ht. unfold recv_get. destruct (the_tile n dst) as [t|] eqn:Hd; [|now apply sim_here].
    destruct (x_phase t) as [| | | | | | |src' got| | | | | | | | | | | |] eqn:Ep; try now apply sim_here.
    destruct (src' =? src) eqn:E; cbn [negb]; [|now apply sim_here]. assert (src' = src) by lia. subst src'. clear E.
    destruct (buffer_of (x_rt t) src) as [|d r] eqn:Eb; [now apply sim_here|].
    set (x' := dt_phase (dt_rt t (rt_buffer (x_rt t) src r)) (TPopped src got d)).
    change (node_sim N (dmap (put_tile n dst) (DGo x' [soon (VPopped dst)]))).
    apply lift_tile with (x := t); auto. cbn.
    assert (B := phase_booted _ _ _ _ R Hd ltac:(congruence)). assert (Hk := the_tile_known _ _ _ _ R Hd).
    assert (Hp := br_phase _ _ _ _ _ _ _ B). unfold phase_rel in Hp. rewrite Ep in Hp. destruct Hp as (Hp & Hn & Hph & Hc & Hkey & Hv).
    destruct (key_neq _ _ Hkey) as [Hne Hrange].
    assert (R1 := br_rt _ _ _ _ _ _ _ B). assert (Hbuf := rr_buffers _ _ _ _ _ _ R1 src Hrange). rewrite Eb in Hbuf.
    eapply vgo_one; [eapply net_step with (a := NPop dst); [reflexivity|reflexivity|]|].
    - intros m M1 M2. rewrite (net_action c now dst Hk) by auto. unfold n_pop. rewrite M2, Hc, Hbuf. reflexivity.
    - destruct B. rewrite Ep in *. cbn in R1. destruct R1. unfold run_rel in br_run. rewrite Ep in br_run.
      assert (He : x_ended t = false) by (destruct (x_ended t); [specialize (br_ended eq_refl); discriminate|reflexivity]).
      constructor; cbn [x_ctl x_cores x_rt x_phase x_ended x' dt_phase dt_rt v_tile v_rt v_cc v_tc ahead_of]; try assumption; try congruence.
      + constructor; cbn [u_running u_queue u_sender u_stat rt_buffer set_client set_buffer r_running r_queue r_sender r_stat r_buffers]; auto.
        * now apply buffers_length.
        * intros s Hs'. unfold set_fun. rewrite buffer_set by (auto; lia). destruct (s =? src); [reflexivity|auto].
      + unfold phase_rel. cbn. repeat split; auto.
  Qed.

  Lemma sim_via n1 l N r : node_sim N (DGo n1 l) -> (forall N1, node_rel n1 N1 -> node_sim N1 r) -> node_sim N r.
  Proof.
    intros H F. destruct H as [(N1 & H1 & H2)|H].
    - eapply sim_after; eauto.
    - destruct r; cbn; auto.
  Qed.
  Lemma recv_put_next (n n' : dnode) src dst l : recv_put src dst n = DGo n' l -> z_next n' = z_next n.
  Proof.
    unfold recv_put. intro H. repeat (match type of H with context [match ?e with _ => _ end] => destruct e end; try discriminate);
      injection H as <- <-; reflexivity.
  Qed.
  Lemma recv_get_next (n n' : dnode) src dst l : recv_get src dst n = DGo n' l -> z_next n' = z_next n.
  Proof.
    unfold recv_get. intro H. repeat (match type of H with context [match ?e with _ => _ end] => destruct e end; try discriminate);
      injection H as <- <-; reflexivity.
  Qed.
  Lemma recv_get_other (n n' : dnode) src dst l i : recv_get src dst n = DGo n' l -> i <> dst -> the_tile n' i = the_tile n i.
  Proof.
    unfold recv_get. intros H Hi. destruct (the_tile n dst) as [t|] eqn:E; [|now injection H as <- <-].
    destruct (x_phase t); try (now injection H as <- <-).
    destruct (negb _); [now injection H as <- <-|]. destruct (buffer_of _ _); injection H as <- <-; [reflexivity|].
    rewrite (the_tile_put _ _ _ _ _ E). destruct (i =? dst) eqn:E'; [lia|reflexivity].
  Qed.
  Lemma recv_put_phase (n n' : dnode) src dst l i x : recv_put src dst n = DGo n' l -> the_tile n i = Some x ->
    exists x', the_tile n' i = Some x' /\ x_phase x' = x_phase x.
  Proof.
    unfold recv_put. intros H Hi. assert (H0 : exists x', the_tile n i = Some x' /\ x_phase x' = x_phase x) by eauto.
    destruct (the_tile n src) as [t|] eqn:Es; [|now injection H as <- <-].
    destruct (u_sender (x_rt t)); try (now injection H as <- <-).
    destruct (negb _); [now injection H as <- <-|]. cbn zeta in H.
    destruct (the_tile (put_tile n src _) dst) as [t'|] eqn:Ed; [|discriminate].
    destruct (buffer_of _ _); [|now injection H as <- <-]. destruct (is_new t'); [discriminate|]. injection H as <- <-.
    rewrite (the_tile_put _ _ _ _ _ Ed). destruct (i =? dst) eqn:E1.
    - eexists. split; [reflexivity|]. cbn. assert (i = dst) by lia. subst i. rewrite (the_tile_put _ _ _ _ _ Es) in Ed.
      destruct (dst =? src) eqn:E2; [|congruence]. injection Ed as <-. assert (dst = src) by lia. subst. cbn. congruence.
    - rewrite (the_tile_put _ _ _ _ _ Es). destruct (i =? src) eqn:E2; [|eauto]. assert (i = src) by lia. subst i.
      eexists. split; [reflexivity|]. cbn. congruence.
  Qed.

  Lemma on_offer_sim n N i : node_rel n N -> now <= z_next n -> node_sim N (on_offer c i n).
  Proof.
    intros R Ht. unfold on_offer. destruct (the_tile n i) as [t|] eqn:Hx; [|exact I].
    destruct (u_sender (x_rt t)) as [| | | |p inter| | | |] eqn:Es; try exact I.
    assert (B := sender_booted _ _ _ _ R Hx ltac:(congruence)). assert (Hk := the_tile_known _ _ _ _ R Hx).
    assert (S := rr_sender _ _ _ _ _ _ (br_rt _ _ _ _ _ _ _ B)). rewrite Es in S. cbn in S. destruct S as ((since & S1 & S2) & S3 & S4).
    assert (A : forall m, n_crash m = None -> n_router m i = v_rt (view_of N i) -> nstep (y_net c) now (NTravel i) m =
              (if buffer_key (y_net c) (pk_dst p) (pk_src p) then Some (set_router m i (set_sender (v_rt (view_of N i)) (SOffer p inter)))
               else Some (net_crash (set_router m i (set_sender (v_rt (view_of N i)) (SOffer p inter))) KeyError))).
    { intros m M1 M2. rewrite (net_action c now i Hk) by auto. unfold n_travel. rewrite M2. cbn [view_of v_rt]. rewrite S1.
      destruct (now <? _) eqn:E; [lia|reflexivity]. }
    destruct (buffer_key (y_net c) (pk_dst p) (pk_src p)) eqn:Ek; cbn [negb].
    - apply sim_via with (n1 := put_tile n i (dt_rt t (rt_sender (x_rt t) (ZPutting p inter)))) (l := []).
      + change (node_sim N (dmap (put_tile n i) (DGo (dt_rt t (rt_sender (x_rt t) (ZPutting p inter))) []))).
        apply lift_tile with (x := t); auto. cbn. eapply vgo_one; [eapply net_step with (a := NTravel i); [reflexivity|reflexivity|exact A]|].
        apply booted_sender; auto; cbn; repeat split; auto; congruence.
      + intros N1 R1. apply recv_put_sim; auto.
    - intros _. assert (Hc : vcrash c b now i (view_of N i)).
      { apply v_net_crash with (a := NTravel i); [reflexivity|]. intros m M1 M2. eexists. split; [now apply A|discriminate]. }
      apply Hc; auto; try apply R. rewrite (nr_next _ _ _ _ _ _ R). exact Ht.
  Qed.

  Lemma on_read_sim n N i : node_rel n N -> now <= z_next n -> node_sim N (on_read c i n).
  Proof.
    intros R Ht. unfold on_read. destruct (the_tile n i) as [x|] eqn:Hx; [|exact I].
    destruct (x_phase x) as [| | | | | |got| | | | | | | | | | | | |] eqn:Eph; try exact I.
    destruct (x_prog x) as [|[|addr source w vec|] r0] eqn:Ex; try exact I.
    assert (B := phase_booted _ _ _ _ R Hx ltac:(congruence)). assert (Hk := the_tile_known _ _ _ _ R Hx).
    assert (He := not_ended Q c b now i x _ B ltac:(congruence)).
    assert (Hp := br_phase _ _ _ _ _ _ _ B). unfold phase_rel in Hp. rewrite Eph, Ex in Hp. destruct Hp as (Hp & Hn & Hph & Hc & Hv).
    set (v := view_of N i) in *. set (r' := set_client (v_rt v) (KReading source)).
    assert (S1 : forall m, n_crash m = None -> n_router m i = v_rt v ->
                 tile_step buffer_capacity c now i m (v_tile v) = with_net buffer_capacity c now (NRead i source) m (v_tile v)).
    { intros m M1 M2. unfold tile_step. rewrite Hp, Hph, M2, Hc. destruct (zlen got <? vec) eqn:E; [reflexivity|lia]. }
    assert (S2 : forall m, n_crash m = None -> n_router m i = v_rt v -> nstep (y_net c) now (NRead i source) m =
                (if buffer_key (y_net c) i source then Some (set_router m i r') else Some (net_crash (set_router m i r') KeyError))).
    { intros m M1 M2. rewrite (net_action c now i Hk) by auto. unfold n_read. rewrite M2, Hc. reflexivity. }
    destruct (buffer_key (y_net c) i source) eqn:Ek; cbn [negb].
    - apply sim_via with (n1 := put_tile n i (dt_phase x (TReading source got))) (l := []).
      + change (node_sim N (dmap (put_tile n i) (DGo (dt_phase x (TReading source got)) []))).
        apply lift_tile with (x := x); auto. cbn.
        eapply vgo_one; [apply tile_net with (a := NRead i source); [reflexivity|exact S1|exact S2]|].
        rewrite tc_same by (rewrite Hp; discriminate).
        destruct B. rewrite Eph in *. cbn in br_rt. destruct br_rt. unfold run_rel in br_run. rewrite Eph in br_run.
        constructor; cbn [x_ctl x_cores x_rt x_phase x_ended dt_phase v_tile v_rt v_cc v_tc ahead_of]; try assumption; try congruence.
        * constructor; cbn; assumption.
        * unfold phase_rel. cbn. rewrite Ex. repeat split; auto.
      + intros N1 R1. apply recv_get_sim; auto.
    - intros _. assert (Hc' : vcrash c b now i v).
      { eapply tile_net_crash with (a := NRead i source) (e := KeyError); [reflexivity|exact S1|]. intros m M1 M2. eexists. split; [now apply S2|reflexivity]. }
      apply Hc'; auto; try apply R. rewrite (nr_next _ _ _ _ _ _ R). exact Ht.
  Qed.

  Lemma on_popped_sim n N i : node_rel n N -> now <= z_next n -> node_sim N (on_popped i n).
  Proof.
    intros R Ht. unfold on_popped. destruct (the_tile n i) as [x|] eqn:Hx; [|exact I].
    destruct (x_phase x) as [| | | | | | | |src got data| | | | | | | | | | |] eqn:Eph; try exact I.
    apply sim_bind; [now apply recv_put_sim|]. intros n1 N1 l Hr R1.
    destruct (recv_put_phase _ _ _ _ _ _ _ Hr Hx) as (x1 & Hx1 & Ep1). rewrite Eph in Ep1.
    apply on_tile_sim; auto; [rewrite (recv_put_next _ _ _ _ _ Hr); exact Ht|].
    intros y Hy Hk B. assert (y = x1) by congruence. subst y. clear Hy. cbn. apply vgo_here.
    assert (He := not_ended Q c b now i x1 _ B ltac:(congruence)).
    destruct B. rewrite Ep1 in *. cbn in br_rt. destruct br_rt. unfold run_rel in br_run. rewrite Ep1 in br_run.
    unfold phase_rel in br_phase. rewrite Ep1 in br_phase.
    constructor; cbn [x_ctl x_cores x_rt x_phase x_ended dt_phase dt_rt ahead_of]; try assumption; try congruence.
    constructor; cbn; try assumption. now rewrite rr_stat.
  Qed.

  Lemma count_sim n N i t p inter : node_rel n N -> now <= z_next n -> the_tile n i = Some t -> u_sender (x_rt t) = ZPut p inter ->
    node_sim N (dbind (on_tile n i (fun t => DGo (dt_rt t (rt_sender (x_rt t) (ZArrived p inter))) [])) (fun n2 =>
            on_tile n2 (pk_dst p) (fun t' =>
              let x := u_stat (x_rt t') in
              DGo (dt_rt t' (rt_stat (x_rt t')
                (MkRStats (packets_created x) (packets_sent_internode x) (packets_sent_intranode x)
                   (packets_sent x) (packets_received x + 1) (packets_read x)))) [soon (VArrived i)]))).
  Proof.
    intros R Ht Hs Es. assert (B := sender_booted _ _ _ _ R Hs ltac:(congruence)).
    unfold on_tile. rewrite Hs. destruct (is_new t) eqn:En0; [exact I|]. cbn [dmap dbind]. cbn zeta.
    assert (S := rr_sender _ _ _ _ _ _ (br_rt _ _ _ _ _ _ _ B)). rewrite Es in S. cbn in S. destruct S as (S1 & S2 & S3 & S4).
    destruct (key_neq _ _ S4) as [Hne Hrange].
    assert (Hd' := the_tile_put n i (pk_dst p) t (dt_rt t (rt_sender (x_rt t) (ZArrived p inter))) Hs).
    destruct (pk_dst p =? i) eqn:E; [lia|]. rewrite Hd'.
    destruct (the_tile n (pk_dst p)) as [t'|] eqn:Hd; [|exact I]. destruct (is_new t') eqn:En; [exact I|]. cbn [dmap].
    set (up x := MkRStats (packets_created x) (packets_sent_internode x) (packets_sent_intranode x)
                   (packets_sent x) (packets_received x + 1) (packets_read x)).
    change (MkRStats _ _ _ _ _ _) with (up (u_stat (x_rt t'))).
    assert (B' := tile_booted _ _ _ (nr_tiles _ _ _ _ _ _ R _ _ Hd) En).
    assert (R1 := br_rt _ _ _ _ _ _ _ B). assert (R2 := br_rt _ _ _ _ _ _ _ B').
    assert (Hk := the_tile_known _ _ _ _ R Hs). destruct (nr_good _ _ _ _ _ _ R) as [g1 g2].
    set (net := s_net (nd_sys N)) in *.
    set (r1 := set_sender (n_router net i) (SArrived p inter)).
    set (r2 := set_stat (n_router net (pk_dst p)) (up (r_stat (n_router net (pk_dst p))))).
    assert (A : nstep (y_net c) now (NCount i) net = Some (set_router (set_router net i r1) (pk_dst p) r2)).
    { rewrite (net_action c now i Hk) by auto. unfold n_count. cbn in S1. fold net in S1. rewrite S1. fold r1. cbn [set_router n_router].
      rewrite set_fun_neq by lia. reflexivity. }
    destruct (net_node (NCount i) _ _ (conj g1 g2) ltac:(rewrite (nr_next _ _ _ _ _ _ R); exact Ht) eq_refl A g2) as (N' & H1 & H2 & H3 & H4 & H5 & H6).
    left. exists N'. split; [exact H1|].
    assert (V1 : view_of N' i = view_rt (view_of N i) r1).
    { rewrite H6. f_equal. cbn. rewrite set_fun_neq by lia. apply set_fun_eq. }
    assert (V2 : view_of N' (pk_dst p) = view_rt (view_of N (pk_dst p)) r2).
    { rewrite H6. f_equal. cbn. apply set_fun_eq. }
    destruct R. constructor; cbn; try congruence.
    - unfold zlen in *. now rewrite !length_upd.
    - intros k z Hz. rewrite (the_tile_put _ _ _ _ _ Hd') in Hz. destruct (k =? pk_dst p) eqn:Ek.
      + injection Hz as <-. assert (k = pk_dst p) by lia. subst k. apply booted_tile. rewrite V2.
        apply booted_rt; auto. destruct R2. constructor; cbn; auto. rewrite rr_stat.
        destruct (ahead_of (x_phase t')); reflexivity.
      + rewrite (the_tile_put _ _ _ _ _ Hs) in Hz. destruct (k =? i) eqn:Ek'.
        * injection Hz as <-. assert (k = i) by lia. subst k. apply booted_tile. rewrite V1.
          apply booted_sender; auto. cbn. auto.
        * assert (V : view_of N' k = view_of N k).
          { rewrite H6. cbn. rewrite !set_fun_neq by lia. reflexivity. }
          rewrite V. auto.
  Qed.
  Lemma on_taken_sim n N i : node_rel n N -> now <= z_next n -> node_sim N (on_taken i n).
  Proof.
    intros R Ht. unfold on_taken. destruct (the_tile n i) as [x|] eqn:Hx; [|exact I].
    destruct (u_sender (x_rt x)) as [| | | | | |p inter| |] eqn:Es; try exact I.
    assert (B := sender_booted _ _ _ _ R Hx ltac:(congruence)).
    assert (S := rr_sender _ _ _ _ _ _ (br_rt _ _ _ _ _ _ _ B)). rewrite Es in S. cbn in S. destruct S as (S1 & S2 & S3 & S4).
    destruct (key_neq _ _ S4) as [Hne _].
    apply sim_bind; [now apply recv_get_sim|]. intros n1 N1 l Hr R1.
    assert (Hx1 := recv_get_other _ _ _ _ _ i Hr Hne). rewrite Hx in Hx1.
    apply count_sim with (t := x); auto. rewrite (recv_get_next _ _ _ _ _ Hr). exact Ht.
  Qed.

  (** ** The node *)
  Lemma tile_end_sim n N i : node_rel n N -> now <= z_next n -> node_sim N (tile_end i n).
  Proof.
    intros R Ht. unfold tile_end. apply sim_bind; [|intros; now apply sim_here].
    apply on_tile_sim; auto. intros x Hx Hk B. destruct (x_phase x) eqn:Ep; try exact I. cbn. apply vgo_here.
    destruct B. rewrite Ep in *. unfold run_rel in br_run. unfold phase_rel in br_phase. rewrite Ep in *.
    constructor; cbn; try assumption; auto.
  Qed.
  Lemma rel_fin n N f : node_rel n N -> node_rel (set_fin n f) N.
  Proof. intros []. constructor; cbn; assumption. Qed.
  Lemma rel_monitor n N f : node_rel n N -> node_rel (MkDNode (z_tiles n) (z_begin n) (z_next n) (z_busy n) false f) N.
  Proof. intros []. constructor; cbn; assumption. Qed.

  Lemma busy_eq n N : node_rel n N -> queue_busy c (nd_sys N) = existsb (fun t => rt_busy (x_rt t)) (z_tiles n).
  Proof.
    intro R. assert (T : forall i x, the_tile n i = Some x ->
      r_running (n_router (s_net (nd_sys N)) i) && (0 <? zlen (r_queue (n_router (s_net (nd_sys N)) i))) = rt_busy (x_rt x)).
    { intros i x Hx. assert (H := nr_tiles _ _ _ _ _ _ R _ _ Hx). unfold DesRel.tile_rel in H. unfold rt_busy. destruct (is_new x) eqn:En.
      - destruct H as [(_ & H2 & _) B]. assert (Hr := br_rt _ _ _ _ _ _ _ B). destruct Hr. cbn in rr_queue. rewrite rr_queue, H2.
        unfold boot, rt_run, next_instr. cbn. rewrite H2. cbn. destruct (x_prog x); cbn; now rewrite andb_false_r.
      - assert (Hr := br_rt _ _ _ _ _ _ _ H). destruct Hr. cbn in rr_running, rr_queue. now rewrite rr_running, rr_queue. }
    unfold queue_busy. assert (L := nr_length _ _ _ _ _ _ R).
    apply Bool.eq_iff_eq_true. rewrite !existsb_exists. split.
    - intros (i & Hi & Hb). apply in_zrange in Hi. destruct (the_tile n i) as [x|] eqn:Hx.
      + exists x. split; [|rewrite <- (T _ _ Hx); exact Hb]. unfold the_tile in Hx. destruct (i <? 0); [discriminate|]. eapply nth_error_In; eauto.
      + unfold the_tile in Hx. destruct (i <? 0) eqn:E; [lia|]. apply nth_error_None in Hx. unfold zlen in L. lia.
    - intros (x & Hx & Hb). apply In_nth_error in Hx as [k Hk]. exists (Z.of_nat k).
      assert (Hx : the_tile n (Z.of_nat k) = Some x) by (unfold the_tile; destruct (Z.of_nat k <? 0) eqn:E; [lia|]; rewrite Nat2Z.id; exact Hk).
      split; [|rewrite (T _ _ Hx); exact Hb]. apply in_zrange. assert (K := the_tile_known _ _ _ _ R Hx). unfold known_router in K. lia.
  Qed.
  Lemma on_monitor_sim n N : node_rel n N -> node_sim N (on_monitor now n).
  Proof.
    intro R. unfold on_monitor. destruct (z_monitor n); cbn [negb]; [|now apply sim_here].
    destruct (now =? z_next n) eqn:E; cbn [negb]; [|exact I]. left. eexists. split.
    - apply nsteps_one with (a := NdMonitor). unfold node_step. rewrite (nr_next _ _ _ _ _ _ R).
      destruct (z_next n <? now) eqn:E1; [lia|]. rewrite E. cbn [negb]. reflexivity.
    - rewrite (busy_eq _ _ R). destruct R. constructor; cbn; auto; [lia|]. now rewrite nr_busy.
  Qed.

  Theorem fire_sim n N e : node_rel n N -> now <= z_next n -> node_sim N (fire P c now e n).
  Proof.
    intros R Ht. assert (Hb := nr_begin _ _ _ _ _ _ R).
    assert (Rt : forall i f, (forall x v, known_router (y_net c) i = true -> booted_rel i x v -> tile_sim i U v (dmap (dt_rt x) (f (x_rt x)))) ->
                 node_sim N (on_rt n i f)).
    { intros i f H. unfold on_rt. apply on_tile_sim; auto. }
    assert (Ti : forall i f, (forall x v, known_router (y_net c) i = true -> booted_rel i x v -> tile_sim i U v (f x)) ->
                 node_sim N (on_tile n i f)).
    { intros i f H. apply on_tile_sim; auto. }
    assert (Co : forall i k f, (forall values cy p y, core_rel Q values cy p y -> core_sim y (f y)) ->
                 (forall y e, f y <> DRaise e) -> node_sim N (on_core n i k f)).
    { intros i k f H1 H2. apply on_inert_sim; auto. intros v cy p y er _ Hf _. exact (H2 _ _ Hf). }
    destruct e; cbn [fire]; rewrite ?Hb.
    all: try match goal with |- node_sim _ (on_ctl _ _ _) => apply on_ctl_sim; auto; intros D d Rd end.
    all: try match goal with |- node_sim _ (on_rt _ _ _) => apply Rt; intros x v Hk B end.
    all: try match goal with |- node_sim _ (on_tile _ _ _) => apply Ti; intros x v Hk B end.
    - now apply on_monitor_sim.
    - unfold monitor_int. destruct (z_fin n); try exact I; apply sim_here; now apply rel_monitor.
    - now apply start_tile_sim.
    - apply Co; [intros; (apply core_start_sim || apply (core_start_sim Q))|]. intros y er. unfold core_start. destruct (k_proc y), (negb (now =? b)); try discriminate.
      destruct (buf_put i k SF _). discriminate.
    - apply Co; [intros; (apply stage_start_sim || apply (stage_start_sim Q))|]. intros y er. unfold stage_start. destruct (tget _ _); discriminate.
    - apply Co; [intros; (apply pipe_start_sim || apply (pipe_start_sim Q))|]. intros y er. unfold pipe_start. destruct (k_mon y); discriminate.
    - apply Co; [intros; (apply on_put_sim || apply (on_put_sim Q))|]. intros y er. unfold on_put. destruct (buf_get i k s y) as [x1 l1], s; try discriminate.
      + destruct (t_f (k_stage x1)); try discriminate. destruct (stage_end i k SF o x1); discriminate.
      + destruct (t_d (k_stage x1)); try discriminate. destruct (stage_end i k SD o x1); discriminate.
    - apply on_core2_sim; auto. intros. now apply on_got_sim.
    - apply Co; [intros; apply (on_time_sim Q)|]. intros y er. unfold on_time. destruct (tget _ _), s, (k_xp y); discriminate.
    - apply on_inert_sim; auto; [intros; eapply load_new_sim; eauto|intros; eapply load_new_raise; eauto].
    - apply on_core2_sim; auto. intros. now apply load_time_sim.
    - apply Co; [|intros y er; unfold memory_end; destruct (k_xp y), (t_x (k_stage y)); discriminate].
      intros values cy p y Hy. apply (memory_end_sim Q). intros o Ho Hx. destruct Hy.
      destruct (over y) eqn:Eo; [destruct (kr_over eq_refl) as (_ & H & _); congruence|].
      destruct (kr_run eq_refl) as (_ & H & _). unfold xphase_rel in H. rewrite Ho in H. destruct H as [H _]. destruct Hx as [Hx|Hx]; rewrite Hx in H; exact H.
    - apply on_inert_sim; auto; [intros; eapply store_new_sim; eauto|intros; eapply store_new_raise; eauto].
    - apply on_core2_sim; auto. intros. now apply store_time_sim.
    - apply Co; [|intros y er; unfold memory_end; destruct (k_xp y), (t_x (k_stage y)); discriminate].
      intros values cy p y Hy. apply (memory_end_sim Q). intros o Ho Hx. destruct Hy.
      destruct (over y) eqn:Eo; [destruct (kr_over eq_refl) as (_ & H & _); congruence|].
      destruct (kr_run eq_refl) as (_ & H & _). unfold xphase_rel in H. rewrite Ho in H. destruct H as [H _]. destruct Hx as [Hx|Hx]; rewrite Hx in H; exact H.
    - apply Co; [intros; (apply stage_done_sim || apply (stage_done_sim Q))|]. intros y er. unfold stage_done. destruct (tget _ _), (k_mon y); try discriminate.
      destruct (st_eqb s s0); discriminate.
    - apply on_core2_sim; auto. intros. now apply pipe_done_sim.
    - destruct (k <? 0) eqn:E; [exact I|]. apply core_end_sim; auto. lia.
    - now apply handler_start_sim.
    - now apply req_put_sim.
    - now apply on_req_sim.
    - now apply handler_int_sim.
    - now apply thread_start_sim.
    - now apply on_grant_sim.
    - now apply thread_end_sim.
    - now apply release_sim.
    - destruct (k =? -1); [apply Ti; intros; now apply tile_done_sim|].
      apply on_core2_sim; auto. intros. now apply load_done_sim.
    - now apply sender_start_sim.
    - now apply send_put_sim.
    - now apply on_send_sim.
    - now apply on_travel_sim.
    - now apply on_offer_sim.
    - now apply on_taken_sim.
    - now apply on_arrived_sim.
    - now apply on_sent_sim.
    - now apply sender_int_sim.
    - now apply on_op_sim.
    - now apply on_op_end_sim.
    - now apply tile_end_sim.
    - now apply on_add_sim.
    - now apply on_add_time_sim.
    - now apply on_added_sim.
    - now apply on_read_sim.
    - now apply on_popped_sim.
    - now apply on_read_end_sim.
    - now apply on_all_cores_sim.
    - now apply on_stop_sim.
    - now apply on_poll_sim.
    - now apply on_poll_time_sim.
    - now apply on_empty_sim.
    - now apply on_stopped_sim.
    - unfold all_tiles. destruct (z_fin n), (forallb x_ended (z_tiles n)); try exact I. apply sim_here. now apply rel_fin.
    - unfold node_end. destruct (z_fin n); try exact I. apply sim_here. now apply rel_fin.
    - unfold run_end. destruct (z_fin n); try exact I. apply sim_here. now apply rel_fin.
  Qed.
End Refine.
