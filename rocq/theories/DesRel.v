(** The event simulation (DesModel) and the transition system of a node (NodeModel): the relation between their states,
    and steps of the transition system seen from one tile. *)
From Verif Require Import PyBase PyLemmas MemoryModel CoreModel DramModel RouterModel SystemModel NodeModel NodeSpec DesModel.

(** ** What the transition system knows about one tile *)
Record view := MkView { v_tile : tile; v_rt : router; v_tc : Z; v_cc : Z -> Z }.
Definition view_of (N : node) (i : Z) : view :=
  MkView (s_tile (nd_sys N) i) (n_router (s_net (nd_sys N)) i) (nd_tile_cycles N i) (nd_core_cycles N i).
Definition good (N : node) : Prop := s_crash (nd_sys N) = None /\ n_crash (s_net (nd_sys N)) = None.

Inductive nsteps (c : sys_cfg) (now : Z) : node -> node -> Prop :=
| ns_refl N : nsteps c now N N
| ns_step a N N1 N2 : node_step c now a N = Some N1 -> nsteps c now N1 N2 -> nsteps c now N N2.

Lemma nsteps_trans c now N1 N2 N3 : nsteps c now N1 N2 -> nsteps c now N2 N3 -> nsteps c now N1 N3.
Proof. induction 1; intro; [assumption|]. econstructor; eauto. Qed.
Lemma nsteps_one c now a N N' : node_step c now a N = Some N' -> nsteps c now N N'.
Proof. intro. econstructor; [eassumption|constructor]. Qed.

(** Everything but tile [i] stays. *)
Record local (i : Z) (N N' : node) : Prop := {
  lo_start : nd_start N' = nd_start N; lo_next : nd_next N' = nd_next N; lo_busy : nd_busy N' = nd_busy N;
  lo_good : good N'; lo_other : forall j, j <> i -> view_of N' j = view_of N j }.

Lemma local_trans i N1 N2 N3 : local i N1 N2 -> local i N2 N3 -> local i N1 N3.
Proof. intros [a1 a2 a3 a4 a5] [b1 b2 b3 b4 b5]. constructor; try congruence. intros j H. rewrite (b5 j H). auto. Qed.
Lemma local_refl i N : good N -> local i N N.
Proof. now constructor. Qed.

Section Views.
  Variables (c : sys_cfg) (b now i : Z).

  Definition vstep (v v' : view) : Prop :=
    forall N, good N -> now <= nd_next N -> nd_start N = b -> known_router (y_net c) i = true -> view_of N i = v ->
      exists N', nsteps c now N N' /\ local i N N' /\ view_of N' i = v'.
  Definition vcrash (v : view) : Prop :=
    forall N, good N -> now <= nd_next N -> nd_start N = b -> known_router (y_net c) i = true -> view_of N i = v ->
      exists N', nsteps c now N N' /\ s_crash (nd_sys N') <> None.
  Definition vgo (v : view) (R : view -> Prop) : Prop := (exists v', vstep v v' /\ R v') \/ vcrash v.

  Lemma vstep_refl v : vstep v v.
  Proof. intros N g _ _ _ e. exists N. split; [constructor|]. split; [now apply local_refl|assumption]. Qed.
  Lemma vstep_trans v1 v2 v3 : vstep v1 v2 -> vstep v2 v3 -> vstep v1 v3.
  Proof.
    intros H1 H2 N g t s k e. destruct (H1 N g t s k e) as (N1 & r1 & l1 & e1).
    destruct (H2 N1) as (N2 & r2 & l2 & e2); try assumption.
    - apply l1.
    - rewrite (lo_next _ _ _ l1). exact t.
    - rewrite (lo_start _ _ _ l1). exact s.
    - exists N2. split; [eapply nsteps_trans; eassumption|]. split; [eapply local_trans; eassumption|assumption].
  Qed.
  Lemma vcrash_trans v1 v2 : vstep v1 v2 -> vcrash v2 -> vcrash v1.
  Proof.
    intros H1 H2 N g t s k e. destruct (H1 N g t s k e) as (N1 & r1 & l1 & e1).
    destruct (H2 N1) as (N2 & r2 & e2); try assumption.
    - apply l1.
    - rewrite (lo_next _ _ _ l1). exact t.
    - rewrite (lo_start _ _ _ l1). exact s.
    - exists N2. split; [eapply nsteps_trans; eassumption|exact e2].
  Qed.
  Lemma vgo_here v (R : view -> Prop) : R v -> vgo v R.
  Proof. intro H. left. exists v. split; [apply vstep_refl|exact H]. Qed.
  Lemma vgo_step v v' (R : view -> Prop) : vstep v v' -> vgo v' R -> vgo v R.
  Proof.
    intros H [[v'' [H1 H2]]|H1].
    - left. exists v''. split; [eapply vstep_trans; eassumption|exact H2].
    - right. eapply vcrash_trans; eassumption.
  Qed.
  Lemma vgo_one v v' (R : view -> Prop) : vstep v v' -> R v' -> vgo v R.
  Proof. intros H H1. left. exists v'. now split. Qed.
  Lemma vgo_impl v (R R' : view -> Prop) : vgo v R -> (forall v', R v' -> R' v') -> vgo v R'.
  Proof. intros [[v' [H1 H2]]|H1] H; [left; exists v'; split; auto|right; exact H1]. Qed.
  Lemma vgo_bind v (R R' : view -> Prop) : vgo v R -> (forall v', R v' -> vgo v' R') -> vgo v R'.
  Proof. intros [[v' [H1 H2]]|H1] H; [eapply vgo_step; eauto|right; exact H1]. Qed.

  (** *** Steps *)
  Definition with_dram (T : tile) (d : dram) : tile := MkTile d (t_cores T) (t_prog T) (t_phase T) (t_log T).
  Definition with_core (T : tile) (d : dram) (k : Z) (p : cproc) : tile :=
    MkTile d (upd (t_cores T) (Z.to_nat k) p) (t_prog T) (t_phase T) (t_log T).

  Lemma set_fun_eq {A} (f : Z -> A) x : set_fun f i x i = x.
  Proof. unfold set_fun. now rewrite Z.eqb_refl. Qed.
  Lemma set_fun_neq {A} (f : Z -> A) x j : j <> i -> set_fun f i x j = f j.
  Proof. intro H. unfold set_fun. destruct (j =? i) eqn:E; [lia|reflexivity]. Qed.

  Ltac begin_v := let N := fresh "N" in let g1 := fresh "g1" in let g2 := fresh "g2" in let t := fresh "t" in
    let s := fresh "s" in let k := fresh "k" in let e := fresh "e" in intros N [g1 g2] t s k e; subst;
    unfold view_of in *; cbn [v_tile v_rt v_tc v_cc] in *.

  Lemma v_dram a v d : dram_own a = true -> dstep (y_lat c) now a (t_dram (v_tile v)) = Some d -> d_crash d = None ->
    vstep v (MkView (with_dram (v_tile v) d) (v_rt v) (v_tc v) (v_cc v)).
  Proof.
    intros Ho Hd Hc. begin_v.
    eexists. split; [apply nsteps_one with (a := NdSys (SDram i a))|].
    - unfold node_step. destruct (nd_next N <? now) eqn:E; [lia|]. unfold sstep, sstep_cap. rewrite g1, Ho, k, Hd.
      cbn [negb orb]. reflexivity.
    - split.
      + constructor; cbn; try reflexivity; [split; [exact Hc|exact g2]|].
        intros j Hj. unfold view_of; cbn. now rewrite set_fun_neq by exact Hj.
      + cbn. rewrite set_fun_eq. reflexivity.
  Qed.
  Lemma v_dram_crash a v d : dram_own a = true -> dstep (y_lat c) now a (t_dram (v_tile v)) = Some d -> d_crash d <> None ->
    vcrash v.
  Proof.
    intros Ho Hd Hc. begin_v.
    eexists. split; [apply nsteps_one with (a := NdSys (SDram i a))|].
    - unfold node_step. destruct (nd_next N <? now) eqn:E; [lia|]. unfold sstep, sstep_cap. rewrite g1, Ho, k, Hd.
      cbn [negb orb]. reflexivity.
    - exact Hc.
  Qed.

  Definition cc_after (p p' : cproc) (k : Z) (cc : Z -> Z) : Z -> Z :=
    if halted p' && negb (halted p) then set_fun cc k (now - b) else cc.
  Lemma v_core k v p d p' : 0 <= k -> nth_error (t_cores (v_tile v)) (Z.to_nat k) = Some p ->
    core_step_sys c now k (t_dram (v_tile v)) p = Go (d, p') ->
    vstep v (MkView (with_core (v_tile v) d k p') (v_rt v) (v_tc v) (cc_after p p' k (v_cc v))).
  Proof.
    intros Hk Hn Hs. begin_v.
    eexists. split; [apply nsteps_one with (a := NdSys (SCore i k))|].
    - unfold node_step. destruct (nd_next N <? now) eqn:E; [lia|]. unfold sstep, sstep_cap. rewrite g1, k0.
      destruct (k <? 0) eqn:E0; [lia|]. cbn [negb orb]. rewrite Hn, Hs. cbn [set_tile s_tile s_net s_crash]. reflexivity.
    - split.
      + constructor; cbn; try reflexivity; [split; [exact g1|exact g2]|].
        intros j Hj. unfold view_of; cbn. rewrite set_fun_neq by exact Hj.
        destruct (_ && _); [now rewrite set_fun_neq by exact Hj|reflexivity].
      + cbn. rewrite set_fun_eq. f_equal. unfold cc_after, core_halted. cbn. rewrite set_fun_eq. cbn [t_cores].
        rewrite nth_error_upd, Nat.eqb_refl, Hn.
        destruct (halted p' && negb (halted p)); [rewrite set_fun_eq; congruence|reflexivity].
  Qed.
  Lemma v_core_crash k v p e : 0 <= k -> nth_error (t_cores (v_tile v)) (Z.to_nat k) = Some p ->
    core_step_sys c now k (t_dram (v_tile v)) p = Crash e -> vcrash v.
  Proof.
    intros Hk Hn Hs N [g1 g2] t s k0 e0; subst; unfold view_of in *; cbn [v_tile v_rt v_tc v_cc] in *.
    eexists. split; [apply nsteps_one with (a := NdSys (SCore i k))|].
    - unfold node_step. destruct (nd_next N <? now) eqn:E; [lia|]. unfold sstep, sstep_cap. rewrite g1, k0.
      destruct (k <? 0) eqn:E0; [lia|]. cbn [negb orb]. rewrite Hn, Hs. reflexivity.
    - cbn. discriminate.
  Qed.

  (** A step of the routers that concerns only router [i]. *)
  Definition only_router (n n' : net) (r : router) : Prop :=
    n_crash n' = None /\ n_router n' i = r /\ forall j, j <> i -> n_router n' j = n_router n j.
  Lemma only_same n : n_crash n = None -> only_router n n (n_router n i).
  Proof. now repeat split. Qed.
  Lemma only_set n r : n_crash n = None -> only_router n (set_router n i r) r.
  Proof. intro H. repeat split; [exact H|cbn; apply set_fun_eq|intros; cbn; now apply set_fun_neq]. Qed.
  Lemma v_net a v r : net_own a = true ->
    (forall n, n_crash n = None -> n_router n i = v_rt v -> exists n', nstep (y_net c) now a n = Some n' /\ only_router n n' r) ->
    vstep v (MkView (v_tile v) r (v_tc v) (v_cc v)).
  Proof.
    intros Ho H. begin_v. destruct (H _ g2 eq_refl) as (n' & Hn & Hc & Hr & Hj).
    eexists. split; [apply nsteps_one with (a := NdSys (SNet a))|].
    - unfold node_step. destruct (nd_next N <? now) eqn:E; [lia|]. unfold sstep, sstep_cap. rewrite g1, Ho.
      unfold nstep in Hn. rewrite Hn. cbn [negb]. reflexivity.
    - split.
      + constructor; cbn; try reflexivity; [split; assumption|].
        intros j Hne. unfold view_of; cbn. now rewrite Hj by exact Hne.
      + cbn. now rewrite Hr.
  Qed.
  Lemma v_net_crash a v : net_own a = true ->
    (forall n, n_crash n = None -> n_router n i = v_rt v -> exists n', nstep (y_net c) now a n = Some n' /\ n_crash n' <> None) ->
    vcrash v.
  Proof.
    intros Ho H. begin_v. destruct (H _ g2 eq_refl) as (n' & Hn & Hc).
    eexists. split; [apply nsteps_one with (a := NdSys (SNet a))|].
    - unfold node_step. destruct (nd_next N <? now) eqn:E; [lia|]. unfold sstep, sstep_cap. rewrite g1, Ho.
      unfold nstep in Hn. rewrite Hn. cbn [negb]. reflexivity.
    - exact Hc.
  Qed.
  Definition tc_after (T T' : tile) (tc : Z) : Z := if is_nil (t_prog T') && negb (is_nil (t_prog T)) then now - b else tc.
  Lemma v_tile_step v T r :
    (forall n, n_crash n = None -> n_router n i = v_rt v ->
       exists n', tile_step buffer_capacity c now i n (v_tile v) = Go (n', T) /\ only_router n n' r) ->
    vstep v (MkView T r (tc_after (v_tile v) T (v_tc v)) (v_cc v)).
  Proof.
    intros H. begin_v. destruct (H _ g2 eq_refl) as (n' & Hn & Hc & Hr & Hj).
    eexists. split; [apply nsteps_one with (a := NdSys (STile i))|].
    - unfold node_step. destruct (nd_next N <? now) eqn:E; [lia|]. unfold sstep, sstep_cap. rewrite g1, k.
      rewrite Hn. cbn [negb]. reflexivity.
    - split.
      + constructor; cbn; try reflexivity; [split; [reflexivity|exact Hc]|].
        intros j Hne. unfold view_of; cbn. rewrite Hj, !set_fun_neq by exact Hne.
        destruct (_ && _); [now rewrite set_fun_neq by exact Hne|reflexivity].
      + cbn. rewrite Hr, !set_fun_eq. f_equal. unfold tc_after. destruct (_ && _); [rewrite set_fun_eq; congruence|reflexivity].
  Qed.
  Lemma v_tile_crash v e :
    (forall n, n_crash n = None -> n_router n i = v_rt v -> tile_step buffer_capacity c now i n (v_tile v) = Crash e) -> vcrash v.
  Proof.
    intros H N [g1 g2] t s k e0; subst; unfold view_of in *; cbn [v_tile v_rt v_tc v_cc] in *.
    eexists. split; [apply nsteps_one with (a := NdSys (STile i))|].
    - unfold node_step. destruct (nd_next N <? now) eqn:E; [lia|]. unfold sstep, sstep_cap. rewrite g1, k, (H _ g2 eq_refl).
      cbn [negb]. reflexivity.
    - cbn. discriminate.
  Qed.
End Views.

(** ** The relation *)
Section Relation.
  Variable Q : cop -> Prop.
  Variables (c : sys_cfg) (b now : Z).

  (** The instructions of a core that are not completed, in order: in the stages and buffers, last stage first. *)
  Definition part (g : gstate) : list cop := match g with GGot o | GWork o | GPutting o => [o] | _ => [] end.
  Definition xpart (g : gstate) (p : xphase) : list cop :=
    match g with
    | GGot o => [o]
    | GWork o => match p with XTiming => if is_hlt o then [o] else [] | XLoaded | XStored => [] | _ => [o] end
    | GDead => [CHlt]
    | _ => []
    end.
  Definition rest_of {K} (x : dcore K) : list cop :=
    xpart (t_x (k_stage x)) (k_xp x) ++ t_x (k_buf x) ++ part (t_d (k_stage x)) ++ t_d (k_buf x) ++ part (t_f (k_stage x)) ++
    t_f (k_buf x) ++ k_wait x.
  Definition xphase_rel {K} (values : list (Z * list Z)) (p : cproc) (x : dcore K) : Prop :=
    match t_x (k_stage x) with
    | GWork o =>
        (match k_xp x with XTiming => True | _ => is_hlt o = false end) /\
        match k_xp x with
        | XLoading id => exists a, cp_phase p = PLoad id a
        | XLoadNew data | XLoadTiming data => exists id a, cp_phase p = PLoad id a /\ value_of id values = Some data
        | XStoreNew a rows | XStoreTiming a rows => cp_phase p = PStoring a rows
        | XStoring id => cp_phase p = PStore id
        | XNone => False
        | _ => cp_phase p = PReady
        end
    | _ => cp_phase p = PReady
    end.
  Definition over {K} (x : dcore K) : bool := match k_proc x with CEnding | CEnded => true | _ => false end.
  Record core_rel (values : list (Z * list Z)) (cycles : Z) (p : cproc) (x : dcore core) : Prop := {
    kr_core : cp_core p = k_core x;
    kr_run : over x = false -> cp_prog p = rest_of x /\ xphase_rel values p x /\ Forall Q (rest_of x);
    kr_over : over x = true -> cp_phase p = PHalted /\ t_x (k_stage x) = GDead /\ cycles = k_cycles x;
    kr_comp : t_x (k_comp x) <> Pending -> t_x (k_stage x) = GDead;
    kr_mon : k_mon x = MEnd -> t_x (k_comp x) = Processed }.
  Definition cores_rel (values : list (Z * list Z)) (cc : Z -> Z) (ps : list cproc) (xs : list (dcore core)) : Prop :=
    length ps = length xs /\
    forall k p x, nth_error ps k = Some p -> nth_error xs k = Some x -> core_rel values (cc (Z.of_nat k)) p x.

  Definition inflight (h : hstate) : list req := match h with HGot r => [r] | _ => [] end.
  Definition holding (s : bstate) : list req := match s with BFree => [] | BGranted r | BTiming r _ => [r] end.
  Record ctl_rel (d : dram) (x : dctl cells_valid) : Prop := {
    cr_mem : d_mem d = y_mem (c_mem x); cr_valid : d_valid d = y_valid (c_mem x);
    cr_running : d_running d = c_running x; cr_pending : d_pending d = c_pending x;
    cr_queue : c_running x = true -> d_queue d = inflight (c_handler x) ++ c_items x;
    cr_bus : d_bus d = holding (c_bus x) ++ c_waiting x ++ c_starting x;
    cr_granted : d_granted d = match c_bus x with BTiming _ t => Some t | _ => None end;
    cr_stat : d_stat d = c_stat x; cr_start : d_start_time d = c_start x;
    cr_next : zlen (d_submitted d) = c_next x; cr_crash : d_crash d = None;
    cr_alive : c_running x = true -> match c_handler x with HDead _ => False | _ => True end;
    cr_values : forall id, result_of id (d_history d) = value_of id (c_values x) }.

  Definition sender_rel (i : Z) (z : sstate) (s : sender) : Prop :=
    match z with
    | ZNew | ZWaiting | ZDead _ => s = SIdle
    | ZGot p since =>
        s = STravel p since (snd (get_latency (y_net c) (pk_src p) (pk_dst p))) /\ pk_src p = i /\
        known_router (y_net c) (pk_dst p) = true /\ 0 <= fst (get_latency (y_net c) (pk_src p) (pk_dst p))
    | ZTravel p since inter => s = STravel p since inter /\ pk_src p = i /\ known_router (y_net c) (pk_dst p) = true
    | ZOffering p inter =>
        (exists since, s = STravel p since inter /\ since + fst (get_latency (y_net c) (pk_src p) (pk_dst p)) <= now) /\ pk_src p = i /\
        known_router (y_net c) (pk_dst p) = true
    | ZPutting p inter => s = SOffer p inter /\ pk_src p = i /\ known_router (y_net c) (pk_dst p) = true /\ buffer_key (y_net c) (pk_dst p) i = true
    | ZPut p inter => s = SStored p inter /\ pk_src p = i /\ known_router (y_net c) (pk_dst p) = true /\ buffer_key (y_net c) (pk_dst p) i = true
    | ZArrived p inter => s = SArrived p inter /\ pk_src p = i
    end.
  Definition count_read (x : rstats) : rstats :=
    MkRStats (packets_created x) (packets_sent_internode x) (packets_sent_intranode x) (packets_sent x) (packets_received x) (packets_read x + 1).
  Record rt_rel (i : Z) (ahead : bool) (r : router) (u : drt) : Prop := {
    rr_running : r_running r = u_running u;
    rr_queue : r_queue r = u_queue u;
    rr_empty : u_running u = false -> u_queue u = [];
    rr_src : Forall (fun p => pk_src p = i) (u_queue u);
    rr_sender : sender_rel i (u_sender u) (r_sender r);
    rr_length : zlen (u_buffers u) = w_nodes (y_net c) * w_tiles (y_net c) \/ (w_nodes (y_net c) * w_tiles (y_net c) < 0 /\ u_buffers u = []);
    rr_buffers : forall src, 0 <= src < w_nodes (y_net c) * w_tiles (y_net c) -> r_buffers r src = buffer_of u src;
    rr_alive : u_running u = true -> match u_sender u with ZDead _ => False | _ => True end;
    rr_stat : u_stat u = if ahead then count_read (r_stat r) else r_stat r }.

  Definition is_halt (l : list top) : Prop := match l with THalt :: _ => True | _ => False end.
  Definition is_send (l : list top) : Prop := match l with TSend _ _ _ _ :: _ => True | _ => False end.
  Definition all_over (xs : list (dcore core)) : Prop := forallb core_over xs = true.
  Definition phase_rel (i : Z) (x : dtile core cells_valid) (T : tile) (r : router) (tc : Z) : Prop :=
    match x_phase x with
    | TNew => False
    | TOpEnd at_ => t_prog T = tl (x_prog x) /\ t_phase T = PNext /\ r_client r = KIdle /\ x_prog x <> [] /\
                    (tl (x_prog x) = [] -> tc = at_ - b)
    | TDone => t_prog T = [] /\ x_prog x = [] /\ t_phase T = PNext /\ r_client r = KIdle /\ tc = x_cycles x
    | ph =>
        t_prog T = x_prog x /\ x_prog x <> [] /\
        match ph with
        | TOpNew => t_phase T = PNext /\ r_client r = KIdle
        | THaltWait => t_phase T = PNext /\ r_client r = KIdle /\ is_halt (x_prog x)
        | THaltAll | TStopNew => t_phase T = PNext /\ r_client r = KIdle /\ is_halt (x_prog x) /\ all_over (x_cores x)
        | TSendRead id => t_phase T = PSendRead id /\ r_client r = KIdle
        | TAddNew row rest => t_phase T = PSending (row :: rest) /\ r_client r = KIdle /\ is_send (x_prog x)
        | TAdding rest since => t_phase T = PSending rest /\ r_client r = KAdding since /\ is_send (x_prog x)
        | TAdded rest => t_phase T = PSending rest /\ r_client r = KIdle /\ is_send (x_prog x)
        | TReadNew got => t_phase T = PRecv got /\ r_client r = KIdle /\
            match x_prog x with TRecv _ _ _ vec :: _ => zlen got < vec | _ => False end
        | TReading src got => t_phase T = PRecv got /\ r_client r = KReading src /\ buffer_key (y_net c) i src = true /\
            match x_prog x with TRecv _ _ _ vec :: _ => zlen got < vec | _ => False end
        | TPopped src got data | TReadEnd src got data =>
            t_phase T = PRecv got /\ r_client r = KGot src data /\
            match x_prog x with TRecv _ _ _ vec :: _ => zlen got < vec | _ => False end
        | TRecvWrite id => t_phase T = PRecvWrite id /\ r_client r = KIdle
        | TPolling next => t_phase T = PHalting /\ r_client r = KPolling next /\ is_halt (x_prog x)
        | TEmptied | TSentWait _ => t_phase T = PHalting /\ r_client r = KDraining /\ is_halt (x_prog x) /\ u_queue (x_rt x) = []
        | TStopEnd => t_phase T = PHalting /\ r_client r = KIdle /\ is_halt (x_prog x)
        | _ => False
        end
    end.
  (** The memory controller and the router of a tile run or are stopped together. *)
  Definition run_rel (x : dtile core cells_valid) : Prop :=
    match x_phase x with
    | TStopEnd => u_running (x_rt x) = false
    | TSendRead _ | TAddNew _ _ | TAdding _ _ | TAdded _ | TPolling _ | TEmptied | TSentWait _ =>
        u_running (x_rt x) = true /\ c_running (x_ctl x) = true
    | _ => c_running (x_ctl x) = u_running (x_rt x)
    end.
  Definition ahead_of (ph : dphase) : bool := match ph with TReadEnd _ _ _ => true | _ => false end.
  Record booted_rel (i : Z) (x : dtile core cells_valid) (v : view) : Prop := {
    br_ctl : ctl_rel (t_dram (v_tile v)) (x_ctl x);
    br_cores : cores_rel (c_values (x_ctl x)) (v_cc v) (t_cores (v_tile v)) (x_cores x);
    br_rt : rt_rel i (ahead_of (x_phase x)) (v_rt v) (x_rt x);
    br_phase : phase_rel i x (v_tile v) (v_rt v) (v_tc v);
    br_run : run_rel x;
    br_ended : x_ended x = true -> x_phase x = TDone }.
  (** A tile that has not started is related as it will be after its start. *)
  Definition boot (i : Z) (x : dtile core cells_valid) : dtile core cells_valid :=
    fst (next_instr b b i (dt_rt (dt_ctl x (fst (ctl_run b i (x_ctl x)))) (fst (rt_run c i (x_rt x))))).
  Definition unstarted (x : dtile core cells_valid) : Prop :=
    c_running (x_ctl x) = false /\ u_running (x_rt x) = false /\ u_sender (x_rt x) = ZNew /\ x_ended x = false /\ u_queue (x_rt x) = [].
  Definition tile_rel (i : Z) (x : dtile core cells_valid) (v : view) : Prop :=
    if is_new x then unstarted x /\ booted_rel i (boot i x) v else booted_rel i x v.

  Record node_rel (n : dnode core cells_valid) (N : node) : Prop := {
    nr_good : good N;
    nr_start : nd_start N = b; nr_begin : z_begin n = b; nr_next : nd_next N = z_next n; nr_busy : nd_busy N = z_busy n;
    nr_length : zlen (z_tiles n) = Z.max 0 (w_tiles (y_net c));
    nr_tiles : forall i x, the_tile n i = Some x -> tile_rel i x (view_of N i) }.
End Relation.
