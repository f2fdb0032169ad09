(** The symbolic machine and the node: whatever the machine does, the node can do. *)
From Verif Require Import PyBase PyLemmas ConfigModel MemoryModel VfuModel FloatModel MvmuModel MvmuSpec MvmuLoad CoreModel CoreSpec
  DramModel DramSpec DramProofs RouterModel RouterSpec SystemModel SystemSpec SystemBase SystemInv SystemProofs SymMachine SymCore SymTile.
From Coq Require Import ZifyBool ZifyNat.
Open Scope Z_scope.

Lemma forall2_firstn {A B} (P : A -> B -> Prop) l l' n : Forall2 P l l' -> Forall2 P (firstn n l) (firstn n l').
Proof. intros H; revert n; induction H; intros [|n]; cbn; auto. Qed.
Lemma forall2_skipn {A B} (P : A -> B -> Prop) l l' n : Forall2 P l l' -> Forall2 P (skipn n l) (skipn n l').
Proof. intros H; revert n; induction H; intros [|n]; cbn; auto. Qed.
Lemma forall2_block {A B} (P : A -> B -> Prop) l l' s n : Forall2 P l l' -> Forall2 P (block l s n) (block l' s n).
Proof. intros H. unfold block. now apply forall2_firstn, forall2_skipn. Qed.
Lemma forall2_concat {A B} (P : A -> B -> Prop) l l' : Forall2 (Forall2 P) l l' -> Forall2 P (concat l) (concat l').
Proof. induction 1; cbn; [constructor|]. now apply Forall2_app. Qed.
Lemma forall2_zlen {A B} (P : A -> B -> Prop) l l' : Forall2 P l l' -> zlen l = zlen l'.
Proof. unfold zlen. induction 1; cbn [length]; lia. Qed.

(** ** Steps of the routers *)
Section Router.
Context (c : net_cfg) (i : Z) (Hi : known_router c i = true).
Ltac start H := unfold nstep, nstep_cap; rewrite H; cbn [tile_of]; rewrite Hi; cbn [negb].

Lemma router_submit now N b x sub del tg row : n_crash N = None -> n_router N i = MkRouter true [] SIdle b KIdle x sub del -> 0 <= w_data_lat c ->
  exists N', nstep c now (NSubmit i tg row) N = Some N' /\ n_crash N' = None /\ (forall k, k <> i -> n_router N' k = n_router N k) /\
    n_router N' i = MkRouter true [MkPacket i tg row] SIdle b (KAdding now) x (sub ++ [MkPacket i tg row]) del.
Proof.
  intros C R L. start C. unfold n_submit. rewrite R. cbn [r_client r_running r_queue r_sender r_buffers r_stat r_submitted r_delivered app].
  replace (w_data_lat c <? 0) with false by lia. eexists. split; [reflexivity|]. split; [exact C|].
  split; [intros k K; now apply set_fun_neq|apply set_fun_eq].
Qed.
Lemma router_added now N q sd b since x sub del run : n_crash N = None -> n_router N i = MkRouter run q sd b (KAdding since) x sub del -> since + w_data_lat c <= now ->
  exists N' x', nstep c now (NAdded i) N = Some N' /\ n_crash N' = None /\ (forall k, k <> i -> n_router N' k = n_router N k) /\
    n_router N' i = MkRouter run q sd b KIdle x' sub del.
Proof.
  intros C R L. start C. unfold n_added. rewrite R. cbn [r_client r_running r_queue r_sender r_buffers r_stat r_submitted r_delivered app].
  replace (now <? since + w_data_lat c) with false by lia. eexists. eexists. split; [reflexivity|]. split; [exact C|].
  split; [intros k K; now apply set_fun_neq|apply set_fun_eq].
Qed.
Lemma router_take now N p rest b cl x sub del : n_crash N = None -> n_router N i = MkRouter true (p :: rest) SIdle b cl x sub del ->
  known_router c (pk_dst p) = true -> 0 <= fst (get_latency c (pk_src p) (pk_dst p)) ->
  exists N' z, nstep c now (NTake i) N = Some N' /\ n_crash N' = None /\ (forall k, k <> i -> n_router N' k = n_router N k) /\
    n_router N' i = MkRouter true rest (STravel p now z) b cl x sub del.
Proof.
  intros C R K L. start C. unfold n_take. rewrite R. cbn [r_client r_running r_queue r_sender r_buffers r_stat r_submitted r_delivered app].
  destruct (get_latency c (pk_src p) (pk_dst p)) as [lat z]. cbn [fst] in L. rewrite K. cbn [negb]. replace (lat <? 0) with false by lia.
  eexists. exists z. split; [reflexivity|]. split; [exact C|]. split; [intros k Q; now apply set_fun_neq|apply set_fun_eq].
Qed.
Lemma router_travel now N run q p since z b cl x sub del : n_crash N = None -> n_router N i = MkRouter run q (STravel p since z) b cl x sub del ->
  since + fst (get_latency c (pk_src p) (pk_dst p)) <= now -> buffer_key c (pk_dst p) (pk_src p) = true ->
  exists N', nstep c now (NTravel i) N = Some N' /\ n_crash N' = None /\ (forall k, k <> i -> n_router N' k = n_router N k) /\
    n_router N' i = MkRouter run q (SOffer p z) b cl x sub del.
Proof.
  intros C R L K. start C. unfold n_travel. rewrite R. cbn [r_client r_running r_queue r_sender r_buffers r_stat r_submitted r_delivered app].
  replace (now <? _) with false by lia. rewrite K. eexists. split; [reflexivity|]. split; [exact C|].
  split; [intros k Q; now apply set_fun_neq|apply set_fun_eq].
Qed.
Lemma router_store now N run q p z b cl x sub del r' : n_crash N = None -> n_router N i = MkRouter run q (SOffer p z) b cl x sub del ->
  pk_dst p <> i -> n_router N (pk_dst p) = r' -> r_buffers r' (pk_src p) = [] ->
  exists N', nstep c now (NStore i) N = Some N' /\ n_crash N' = None /\ (forall k, k <> i -> k <> pk_dst p -> n_router N' k = n_router N k) /\
    n_router N' i = MkRouter run q (SStored p z) b cl x sub del /\ n_router N' (pk_dst p) = set_buffer r' (pk_src p) [pk_data p].
Proof.
  intros C R D R' B. start C. unfold n_store. rewrite R. cbn [r_client r_running r_queue r_sender r_buffers r_stat r_submitted r_delivered app].
  cbn [set_router n_router]. rewrite (set_fun_neq (n_router N) i) by exact D. rewrite R', B. change (zlen (@nil (list Z)) <? buffer_capacity) with true. cbv iota.
  eexists. split; [reflexivity|]. split; [exact C|]. cbn [set_router n_router app]. split; [intros k Q1 Q2; now rewrite !set_fun_neq|].
  split; [rewrite set_fun_neq by auto; apply set_fun_eq|apply set_fun_eq].
Qed.
Lemma router_count now N run q p z b cl x sub del r' : n_crash N = None -> n_router N i = MkRouter run q (SStored p z) b cl x sub del ->
  pk_dst p <> i -> n_router N (pk_dst p) = r' ->
  exists N' x', nstep c now (NCount i) N = Some N' /\ n_crash N' = None /\ (forall k, k <> i -> k <> pk_dst p -> n_router N' k = n_router N k) /\
    n_router N' i = MkRouter run q (SArrived p z) b cl x sub del /\ n_router N' (pk_dst p) = set_stat r' x'.
Proof.
  intros C R D R'. start C. unfold n_count. rewrite R. cbn [r_client r_running r_queue r_sender r_buffers r_stat r_submitted r_delivered app].
  cbn [set_router n_router]. rewrite (set_fun_neq (n_router N) i) by exact D. rewrite R'.
  eexists. eexists. split; [reflexivity|]. split; [exact C|]. cbn [set_router n_router app]. split; [intros k Q1 Q2; now rewrite !set_fun_neq|].
  split; [rewrite set_fun_neq by auto; apply set_fun_eq|apply set_fun_eq].
Qed.
Lemma router_done now N run q p z b cl x sub del : n_crash N = None -> n_router N i = MkRouter run q (SArrived p z) b cl x sub del ->
  exists N' x', nstep c now (NDone i) N = Some N' /\ n_crash N' = None /\ (forall k, k <> i -> n_router N' k = n_router N k) /\
    n_router N' i = MkRouter run q SIdle b cl x' sub del.
Proof.
  intros C R. start C. unfold n_done. rewrite R. cbn [r_client r_running r_queue r_sender r_buffers r_stat r_submitted r_delivered app].
  eexists. eexists. split; [reflexivity|]. split; [exact C|]. split; [intros k Q; now apply set_fun_neq|apply set_fun_eq].
Qed.
Lemma router_read now N run q sd b x sub del src : n_crash N = None -> n_router N i = MkRouter run q sd b KIdle x sub del -> buffer_key c i src = true ->
  exists N', nstep c now (NRead i src) N = Some N' /\ n_crash N' = None /\ (forall k, k <> i -> n_router N' k = n_router N k) /\
    n_router N' i = MkRouter run q sd b (KReading src) x sub del.
Proof.
  intros C R K. start C. unfold n_read. rewrite R. cbn [r_client]. rewrite K.
  eexists. split; [reflexivity|]. split; [exact C|]. split; [intros k Q; now apply set_fun_neq|apply set_fun_eq].
Qed.
Lemma router_pop now N run q sd b x sub del src data rest : n_crash N = None -> n_router N i = MkRouter run q sd b (KReading src) x sub del ->
  b src = data :: rest ->
  exists N', nstep c now (NPop i) N = Some N' /\ n_crash N' = None /\ (forall k, k <> i -> n_router N' k = n_router N k) /\
    n_router N' i = MkRouter run q sd (set_fun b src rest) (KGot src data) x sub del.
Proof.
  intros C R B. start C. unfold n_pop. rewrite R. cbn [r_client r_buffers]. rewrite B.
  eexists. split; [reflexivity|]. split; [exact C|]. split; [intros k Q; now apply set_fun_neq|apply set_fun_eq].
Qed.
Lemma router_got now N run q sd b x sub del src data : n_crash N = None -> n_router N i = MkRouter run q sd b (KGot src data) x sub del ->
  exists N' x' del', nstep c now (NGot i) N = Some N' /\ n_crash N' = None /\ (forall k, k <> i -> n_router N' k = n_router N k) /\
    n_router N' i = MkRouter run q sd b KIdle x' sub del'.
Proof.
  intros C R. start C. unfold n_got. rewrite R. cbn [r_client r_running r_queue r_sender r_buffers r_stat r_submitted r_delivered app].
  eexists. eexists. eexists. split; [reflexivity|]. split; [exact C|]. split; [intros k Q; now apply set_fun_neq|apply set_fun_eq].
Qed.
Lemma router_halt now N q sd b x sub del : n_crash N = None -> n_router N i = MkRouter true q sd b KIdle x sub del ->
  exists N', nstep c now (NHalt i) N = Some N' /\ n_crash N' = None /\ (forall k, k <> i -> n_router N' k = n_router N k) /\
    n_router N' i = MkRouter true q sd b (KPolling now) x sub del.
Proof.
  intros C R. start C. unfold n_halt. rewrite R. cbn [r_client r_running].
  eexists. split; [reflexivity|]. split; [exact C|]. split; [intros k Q; now apply set_fun_neq|apply set_fun_eq].
Qed.
Lemma router_poll now N run sd b x sub del : n_crash N = None -> n_router N i = MkRouter run [] sd b (KPolling now) x sub del ->
  exists N', nstep c now (NPoll i) N = Some N' /\ n_crash N' = None /\ (forall k, k <> i -> n_router N' k = n_router N k) /\
    n_router N' i = MkRouter run [] sd b KDraining x sub del.
Proof.
  intros C R. start C. unfold n_poll. rewrite R. cbn [r_client r_queue]. rewrite Z.ltb_irrefl.
  eexists. split; [reflexivity|]. split; [exact C|]. split; [intros k Q; now apply set_fun_neq|apply set_fun_eq].
Qed.
Lemma router_stopped now N run q b x sub del : n_crash N = None -> n_router N i = MkRouter run q SIdle b KDraining x sub del ->
  exists N', nstep c now (NStopped i) N = Some N' /\ n_crash N' = None /\ (forall k, k <> i -> n_router N' k = n_router N k) /\
    n_router N' i = MkRouter false q SIdle b KIdle x sub del.
Proof.
  intros C R. start C. unfold n_stopped. rewrite R. cbn [r_client r_sender].
  eexists. split; [reflexivity|]. split; [exact C|]. split; [intros k Q; now apply set_fun_neq|apply set_fun_eq].
Qed.
End Router.

Section Node.
Context (c : sys_cfg) (j : job).

(** ** Executions, up to the representation of the states *)
Definition reaches (t : Z) (f : Z -> tile) (N : net) : Prop :=
  exists s, sreach c j t s /\ s_crash s = None /\ s_net s = N /\ forall i, s_tile s i = f i.

Lemma known_on i : on_node c i <-> known_router (y_net c) i = true.
Proof. unfold on_node, known_router. lia. Qed.
Lemma reaches_crash t f N : reaches t f N -> n_crash N = None /\ forall i, d_crash (t_dram (f i)) = None.
Proof.
  intros (s & R & C & <- & F). destruct (projections _ _ _ _ R) as (_ & _ & X). destruct (X C) as [X1 X2]. split; [exact X1|].
  intros i. rewrite <- F. apply X2.
Qed.
Lemma reaches_dinv t f N : 0 <= y_size c -> reaches t f N -> forall i, dinv (y_lat c) (y_size c) t (t_dram (f i)).
Proof. intros S (s & R & _ & _ & F) i. rewrite <- F. now apply (sreach_dinv c j S). Qed.
Lemma reaches_ext t f f' N : reaches t f N -> (forall i, f i = f' i) -> reaches t f' N.
Proof. intros (s & R & C & E & F) X. exists s. repeat split; try assumption. intros i. now rewrite F. Qed.

Definition with_dram (T : tile) (d : dram) : tile := MkTile d (t_cores T) (t_prog T) (t_phase T) (t_log T).
Lemma with_dram_same T : with_dram T (t_dram T) = T.
Proof. now destruct T. Qed.

Lemma reaches_dram i t f N n t' d : on_node c i -> reaches t f N -> dinternal (y_lat c) t (t_dram (f i)) n t' d -> d_crash d = None ->
  reaches t' (set_fun f i (with_dram (f i) d)) N.
Proof.
  intros I R D. remember (t_dram (f i)) as d0 eqn:E0. revert E0. induction D as [t d|t d n t1 d1 t2 d2 a D IH T IN ST]; intros E0 CR.
  - subst d. apply (reaches_ext _ f); [exact R|]. intros k. unfold set_fun. destruct (k =? i) eqn:E; [|reflexivity].
    assert (k = i) by lia. subst k. symmetry. apply with_dram_same.
  - assert (C1 : d_crash d1 = None) by (unfold dstep in ST; destruct (d_crash d1); [discriminate|reflexivity]).
    destruct (IH R E0 C1) as (s & RS & CS & NS & FS).
    exists (MkSys (s_net s) (set_fun (s_tile s) i (with_dram (s_tile s i) d2)) None).
    split; [|split; [reflexivity|split; [exact NS|]]].
    + eapply (sr_step c j t1 t2 (SDram i a)); [exact RS|exact T|]. unfold sstep, sstep_cap. rewrite CS.
      replace (dram_own a) with true by (destruct a; cbn in IN; try contradiction; reflexivity).
      rewrite (proj1 (known_on i) I). cbn [negb orb].
      assert (TD : t_dram (s_tile s i) = d1) by (rewrite FS, set_fun_eq; reflexivity). rewrite TD, ST. unfold with_dram. now rewrite CR.
    + intros k. cbn [s_tile]. destruct (Z.eq_dec k i) as [->|NE].
      * rewrite !set_fun_eq, (FS i), set_fun_eq. reflexivity.
      * rewrite !set_fun_neq by auto. rewrite FS. now apply set_fun_neq.
Qed.

Lemma reaches_core i k t t' f N p d p' : on_node c i -> reaches t f N -> t <= t' -> 0 <= k -> nth_error (t_cores (f i)) (Z.to_nat k) = Some p ->
  core_step_sys c t' k (t_dram (f i)) p = Go (d, p') ->
  reaches t' (set_fun f i (MkTile d (upd (t_cores (f i)) (Z.to_nat k) p') (t_prog (f i)) (t_phase (f i)) (t_log (f i)))) N.
Proof.
  intros I (s & RS & CS & NS & FS) T K E ST.
  eexists. split; [eapply (sr_step c j t t' (SCore i k)); [exact RS|exact T|]|].
  - unfold sstep, sstep_cap. rewrite CS, (proj1 (known_on i) I). replace (k <? 0) with false by lia. cbn [negb orb].
    rewrite (FS i), E, ST. reflexivity.
  - split; [exact CS|]. split; [exact NS|]. intros q. cbn [set_tile s_tile]. unfold set_fun. destruct (q =? i); [reflexivity|apply FS].
Qed.

Lemma reaches_tile i t t' f N N' T' : on_node c i -> reaches t f N -> t <= t' ->
  tile_step buffer_capacity c t' i N (f i) = Go (N', T') -> reaches t' (set_fun f i T') N'.
Proof.
  intros I (s & RS & CS & NS & FS) T ST.
  eexists. split; [eapply (sr_step c j t t' (STile i)); [exact RS|exact T|]|].
  - unfold sstep, sstep_cap. rewrite CS, (proj1 (known_on i) I). cbn [negb]. rewrite (FS i), NS, ST. reflexivity.
  - split; [reflexivity|]. split; [reflexivity|]. intros q. cbn [s_tile]. unfold set_fun. destruct (q =? i); [reflexivity|apply FS].
Qed.

Lemma reaches_net t t' f N N' a : reaches t f N -> t <= t' -> net_own a = true -> nstep (y_net c) t' a N = Some N' -> n_crash N' = None ->
  reaches t' f N'.
Proof.
  intros (s & RS & CS & NS & FS) T O ST C.
  eexists. split; [eapply (sr_step c j t t' (SNet a)); [exact RS|exact T|]|].
  - unfold sstep, sstep_cap. rewrite CS, O. cbn [negb]. rewrite NS. unfold nstep in ST. rewrite ST. reflexivity.
  - split; [exact C|]. split; [reflexivity|]. exact FS.
Qed.

(** ** The relation *)
Context (cfg : list bitcfg) (ww : Z) (OK : core_ok cfg ww (y_core c)) (ID : ideal cfg (k_mv (y_core c))).
Context (HW : 0 <= v_width (k_vfu (y_core c)) <= 31).
Context (g : geo) (Hn : g_n g = c_size (k_mv (y_core c))) (Hm : g_m g = k_mvmus (y_core c)) (Hq : g_q g = k_cache (y_core c)).
Context (Ht : g_t g = w_tiles (y_net c)) (Hnodes : g_nodes g <= w_nodes (y_net c)).
Context (HL : 0 <= g_l g) (HS : g_l g <= y_size c) (LAT : usable_latencies c).
Context (e_in : Z -> Z) (e_u : Z -> Z -> Z -> Z -> Z) (W : Z -> Z -> Z -> list (list f64)).
Notation is := (is (k_vfu (y_core c)) e_in e_u).
Context (HE : forall i k u l xs, g_in g i k u = Some l -> zlen xs = c_size (k_mv (y_core c)) -> Forall2 is l xs ->
  forall j, 0 <= j < c_size (k_mv (y_core c)) ->
    e_u i k u j = wrap32 (mvm_value (k_mv (y_core c)) cfg (znth [] (W i k u) j) xs) / 2 ^ c_weight_frac (k_mv (y_core c))).
Notation crel := (crel cfg (y_core c) g e_in e_u W).
Notation drel := (drel (k_vfu (y_core c)) e_in e_u g).

Record prel (i k : Z) (s : score) (p : cproc) : Prop := {
  pr_core : crel i k (sc_regs s) (cp_core p);
  pr_prog : cp_prog p = sc_prog s;
  pr_phase : cp_phase p = match sc_ph s with SReady => PReady | SWait id a => PLoad id a | SHalted => PHalted end }.
Definition phrel (a : stph) (b : tphase) : Prop :=
  match a, b with
  | SNext, PNext => True
  | SSendRead id, PSendRead id' => id = id'
  | SSending l, PSending l' | SRecv l, PRecv l' => Forall2 (Forall2 is) l l'
  | _, _ => False
  end.
Record rrel (cl : option Z) (run : bool) (r : router) : Prop := {
  rr_run : r_running r = run; rr_queue : r_queue r = []; rr_sender : r_sender r = SIdle; rr_buf : forall s, r_buffers r s = [];
  rr_client : r_client r = match cl with None => KIdle | Some s => KReading s end }.
Record trel (i : Z) (t : stile) (T : tile) (r : router) : Prop := {
  tr_dram : drel (st_mem t) (st_queue t) (st_pend t) (st_cnt t) (st_run t) (t_dram T);
  tr_len : length (t_cores T) = length (st_cores t);
  tr_core : forall k s, core_of t k = Some s -> exists p, nth_error (t_cores T) (Z.to_nat k) = Some p /\ prel i k s p;
  tr_prog : t_prog T = st_prog t;
  tr_phase : phrel (st_ph t) (t_phase T);
  tr_router : rrel (st_cl t) (st_run t) r }.
Definition srel (t : Z) (s : ssys) : Prop :=
  exists f N, reaches t f N /\ zlen s = w_tiles (y_net c) /\ forall i x, tile_no g s i = Some x -> trel i x (f i) (n_router N i).
(** Reaching a state where only tile [i] has changed. *)
Definition goes (i : Z) (f : Z -> tile) (N : net) (t' : stile) : Prop :=
  exists u f' N', reaches u f' N' /\ (forall k, k <> i -> f' k = f k /\ n_router N' k = n_router N k) /\ trel i t' (f' i) (n_router N' i).

Lemma core_of_nonneg t k s : core_of t k = Some s -> 0 <= k /\ (Z.to_nat k < length (st_cores t))%nat.
Proof.
  intros H. apply guard_some in H as [H1 H2]. split; [lia|]. apply nth_error_Some. congruence.
Qed.
Lemma core_of_with t k s s0 k' : core_of t k = Some s0 -> core_of (with_core t k s) k' = if k' =? k then Some s else core_of t k'.
Proof.
  intros H. destruct (core_of_nonneg _ _ _ H) as [H1 H2]. unfold core_of, guard, with_core. cbn [st_cores].
  destruct (0 <=? k') eqn:E; [|now replace (k' =? k) with false by lia].
  rewrite nth_error_upd. destruct (k' =? k) eqn:E'.
  - assert (k' = k) by lia. subst k'. rewrite Nat.eqb_refl. destruct (nth_error (st_cores t) (Z.to_nat k)) eqn:X; [reflexivity|].
    apply nth_error_None in X. lia.
  - replace (Z.to_nat k =? Z.to_nat k')%nat with false by lia. reflexivity.
Qed.

(** A change of one core. *)
Lemma trel_core i t T r k s0 s p p' d t1 :
  trel i t T r -> core_of t k = Some s0 -> nth_error (t_cores T) (Z.to_nat k) = Some p ->
  drel (st_mem t1) (st_queue t1) (st_pend t1) (st_cnt t1) (st_run t1) d ->
  st_cores t1 = st_cores t -> st_prog t1 = st_prog t -> st_ph t1 = st_ph t -> st_cl t1 = st_cl t -> st_run t1 = st_run t ->
  prel i k s p' ->
  trel i (with_core t1 k s) (MkTile d (upd (t_cores T) (Z.to_nat k) p') (t_prog T) (t_phase T) (t_log T)) r.
Proof.
  intros TR CO NE D E1 E2 E3 E4 E5 P. destruct (core_of_nonneg _ _ _ CO) as [K1 K2].
  assert (CO1 : core_of t1 k = Some s0) by (unfold core_of in *; rewrite E1; exact CO).
  constructor; cbn [t_dram t_cores t_prog t_phase with_core st_mem st_queue st_pend st_cnt st_run st_cores st_prog st_ph st_cl].
  - exact D.
  - rewrite !length_upd, E1. apply TR.
  - intros k' s' H. rewrite (core_of_with t1 k s s0 k' CO1) in H. rewrite nth_error_upd. destruct (k' =? k) eqn:E.
    + assert (k' = k) by lia. subst k'. injection H as <-. rewrite Nat.eqb_refl, NE. eauto.
    + assert (H' : core_of t k' = Some s') by (unfold core_of in *; rewrite <- E1; exact H).
      destruct (core_of_nonneg _ _ _ H') as [K3 _]. replace (Z.to_nat k =? Z.to_nat k')%nat with false by lia. now apply TR.
  - rewrite E2. apply TR.
  - rewrite E3. apply TR.
  - rewrite E4, E5. apply TR.
Qed.

(** Equality of the tiles' relation is kept when another tile moves. *)
Lemma goes_core i k t f N u p d p' t' : on_node c i -> reaches t f N -> 0 <= k -> nth_error (t_cores (f i)) (Z.to_nat k) = Some p ->
  t <= u -> core_step_sys c u k (t_dram (f i)) p = Go (d, p') ->
  trel i t' (MkTile d (upd (t_cores (f i)) (Z.to_nat k) p') (t_prog (f i)) (t_phase (f i)) (t_log (f i))) (n_router N i) ->
  goes i f N t'.
Proof.
  intros I R K NE T ST TR. exists u. eexists. exists N. split; [eapply reaches_core; eassumption|]. split.
  - intros q Hq0. split; [now apply set_fun_neq|reflexivity].
  - rewrite set_fun_eq. exact TR.
Qed.
Lemma goes_trans i f N f1 N1 t1 : (forall k, k <> i -> f1 k = f k /\ n_router N1 k = n_router N k) -> goes i f1 N1 t1 -> goes i f N t1.
Proof.
  intros X (u & f' & N' & R & Y & T). exists u, f', N'. split; [exact R|]. split; [|exact T].
  intros k K. destruct (X k K), (Y k K). split; congruence.
Qed.

Lemma nodes_ok i : on_node c i -> g_nodes g * g_t g <= w_nodes (y_net c) * w_tiles (y_net c).
Proof. intros I. unfold on_node in I. rewrite <- Ht in *. apply Z.mul_le_mono_nonneg_r; [lia|exact Hnodes]. Qed.
Lemma size_nonneg : 0 <= y_size c. Proof. lia. Qed.
Lemma lat_nonneg : 0 <= y_lat c. Proof. destruct LAT. lia. Qed.

Lemma ok_local i k t f N x x' : on_node c i -> reaches t f N -> trel i x (f i) (n_router N i) -> m_local g i k x = Some x' -> goes i f N x'.
Proof.
  intros I R TR H. unfold m_local in H. destruct (core_of x k) as [s|] eqn:CO; [|discriminate].
  destruct (tr_core _ _ _ _ TR k s CO) as (p & NE & P). destruct (core_of_nonneg _ _ _ CO) as [K1 _].
  destruct (sc_ph s) eqn:PH; try discriminate. destruct (sc_prog s) as [|o rest] eqn:PR; [discriminate|].
  pose proof (pr_phase _ _ _ _ P) as PP. rewrite PH in PP. pose proof (pr_prog _ _ _ _ P) as PQ. rewrite PR in PQ.
  assert (HL' : o = CHlt \/ exists r, slocal g i k (sc_regs s) o = Some r /\ x' = with_core x k (MkSCore r rest SReady)).
  { destruct o; try (right; destruct (slocal g i k (sc_regs s) _) as [r|]; [|discriminate]; injection H as <-; now exists r). now left. }
  destruct HL' as [->|(r & SL & ->)].
  - injection H as <-. eapply (goes_core i k t f N t p); try eassumption; [lia| |].
    + unfold core_step_sys. rewrite PP, PQ. reflexivity.
    + eapply (trel_core i x (f i) _ k s); try eassumption; try reflexivity; [apply TR|].
      constructor; cbn [sc_regs sc_prog sc_ph cp_core cp_prog cp_phase]; [apply P|first [exact PQ|reflexivity|now rewrite PQ]|reflexivity].
  - destruct (crel_local cfg ww (y_core c) OK ID HW g Hn Hm Hq e_in e_u W HE i k (sc_regs s) (cp_core p) o r (pr_core _ _ _ _ P) SL) as (K' & E & C').
    eapply (goes_core i k t f N t p); try eassumption; [lia| |].
    + unfold core_step_sys. rewrite PP, PQ. destruct o; try (rewrite E; reflexivity); discriminate SL.
    + eapply (trel_core i x (f i) _ k s); try eassumption; try reflexivity; [apply TR|].
      constructor; cbn [sc_regs sc_prog sc_ph cp_core cp_prog cp_phase]; [exact C'|reflexivity|reflexivity].
Qed.

Lemma ok_issue i k t f N x x' : on_node c i -> reaches t f N -> trel i x (f i) (n_router N i) -> m_issue g k x = Some x' -> goes i f N x'.
Proof.
  intros I R TR H. unfold m_issue in H. destruct (core_of x k) as [s|] eqn:CO; [|discriminate].
  destruct (tr_core _ _ _ _ TR k s CO) as (p & NE & P). destruct (core_of_nonneg _ _ _ CO) as [K1 _].
  destruct (sc_ph s) eqn:PH; try discriminate. destruct (sc_prog s) as [|o rest] eqn:PR; [discriminate|]. destruct o as [d r w v| | | | | |]; try discriminate.
  pose proof (pr_phase _ _ _ _ P) as PP. rewrite PH in PP. pose proof (pr_prog _ _ _ _ P) as PQ. rewrite PR in PQ.
  destruct (reg_address g (sc_regs s) r) as [a|] eqn:RA; [|discriminate].
  destruct (submit_read g x k a w v) as [x1|] eqn:SR; [|discriminate]. injection H as <-.
  apply guard_some in SR as [G [= <-]]. assert (RUN : st_run x = true) by (destruct (st_run x); [reflexivity|rewrite andb_false_r in G; discriminate]).
  destruct (crel_address cfg ww (y_core c) OK HW g Hn Hm Hq e_in e_u W HE i k _ _ r a (pr_core _ _ _ _ P) RA) as (K' & E & _ & C').
  pose proof (tr_dram _ _ _ _ TR) as D. rewrite RUN in D.
  destruct (drel_submit _ _ _ _ _ _ _ _ _ t k a (RRead w v) D) as (d' & SB & D' & _).
  eapply (goes_core i k t f N t p); try eassumption; [lia| |].
  - unfold core_step_sys. rewrite PP, PQ, E, SB. reflexivity.
  - eapply (trel_core i x (f i) _ k s); try eassumption; try reflexivity.
    + cbn [with_queue st_mem st_queue st_pend st_cnt st_run]. rewrite RUN. exact D'.
    + constructor; cbn [sc_regs sc_prog sc_ph cp_core cp_prog cp_phase q_id]; [exact C'|first [exact PQ|reflexivity|now rewrite PQ]|reflexivity].
Qed.

(** After steps of the memory controller. *)
Lemma trel_dram i t T r d t1 : trel i t T r -> drel (st_mem t1) (st_queue t1) (st_pend t1) (st_cnt t1) (st_run t1) d ->
  st_cores t1 = st_cores t -> st_prog t1 = st_prog t -> st_ph t1 = st_ph t -> st_cl t1 = st_cl t -> st_run t1 = st_run t ->
  trel i t1 (with_dram T d) r.
Proof.
  intros TR D E1 E2 E3 E4 E5. constructor; cbn [with_dram t_dram t_cores t_prog t_phase].
  - exact D.
  - rewrite E1. apply TR.
  - intros k s H. apply (tr_core _ _ _ _ TR). unfold core_of in *. now rewrite <- E1.
  - rewrite E2. apply TR.
  - rewrite E3. apply TR.
  - rewrite E4, E5. apply TR.
Qed.

(** The tile's program moves on. *)
Lemma trel_phase i t T r r' prog ph cl run T' : trel i t T r -> t_dram T' = t_dram T -> t_cores T' = t_cores T -> t_prog T' = prog ->
  phrel ph (t_phase T') -> rrel cl run r' -> run = st_run t ->
  trel i (with_phase t prog ph cl run) T' r'.
Proof.
  intros TR E1 E2 E3 P RR ->. constructor; cbn [with_phase st_mem st_queue st_pend st_cnt st_run st_cores st_prog st_ph st_cl].
  - rewrite E1. apply TR.
  - rewrite E2. apply TR.
  - intros k s H. rewrite E2. apply (tr_core _ _ _ _ TR). exact H.
  - exact E3.
  - exact P.
  - exact RR.
Qed.

Lemma ok_serve i t f N x x' : on_node c i -> reaches t f N -> trel i x (f i) (n_router N i) -> m_serve g x = Some x' -> goes i f N x'.
Proof.
  intros I R TR H. unfold m_serve in H. destruct (st_queue x) as [|r rest] eqn:Q; [discriminate|].
  apply guard_some in H as [G H]. apply andb_prop in G as [G RUN]. apply andb_prop in G as [G B]. apply andb_prop in G as [IN RD].
  pose proof (tr_dram _ _ _ _ TR) as D. rewrite RUN, Q in D. pose proof (reaches_dinv t f N size_nonneg R i) as DI.
  destruct (sready (st_mem x) r) eqn:S.
  - destruct (drel_read _ _ _ g (y_lat c) (y_size c) lat_nonneg HS _ r rest _ _ _ t DI D IN RD ltac:(lia) S) as (t1 & d1 & data & ST & D1 & _ & RES & FD).
    pose proof (reaches_dram i t f N 3 t1 d1 I R ST (dr_crash _ _ _ _ _ _ _ _ _ _ D1)) as R1.
    set (f1 := set_fun f i (with_dram (f i) d1)) in R1.
    assert (F1 : f1 i = with_dram (f i) d1) by apply set_fun_eq.
    set (x1 := with_queue x rest (st_pend x) (st_cnt x)) in *.
    assert (TR1 : trel i x1 (f1 i) (n_router N i)).
    { rewrite F1. apply (trel_dram i x (f i) (n_router N i) d1 x1 TR); try reflexivity. cbn [x1 with_queue st_mem st_queue st_pend st_cnt st_run]. now rewrite RUN. }
    assert (X : forall k, k <> i -> f1 k = f k /\ n_router N k = n_router N k) by (intros k K; split; [now apply set_fun_neq|reflexivity]).
    apply (goes_trans i f N f1 N x' X).
    assert (LD : zlen data = q_length r).
    { apply forall2_zlen in FD. unfold contents in FD. rewrite zlen_map in FD. apply (inside_ok e_in e_u) in IN.
      rewrite zlen_block in FD by (rewrite ?(dr_len _ _ _ _ _ _ _ _ _ _ D); lia). congruence. }
    assert (HD : t_dram (f1 i) = d1) by (rewrite F1; reflexivity).
    unfold deliver in H. destruct (q_core r =? -1) eqn:QC.
    + cbn [x1 with_queue st_ph st_prog st_cl st_run] in H. destruct (st_ph x) as [|id|rows|got] eqn:PH; try discriminate.
      destruct (st_prog x) as [|[a tg w v|a src w v|] prest] eqn:PR; try discriminate.
      apply guard_some in H as [G [= <-]]. pose proof (tr_phase _ _ _ _ TR1) as PP. cbn [x1 with_queue st_ph] in PP. rewrite PH in PP.
      destruct (t_phase (f1 i)) as [|id'|rows'|got'|id'|] eqn:TP; try contradiction. cbn [phrel] in PP. subst id'.
      pose proof (tr_prog _ _ _ _ TR1) as TPR. cbn [x1 with_queue st_prog] in TPR. rewrite PR in TPR.
      assert (QI : id = q_id r) by lia. subst id.
      exists t1. eexists. exists N. split; [eapply (reaches_tile i t1 t1 f1 N); [exact I|exact R1|lia|]|split].
      * unfold tile_step. rewrite TPR, TP, HD, RES. replace ((w <? 0) || (v <? 0)) with false by lia. reflexivity.
      * intros k K. split; [now apply set_fun_neq|reflexivity].
      * rewrite set_fun_eq. rewrite <- PR. change (st_prog x) with (st_prog x1). change (st_cl x) with (st_cl x1). change (st_run x) with (st_run x1).
        apply (trel_phase i x1 (f1 i) (n_router N i)); try reflexivity; [exact TR1|exact (eq_sym HD)| |apply TR1].
        cbn [t_phase phrel]. unfold rows_of. clear - FD. induction (zrange v) as [|y l IH]; cbn [map]; constructor; [|exact IH].
        now apply forall2_block.
    + destruct (core_of x1 (q_core r)) as [s|] eqn:CO; [|discriminate]. set (k := q_core r) in *.
      destruct (tr_core _ _ _ _ TR1 k s CO) as (p & NE & P). destruct (core_of_nonneg _ _ _ CO) as [K1 _].
      destruct (sc_ph s) as [|id a|] eqn:PH; try discriminate. destruct (sc_prog s) as [|[d rr w v| | | | | |] prest] eqn:PR; try discriminate.
      apply guard_some in H as [G [= <-]]. apply andb_prop in G as [G1 G2].
      pose proof (pr_phase _ _ _ _ P) as PP. rewrite PH in PP. pose proof (pr_prog _ _ _ _ P) as PQ. rewrite PR in PQ.
      assert (QI : id = q_id r) by lia. subst id. rewrite <- LD in G2.
      destruct (crel_write cfg ww (y_core c) OK HW g Hn Hm Hq e_in e_u W HE i k _ _ d _ data (pr_core _ _ _ _ P) G2 FD) as (K' & E & C').
      eapply (goes_core i k t1 f1 N t1 p); try eassumption; [lia| |].
      * unfold core_step_sys. rewrite PP, PQ, HD, RES. unfold load_finish. rewrite E. reflexivity.
      * eapply (trel_core i x1 (f1 i) _ k s); try eassumption; try reflexivity.
        { rewrite <- HD. apply TR1. }
        constructor; cbn [sc_regs sc_prog sc_ph cp_core cp_prog cp_phase q_id]; [exact C'|reflexivity|reflexivity].
  - injection H as <-.
    destruct (drel_wait _ _ _ g (y_lat c) (y_size c) HS _ r rest _ _ _ t DI D IN RD S) as (d1 & ST & D1 & _).
    pose proof (reaches_dram i t f N 1 t d1 I R ST (dr_crash _ _ _ _ _ _ _ _ _ _ D1)) as R1.
    exists t. eexists. exists N. split; [exact R1|]. split; [intros k K; split; [now apply set_fun_neq|reflexivity]|].
    rewrite set_fun_eq. apply (trel_dram i x (f i) (n_router N i) d1 _ TR); try reflexivity. cbn [with_queue st_mem st_queue st_pend st_cnt st_run]. now rewrite RUN.
Qed.

(** A write and all that it releases. *)
Lemma ok_put t d x1 t1 k a rows vs :
  dinv (y_lat c) (y_size c) t d ->
  drel (st_mem x1) [MkReq (st_cnt x1) k a 0 (RWrite rows)] (st_pend x1) (st_cnt x1 + 1) true d ->
  Forall2 is vs (concat rows) -> put g x1 a vs = Some t1 ->
  exists u d', dinternal (y_lat c) t d 3 u d' /\ drel (st_mem t1) (st_queue t1) (st_pend t1) (st_cnt t1) (st_run t1) d' /\
    result_of (st_cnt x1) (d_history d') = Some [] /\
    st_cores t1 = st_cores x1 /\ st_prog t1 = st_prog x1 /\ st_ph t1 = st_ph x1 /\ st_cl t1 = st_cl x1 /\ st_run t1 = st_run x1.
Proof.
  intros DI D F H. unfold put in H. apply guard_some in H as [G H]. rewrite !andb_true_iff in G. destruct G as ((((G1 & G2) & G3) & G4) & G5).
  destruct (drel_write _ _ _ g (y_lat c) (y_size c) lat_nonneg HS _ _ _ d t _ k a rows vs DI D F G1 G3 G4) as (u & d' & ST & D' & _ & RES).
  destruct (skip_release (sready (blit (st_mem x1) a (map Some vs))) (st_pend x1)) as [kept released] eqn:SK. cbn [fst snd] in D'.
  injection H as <-. exists u, d'. split; [exact ST|]. cbn [st_mem st_queue st_pend st_cnt st_run st_cores st_prog st_ph st_cl].
  rewrite G2. repeat split; try assumption.
  all: try apply D'; try exact RES; try reflexivity.
Qed.

Lemma put_queue x a vs y : put g x a vs = Some y -> st_queue x = [] /\ st_run x = true.
Proof.
  intros H. unfold put in H. apply guard_some in H as [G _]. rewrite !andb_true_iff in G. destruct G as ((((_ & G2) & _) & _) & G5).
  destruct (st_queue x); [auto|discriminate].
Qed.

Lemma ok_store i k t f N x x' : on_node c i -> reaches t f N -> trel i x (f i) (n_router N i) -> m_store g k x = Some x' -> goes i f N x'.
Proof.
  intros I R TR H. unfold m_store in H. destruct (core_of x k) as [s|] eqn:CO; [|discriminate].
  destruct (tr_core _ _ _ _ TR k s CO) as (p & NE & P). destruct (core_of_nonneg _ _ _ CO) as [K1 K2].
  destruct (sc_ph s) eqn:PH; try discriminate. destruct (sc_prog s) as [|o rest] eqn:PR; [discriminate|]. destruct o as [|d r w v| | | | |]; try discriminate.
  pose proof (pr_phase _ _ _ _ P) as PP. rewrite PH in PP. pose proof (pr_prog _ _ _ _ P) as PQ. rewrite PR in PQ.
  destruct (reg_address g (sc_regs s) d) as [a|] eqn:RA; [|discriminate]. apply guard_some in H as [G H].
  destruct (put g x a (block (sc_regs s) r (w * v))) as [x1|] eqn:PU; [|discriminate]. injection H as <-.
  destruct (put_queue _ _ _ _ PU) as [Q RUN].
  apply andb_prop in G as [G V0]. apply andb_prop in G as [RD W0].
  destruct (crel_store cfg ww (y_core c) OK HW g Hn Hm Hq e_in e_u W HE i k _ _ d a r w v (pr_core _ _ _ _ P) RA RD ltac:(lia) ltac:(lia)) as (z & K1' & E & FZ & C1).
  assert (LZ : zlen z = w * v).
  { apply forall2_zlen in FZ. destruct (sreadable_ok cfg ww (y_core c) OK HW g Hn Hm Hq e_in e_u W HE r (w * v) RD) as (L1 & _ & L2 & L3).
    rewrite zlen_block in FZ by (rewrite ?(cr_len _ _ _ _ _ _ _ _ _ _ (pr_core _ _ _ _ P)); lia). congruence. }
  (* the first part of visit_store *)
  pose proof (reaches_core i k t t f N p (t_dram (f i)) (MkCProc K1' (cp_prog p) (PStoring a (rows_of w v z)) (cp_writes p)) I R ltac:(lia) K1 NE) as R1.
  assert (S1 : core_step_sys c t k (t_dram (f i)) p = Go (t_dram (f i), MkCProc K1' (cp_prog p) (PStoring a (rows_of w v z)) (cp_writes p))).
  { unfold core_step_sys. rewrite PP, PQ, E. reflexivity. }
  specialize (R1 S1). set (p1 := MkCProc K1' _ _ _) in *. set (f1 := set_fun f i _) in R1.
  assert (F1 : f1 i = MkTile (t_dram (f i)) (upd (t_cores (f i)) (Z.to_nat k) p1) (t_prog (f i)) (t_phase (f i)) (t_log (f i))) by apply set_fun_eq.
  assert (N1 : nth_error (t_cores (f1 i)) (Z.to_nat k) = Some p1) by (rewrite F1; cbn [t_cores]; rewrite nth_error_upd, Nat.eqb_refl, NE; reflexivity).
  (* submission *)
  pose proof (tr_dram _ _ _ _ TR) as D. rewrite RUN, Q in D.
  destruct (drel_submit _ _ _ _ _ _ _ _ _ t k a (RWrite (rows_of w v z)) D) as (d2 & SB & D2 & _). cbn [app] in D2.
  set (p2 := MkCProc K1' (cp_prog p) (PStore (st_cnt x)) (cp_writes p ++ [(a, rows_of w v z)])).
  assert (S2 : core_step_sys c t k (t_dram (f1 i)) p1 = Go (d2, p2)).
  { unfold core_step_sys. cbn [p1 cp_phase cp_core cp_prog cp_writes]. rewrite F1. cbn [t_dram]. rewrite SB. reflexivity. }
  pose proof (reaches_core i k t t f1 N p1 d2 p2 I R1 ltac:(lia) K1 N1 S2) as R2. set (f2 := set_fun f1 i _) in R2.
  assert (F2 : f2 i = MkTile d2 (upd (t_cores (f i)) (Z.to_nat k) p2) (t_prog (f i)) (t_phase (f i)) (t_log (f i))).
  { unfold f2. rewrite set_fun_eq, F1. cbn [t_cores t_prog t_phase t_log]. now rewrite upd_upd. }
  (* the write *)
  pose proof (reaches_dinv t f2 N size_nonneg R2 i) as DI. rewrite F2 in DI. cbn [t_dram] in DI.
  assert (FC : Forall2 is (block (sc_regs s) r (w * v)) (concat (rows_of w v z))).
  { destruct R as (s0 & _). rewrite (concat_rows s0); [exact FZ|lia|lia|exact LZ]. }
  destruct (ok_put t d2 x x1 k a (rows_of w v z) _ DI D2 FC PU) as (u & d3 & ST & D3 & RES & E1 & E2 & E3 & E4 & E5).
  assert (ST' : dinternal (y_lat c) t (t_dram (f2 i)) 3 u d3) by (rewrite F2; exact ST).
  pose proof (reaches_dram i t f2 N 3 u d3 I R2 ST' (dr_crash _ _ _ _ _ _ _ _ _ _ D3)) as R3. set (f3 := set_fun f2 i _) in R3.
  assert (F3 : f3 i = MkTile d3 (upd (t_cores (f i)) (Z.to_nat k) p2) (t_prog (f i)) (t_phase (f i)) (t_log (f i))).
  { unfold f3. rewrite set_fun_eq, F2. reflexivity. }
  (* the end *)
  assert (N3 : nth_error (t_cores (f3 i)) (Z.to_nat k) = Some p2) by (rewrite F3; cbn [t_cores]; rewrite nth_error_upd, Nat.eqb_refl, NE; reflexivity).
  assert (S4 : core_step_sys c u k (t_dram (f3 i)) p2 = Go (d3, MkCProc K1' rest PReady (cp_writes p ++ [(a, rows_of w v z)]))).
  { unfold core_step_sys. cbn [p2 cp_phase cp_core cp_prog cp_writes]. rewrite F3. cbn [t_dram]. rewrite RES, PQ. reflexivity. }
  pose proof (reaches_core i k u u f3 N p2 d3 _ I R3 ltac:(lia) K1 N3 S4) as R4. set (f4 := set_fun f3 i _) in R4.
  exists u, f4, N. split; [exact R4|]. split.
  - intros q Hq0. split; [|reflexivity]. unfold f4, f3, f2, f1. now rewrite !set_fun_neq.
  - unfold f4. rewrite set_fun_eq, F3. cbn [t_cores t_prog t_phase t_log]. rewrite upd_upd.
    eapply (trel_core i x (f i) (n_router N i) k s); try eassumption.
    constructor; cbn [sc_regs sc_prog sc_ph cp_core cp_prog cp_phase]; [exact C1|reflexivity|reflexivity].
Qed.

Lemma ok_send i t f N x x' : on_node c i -> reaches t f N -> trel i x (f i) (n_router N i) -> m_send g x = Some x' -> goes i f N x'.
Proof.
  intros I R TR H. unfold m_send in H. destruct (st_ph x) eqn:PH; try discriminate.
  destruct (st_prog x) as [|[a tg w v| |] rest] eqn:PR; try discriminate.
  destruct (submit_read g x (-1) a w v) as [x1|] eqn:SR; [|discriminate]. injection H as <-.
  apply guard_some in SR as [G [= <-]]. assert (RUN : st_run x = true) by (destruct (st_run x); [reflexivity|rewrite andb_false_r in G; discriminate]).
  pose proof (tr_dram _ _ _ _ TR) as D. rewrite RUN in D.
  destruct (drel_submit _ _ _ _ _ _ _ _ _ t (-1) a (RRead w v) D) as (d' & SB & D' & _).
  pose proof (tr_phase _ _ _ _ TR) as PP. rewrite PH in PP. destruct (t_phase (f i)) eqn:TP; try contradiction.
  pose proof (tr_prog _ _ _ _ TR) as PQ. rewrite PR in PQ.
  set (x1 := with_queue x (st_queue x ++ [MkReq (st_cnt x) (-1) a 0 (RRead w v)]) (st_pend x) (st_cnt x + 1)).
  exists t. eexists. exists N. split; [eapply (reaches_tile i t t f N); [exact I|exact R|lia|]|split].
  - unfold tile_step. rewrite PQ, TP, SB. reflexivity.
  - intros k K. split; [now apply set_fun_neq|reflexivity].
  - rewrite set_fun_eq, <- PR. apply (trel_phase i x1 (with_dram (f i) d') (n_router N i)); try reflexivity.
    + apply (trel_dram i x (f i)); try reflexivity; [exact TR|]. cbn [x1 with_queue st_mem st_queue st_pend st_cnt st_run]. rewrite RUN. exact D'.
    + apply TR.
Qed.

Lemma ok_send_end i t f N x x' : on_node c i -> reaches t f N -> trel i x (f i) (n_router N i) -> m_send_end x = Some x' -> goes i f N x'.
Proof.
  intros I R TR H. unfold m_send_end in H. destruct (st_ph x) as [| |rows|] eqn:PH; try discriminate. destruct rows; [|discriminate].
  destruct (st_prog x) as [|[a tg w v| |] rest] eqn:PR; try discriminate. destruct (st_cl x) eqn:CL; [discriminate|]. injection H as <-.
  pose proof (tr_phase _ _ _ _ TR) as PP. rewrite PH in PP. destruct (t_phase (f i)) as [| |rows'| | |] eqn:TP; try contradiction.
  cbn [phrel] in PP. inversion PP; subst rows'.
  pose proof (tr_prog _ _ _ _ TR) as PQ. rewrite PR in PQ. pose proof (rr_client _ _ _ (tr_router _ _ _ _ TR)) as RC. rewrite CL in RC.
  exists t. eexists. exists N. split; [eapply (reaches_tile i t t f N); [exact I|exact R|lia|]|split].
  - unfold tile_step. rewrite PQ, TP, RC. reflexivity.
  - intros k K. split; [now apply set_fun_neq|reflexivity].
  - rewrite set_fun_eq. apply (trel_phase i x (f i) (n_router N i)); try reflexivity; [exact TR|cbn; now rewrite PQ|].
    rewrite <- CL. apply TR.
Qed.

Lemma ok_receive i t f N x x' : on_node c i -> reaches t f N -> trel i x (f i) (n_router N i) -> m_receive x = Some x' -> goes i f N x'.
Proof.
  intros I R TR H. unfold m_receive in H. destruct (st_ph x) eqn:PH; try discriminate.
  destruct (st_prog x) as [|[|a src w v|] rest] eqn:PR; try discriminate. apply guard_some in H as [G [= <-]].
  pose proof (tr_phase _ _ _ _ TR) as PP. rewrite PH in PP. destruct (t_phase (f i)) eqn:TP; try contradiction.
  pose proof (tr_prog _ _ _ _ TR) as PQ. rewrite PR in PQ.
  exists t. eexists. exists N. split; [eapply (reaches_tile i t t f N); [exact I|exact R|lia|]|split].
  - unfold tile_step. rewrite PQ, TP. replace ((w <? 0) || (v <? 0)) with false by lia. reflexivity.
  - intros k K. split; [now apply set_fun_neq|reflexivity].
  - rewrite set_fun_eq. apply (trel_phase i x (f i) (n_router N i)); try reflexivity; [exact TR|exact PQ|constructor|apply TR].
Qed.

Lemma rrel_eta cl run r : rrel cl run r ->
  r = MkRouter run [] SIdle (r_buffers r) match cl with None => KIdle | Some s => KReading s end (r_stat r) (r_submitted r) (r_delivered r).
Proof. intros [A B C D E]. rewrite <- A, <- B, <- C, <- E. now destruct r. Qed.

Lemma with_net_go now a N N' t : nstep (y_net c) now a N = Some N' -> n_crash N' = None -> with_net buffer_capacity c now a N t = Go (N', t).
Proof. intros H C. unfold with_net. unfold nstep in H. now rewrite H, C. Qed.

Lemma ok_ask i t f N x x' : on_node c i -> reaches t f N -> trel i x (f i) (n_router N i) -> m_ask g i x = Some x' -> goes i f N x'.
Proof.
  intros I R TR H. unfold m_ask in H. destruct (st_ph x) as [| | |got] eqn:PH; try discriminate.
  destruct (st_prog x) as [|[|a src w v|] rest] eqn:PR; try discriminate. destruct (st_cl x) eqn:CL; [discriminate|]. apply guard_some in H as [G [= <-]].
  pose proof (tr_phase _ _ _ _ TR) as PP. rewrite PH in PP. destruct (t_phase (f i)) as [| | |got'| |] eqn:TP; try contradiction. cbn [phrel] in PP.
  pose proof (tr_prog _ _ _ _ TR) as PQ. rewrite PR in PQ. pose proof (tr_router _ _ _ _ TR) as RR. rewrite CL in RR.
  pose proof (rr_client _ _ _ RR) as RC. destruct (reaches_crash _ _ _ R) as [NC _].
  destruct (router_read (y_net c) i (proj1 (known_on i) I) t N _ _ _ _ _ _ _ src NC (rrel_eta _ _ _ RR)) as (N' & ST & NC' & FR & RI).
  { unfold buffer_key. pose proof (nodes_ok _ I). lia. }
  exists t. eexists. exists N'. split; [eapply (reaches_tile i t t f N); [exact I|exact R|lia|]|split].
  - unfold tile_step. rewrite PQ, TP, RC. replace (zlen got' <? v) with true by (rewrite <- (forall2_zlen _ _ _ PP); lia).
    apply with_net_go; eassumption.
  - intros k K. split; [now apply set_fun_neq|now apply FR].
  - rewrite set_fun_eq. apply (trel_phase i x (f i) (n_router N i)); try reflexivity; [exact TR|exact PQ|now rewrite TP|].
    rewrite RI. constructor; cbn [r_running r_queue r_sender r_buffers r_client]; try reflexivity. apply RR.
Qed.

Lemma ok_write i t f N x x' : on_node c i -> reaches t f N -> trel i x (f i) (n_router N i) -> m_write g x = Some x' -> goes i f N x'.
Proof.
  intros I R TR H. unfold m_write in H. destruct (st_ph x) as [| | |got] eqn:PH; try discriminate.
  destruct (st_prog x) as [|[|a src w v|] rest] eqn:PR; try discriminate. destruct (st_cl x) eqn:CL; [discriminate|]. apply guard_some in H as [G H].
  destruct (put g x a (concat got)) as [x1|] eqn:PU; [|discriminate]. injection H as <-. destruct (put_queue _ _ _ _ PU) as [Q RUN].
  pose proof (tr_phase _ _ _ _ TR) as PP. rewrite PH in PP. destruct (t_phase (f i)) as [| | |got'| |] eqn:TP; try contradiction. cbn [phrel] in PP.
  pose proof (tr_prog _ _ _ _ TR) as PQ. rewrite PR in PQ. pose proof (tr_router _ _ _ _ TR) as RR. rewrite CL in RR.
  pose proof (rr_client _ _ _ RR) as RC.
  pose proof (tr_dram _ _ _ _ TR) as D. rewrite RUN, Q in D.
  destruct (drel_submit _ _ _ _ _ _ _ _ _ t (-1) a (RWrite got') D) as (d2 & SB & D2 & _). cbn [app] in D2.
  set (T2 := MkTile d2 (t_cores (f i)) (t_prog (f i)) (PRecvWrite (st_cnt x)) (t_log (f i) ++ [EvRecv a src w v got'])).
  assert (S1 : tile_step buffer_capacity c t i N (f i) = Go (N, T2)).
  { unfold tile_step. rewrite PQ, TP, RC. replace (zlen got' <? v) with false by (rewrite <- (forall2_zlen _ _ _ PP); lia). rewrite SB. unfold T2. now rewrite PQ. }
  pose proof (reaches_tile i t t f N N T2 I R ltac:(lia) S1) as R2. set (f2 := set_fun f i T2) in R2.
  assert (F2 : f2 i = T2) by apply set_fun_eq.
  pose proof (reaches_dinv t f2 N size_nonneg R2 i) as DI. rewrite F2 in DI. cbn [T2 t_dram] in DI.
  destruct (ok_put t d2 x x1 (-1) a got' _ DI D2 (forall2_concat _ _ _ PP) PU) as (u & d3 & ST & D3 & RES & E1 & E2 & E3 & E4 & E5).
  assert (ST' : dinternal (y_lat c) t (t_dram (f2 i)) 3 u d3) by (rewrite F2; exact ST).
  pose proof (reaches_dram i t f2 N 3 u d3 I R2 ST' (dr_crash _ _ _ _ _ _ _ _ _ _ D3)) as R3. set (f3 := set_fun f2 i _) in R3.
  assert (F3 : f3 i = with_dram T2 d3) by (unfold f3; rewrite set_fun_eq, F2; reflexivity).
  exists u. eexists. exists N. split; [eapply (reaches_tile i u u f3 N); [exact I|exact R3|lia|]|split].
  - unfold tile_step. rewrite F3. cbn [with_dram T2 t_prog t_phase t_dram]. rewrite PQ, RES. reflexivity.
  - intros k K. split; [|reflexivity]. unfold f3, f2. now rewrite !set_fun_neq.
  - rewrite set_fun_eq. apply (trel_phase i x1 (with_dram (f i) d3) (n_router N i)); try reflexivity.
    + apply (trel_dram i x (f i)); assumption.
    + cbn. now rewrite PQ.
    + exact RR.
    + now rewrite E5.
Qed.

Lemma ok_halt i t f N x x' : on_node c i -> reaches t f N -> trel i x (f i) (n_router N i) -> m_halt x = Some x' -> goes i f N x'.
Proof.
  intros I R TR H. unfold m_halt in H. destruct (st_ph x) eqn:PH; try discriminate.
  destruct (st_prog x) as [|[| |] rest] eqn:PR; try discriminate. destruct (st_cl x) eqn:CL; [discriminate|].
  destruct (st_pend x) eqn:PE; [|discriminate]. apply guard_some in H as [G [= <-]]. apply andb_prop in G as [G RUN].
  pose proof (tr_phase _ _ _ _ TR) as PP. rewrite PH in PP. destruct (t_phase (f i)) eqn:TP; try contradiction.
  pose proof (tr_prog _ _ _ _ TR) as PQ. rewrite PR in PQ. pose proof (tr_router _ _ _ _ TR) as RR. rewrite CL, RUN in RR.
  destruct (reaches_crash _ _ _ R) as [NC _]. pose proof (proj1 (known_on i) I) as KN.
  assert (HALT : forallb halted (t_cores (f i)) = true).
  { apply forallb_forall. intros p Hp. apply In_nth_error in Hp as (k & Hk).
    assert (LK : (k < length (st_cores x))%nat) by (rewrite <- (tr_len _ _ _ _ TR); apply nth_error_Some; congruence).
    destruct (nth_error (st_cores x) k) as [s|] eqn:S; [|apply nth_error_None in S; lia].
    assert (CO : core_of x (Z.of_nat k) = Some s) by (unfold core_of, guard; replace (0 <=? Z.of_nat k) with true by lia; now rewrite Nat2Z.id).
    destruct (tr_core _ _ _ _ TR _ s CO) as (p' & NE & P). rewrite Nat2Z.id, Hk in NE. injection NE as <-.
    rewrite forallb_forall in G. specialize (G s (nth_error_In _ _ S)). unfold halted_core in G. unfold halted. rewrite (pr_phase _ _ _ _ P).
    destruct (sc_ph s); [discriminate|discriminate|reflexivity]. }
  destruct (router_halt (y_net c) i KN t N _ _ _ _ _ _ NC (rrel_eta _ _ _ RR)) as (N1 & ST1 & NC1 & FR1 & RI1).
  assert (S1 : tile_step buffer_capacity c t i N (f i) = Go (N1, set_phase (f i) PHalting)).
  { unfold tile_step. rewrite PQ, TP, HALT. apply with_net_go; assumption. }
  pose proof (reaches_tile i t t f N N1 _ I R ltac:(lia) S1) as R1. set (f1 := set_fun f i _) in R1.
  assert (F1 : f1 i = set_phase (f i) PHalting) by apply set_fun_eq.
  destruct (router_poll (y_net c) i KN t N1 _ _ _ _ _ _ NC1 RI1) as (N2 & ST2 & NC2 & FR2 & RI2).
  pose proof (reaches_net t t f1 N1 N2 (NPoll i) R1 ltac:(lia) eq_refl ST2 NC2) as R2.
  destruct (router_stopped (y_net c) i KN t N2 _ _ _ _ _ _ NC2 RI2) as (N3 & ST3 & NC3 & FR3 & RI3).
  pose proof (reaches_net t t f1 N2 N3 (NStopped i) R2 ltac:(lia) eq_refl ST3 NC3) as R3.
  pose proof (tr_dram _ _ _ _ TR) as D.
  assert (PD : d_pending (t_dram (f i)) = []).
  { pose proof (dr_pend _ _ _ _ _ _ _ _ _ _ D) as X. rewrite PE in X. now apply map_eq_nil in X. }
  exists t. eexists. exists N3. split; [eapply (reaches_tile i t t f1 N3); [exact I|exact R3|lia|]|split].
  - unfold tile_step. rewrite F1. cbn [set_phase t_prog t_phase t_dram]. rewrite PQ, RI3. cbn [r_client]. rewrite PD.
    cbn [zlen length Z.of_nat Z.eqb negb andb]. rewrite andb_false_r. reflexivity.
  - intros k K. split; [unfold f1; now rewrite !set_fun_neq|]. now rewrite FR3, FR2, FR1.
  - rewrite set_fun_eq. constructor; cbn [with_phase st_mem st_queue st_pend st_cnt st_run st_cores st_prog st_ph st_cl t_dram t_cores t_prog t_phase set_phase].
    + apply (drel_stop _ _ _ _ _ _ _ _ _ _ _ D).
    + apply TR.
    + intros k s Hk. apply (tr_core _ _ _ _ TR). exact Hk.
    + reflexivity.
    + exact Logic.I.
    + rewrite RI3. constructor; cbn [r_running r_queue r_sender r_buffers r_client]; try reflexivity. apply RR.
Qed.

Lemma latency_nonneg s t : 0 <= fst (get_latency (y_net c) s t).
Proof. destruct LAT as (_ & A & B & _). unfold get_latency. destruct (_ || _); cbn [fst]; lia. Qed.

(** One packet. *)
Lemma ok_row i k t f N x y x' y' : on_node c i -> on_node c k -> reaches t f N ->
  trel i x (f i) (n_router N i) -> trel k y (f k) (n_router N k) -> m_row g i k x y = Some (x', y') ->
  exists u f' N', reaches u f' N' /\ (forall q, q <> i -> q <> k -> f' q = f q /\ n_router N' q = n_router N q) /\
    trel i x' (f' i) (n_router N' i) /\ trel k y' (f' k) (n_router N' k).
Proof.
  intros I K R TX TY H. unfold m_row in H.
  destruct (st_ph x) as [| |rows|] eqn:PHX; try discriminate. destruct rows as [|row rows]; [discriminate|].
  destruct (st_prog x) as [|[a tg w v| |] rest] eqn:PRX; try discriminate. destruct (st_cl x) eqn:CLX; [discriminate|].
  destruct (st_ph y) as [| | |got] eqn:PHY; try discriminate. destruct (st_prog y) as [|[|a2 src w2 v2|] rest2] eqn:PRY; try discriminate.
  destruct (st_cl y) as [from|] eqn:CLY; [|discriminate]. apply guard_some in H as [G [= <- <-]].
  rewrite !andb_true_iff in G. destruct G as (((((((G1 & G2) & G3) & G4) & G5) & G6) & G7) & G8).
  assert (tg = k) by lia. assert (src = i) by lia. assert (from = i) by lia. subst tg src from.
  assert (IK : i <> k) by (destruct (i =? k) eqn:E; [discriminate|lia]).
  pose proof (tr_phase _ _ _ _ TX) as PPX. rewrite PHX in PPX. destruct (t_phase (f i)) as [| |rowsX| | |] eqn:TPX; try contradiction. cbn [phrel] in PPX.
  inversion PPX as [|? row' ? rows' FR0 FRS]; subst rowsX. clear PPX.
  pose proof (tr_phase _ _ _ _ TY) as PPY. rewrite PHY in PPY. destruct (t_phase (f k)) as [| | |got'| |] eqn:TPY; try contradiction. cbn [phrel] in PPY.
  pose proof (tr_prog _ _ _ _ TX) as PQX. rewrite PRX in PQX. pose proof (tr_prog _ _ _ _ TY) as PQY. rewrite PRY in PQY.
  pose proof (tr_router _ _ _ _ TX) as RRX. rewrite CLX, G5 in RRX. pose proof (tr_router _ _ _ _ TY) as RRY. rewrite CLY in RRY.
  destruct (reaches_crash _ _ _ R) as [NC _]. pose proof (proj1 (known_on i) I) as KI. pose proof (proj1 (known_on k) K) as KK.
  destruct LAT as (_ & LA & LB & LD). pose proof (latency_nonneg i k) as LN.
  pose proof (rrel_eta _ _ _ RRX) as EX. pose proof (rrel_eta _ _ _ RRY) as EY.
  assert (LR : zlen row' = w2) by (rewrite <- (forall2_zlen _ _ _ FR0); lia).
  (* the sender gives the packet to its router *)
  destruct (router_submit (y_net c) i KI t N _ _ _ _ k row' NC EX LD) as (N1 & ST1 & NC1 & FR1 & RI1).
  set (T1 := set_phase (f i) (PSending rows')).
  assert (S1 : tile_step buffer_capacity c t i N (f i) = Go (N1, T1)).
  { unfold tile_step. rewrite PQX, TPX, (rr_client _ _ _ RRX). apply with_net_go; assumption. }
  pose proof (reaches_tile i t t f N N1 T1 I R ltac:(lia) S1) as R1. set (f1 := set_fun f i T1) in R1.
  set (t2 := t + w_data_lat (y_net c)).
  destruct (router_added (y_net c) i KI t2 N1 _ _ _ _ _ _ _ _ NC1 RI1 ltac:(unfold t2; lia)) as (N2 & x2 & ST2 & NC2 & FR2 & RI2).
  pose proof (reaches_net t t2 f1 N1 N2 (NAdded i) R1 ltac:(unfold t2; lia) eq_refl ST2 NC2) as R2.
  destruct (router_take (y_net c) i KI t2 N2 _ _ _ _ _ _ _ NC2 RI2 KK LN) as (N3 & z & ST3 & NC3 & FR3 & RI3).
  pose proof (reaches_net t2 t2 f1 N2 N3 (NTake i) R2 ltac:(lia) eq_refl ST3 NC3) as R3.
  set (t4 := t2 + fst (get_latency (y_net c) i k)).
  destruct (router_travel (y_net c) i KI t4 N3 _ _ _ _ _ _ _ _ _ _ NC3 RI3) as (N4 & ST4 & NC4 & FR4 & RI4).
  { cbn [pk_src pk_dst]. unfold t4. lia. }
  { cbn [pk_src pk_dst]. unfold buffer_key. pose proof (nodes_ok _ I). lia. }
  pose proof (reaches_net t2 t4 f1 N3 N4 (NTravel i) R3 ltac:(unfold t4; lia) eq_refl ST4 NC4) as R4.
  assert (K4 : n_router N4 k = n_router N k) by (now rewrite FR4, FR3, FR2, FR1 by auto).
  rewrite EY in K4.
  destruct (router_store (y_net c) i KI t4 N4 _ _ _ _ _ _ _ _ _ _ NC4 RI4 ltac:(cbn; auto) K4) as (N5 & ST5 & NC5 & FR5 & RI5 & RK5).
  { cbn [r_buffers]. apply RRY. }
  pose proof (reaches_net t4 t4 f1 N4 N5 (NStore i) R4 ltac:(lia) eq_refl ST5 NC5) as R5.
  destruct (router_count (y_net c) i KI t4 N5 _ _ _ _ _ _ _ _ _ _ NC5 RI5 ltac:(cbn; auto) RK5) as (N6 & x6 & ST6 & NC6 & FR6 & RI6 & RK6).
  pose proof (reaches_net t4 t4 f1 N5 N6 (NCount i) R5 ltac:(lia) eq_refl ST6 NC6) as R6.
  destruct (router_done (y_net c) i KI t4 N6 _ _ _ _ _ _ _ _ _ NC6 RI6) as (N7 & x7 & ST7 & NC7 & FR7 & RI7).
  pose proof (reaches_net t4 t4 f1 N6 N7 (NDone i) R6 ltac:(lia) eq_refl ST7 NC7) as R7.
  assert (K7 : n_router N7 k = MkRouter (st_run y) [] SIdle (set_fun (r_buffers (n_router N k)) i [row']) (KReading i) x6
                 (r_submitted (n_router N k)) (r_delivered (n_router N k))).
  { rewrite FR7 by auto. cbn [pk_dst] in RK6. rewrite RK6. reflexivity. }
  destruct (router_pop (y_net c) k KK t4 N7 _ _ _ _ _ _ _ _ row' [] NC7 K7 (set_fun_eq _ _ _)) as (N8 & ST8 & NC8 & FR8 & RI8).
  pose proof (reaches_net t4 t4 f1 N7 N8 (NPop k) R7 ltac:(lia) eq_refl ST8 NC8) as R8.
  destruct (router_got (y_net c) k KK t4 N8 _ _ _ _ _ _ _ _ _ NC8 RI8) as (N9 & x9 & del9 & ST9 & NC9 & FR9 & RI9).
  assert (F1K : f1 k = f k) by (apply set_fun_neq; auto).
  set (T9 := set_phase (f k) (PRecv (got' ++ [row']))).
  assert (S9 : tile_step buffer_capacity c t4 k N8 (f1 k) = Go (N9, T9)).
  { unfold tile_step. rewrite F1K, PQY, TPY, RI8. cbn [r_client]. replace (zlen row' =? w2) with true by lia. apply with_net_go; assumption. }
  pose proof (reaches_tile k t4 t4 f1 N8 N9 T9 K R8 ltac:(lia) S9) as R9. set (f9 := set_fun f1 k T9) in R9.
  exists t4, f9, N9. split; [exact R9|]. split; [|split].
  - intros q Q1 Q2. split; [unfold f9, f1; now rewrite !set_fun_neq|].
    rewrite FR9, FR8, FR7, FR6, FR5, FR4, FR3, FR2, FR1 by (cbn [pk_dst]; auto). reflexivity.
  - assert (N9I : n_router N9 i = n_router N7 i) by (rewrite FR9, FR8 by auto; reflexivity). rewrite N9I, RI7.
    unfold f9, f1. rewrite set_fun_neq, set_fun_eq by auto. rewrite <- PRX.
    apply (trel_phase i x (f i) (n_router N i)); try reflexivity; [exact TX|cbn; now rewrite PQX|exact FRS| |auto].
    constructor; cbn [r_running r_queue r_sender r_buffers r_client]; try reflexivity. apply RRX.
  - rewrite RI9. unfold f9. rewrite set_fun_eq. rewrite <- PRY.
    apply (trel_phase k y (f k) (n_router N k)); try reflexivity; [exact TY|cbn; now rewrite PQY| |].
    + cbn [T9 set_phase t_phase phrel]. apply Forall2_app; [exact PPY|]. constructor; [exact FR0|constructor].
    + constructor; cbn [r_running r_queue r_sender r_buffers r_client]; try reflexivity.
      intros q. unfold set_fun. destruct (q =? i); [reflexivity|apply RRY].
Qed.

(** ** Sequences *)
Lemma tile_no_upd s i x x0 k : tile_no g s i = Some x0 -> tile_no g (upd s (Z.to_nat i) x) k = if k =? i then Some x else tile_no g s k.
Proof.
  intros H. apply guard_some in H as [H1 H2]. unfold tile_no, guard. destruct ((0 <=? k) && (k <? g_t g)) eqn:E.
  - rewrite nth_error_upd. destruct (k =? i) eqn:E'.
    + assert (k = i) by lia. subst k. rewrite Nat.eqb_refl, H2. reflexivity.
    + replace (Z.to_nat i =? Z.to_nat k)%nat with false by lia. reflexivity.
  - now replace (k =? i) with false by lia.
Qed.
Lemma tile_no_on s i x : tile_no g s i = Some x -> on_node c i.
Proof. intros H. apply guard_some in H as [H _]. unfold on_node. rewrite <- Ht. lia. Qed.

Lemma srel_on t s i F s' :
  (forall f N x x', on_node c i -> reaches t f N -> trel i x (f i) (n_router N i) -> F x = Some x' -> goes i f N x') ->
  srel t s -> on g s i F = Some s' -> exists t', srel t' s'.
Proof.
  intros HF (f & N & R & L & T) H. unfold on in H. destruct (tile_no g s i) as [x|] eqn:E; [|discriminate].
  destruct (F x) as [x'|] eqn:EF; [|discriminate]. injection H as <-.
  destruct (HF f N x x' (tile_no_on _ _ _ E) R (T i x E) EF) as (u & f' & N' & R' & O & T').
  exists u, f', N'. split; [exact R'|]. split; [unfold zlen; rewrite length_upd; exact L|].
  intros k y Hk. rewrite (tile_no_upd s i x' x k E) in Hk. destruct (k =? i) eqn:EK.
  - assert (k = i) by lia. subst k. injection Hk as <-. exact T'.
  - destruct (O k ltac:(lia)) as [-> ->]. now apply T.
Qed.

Lemma ok_step a t s s' : srel t s -> mstep g a s = Some s' -> exists t', srel t' s'.
Proof.
  intros R H. destruct a; cbn [mstep] in H.
  - eapply srel_on; [|exact R|exact H]. intros; eapply ok_local; eassumption.
  - eapply srel_on; [|exact R|exact H]. intros; eapply ok_issue; eassumption.
  - eapply srel_on; [|exact R|exact H]. intros; eapply ok_store; eassumption.
  - eapply srel_on; [|exact R|exact H]. intros; eapply ok_serve; eassumption.
  - eapply srel_on; [|exact R|exact H]. intros; eapply ok_send; eassumption.
  - eapply srel_on; [|exact R|exact H]. intros; eapply ok_send_end; eassumption.
  - eapply srel_on; [|exact R|exact H]. intros; eapply ok_receive; eassumption.
  - eapply srel_on; [|exact R|exact H]. intros; eapply ok_ask; eassumption.
  - eapply srel_on; [|exact R|exact H]. intros; eapply ok_write; eassumption.
  - eapply srel_on; [|exact R|exact H]. intros; eapply ok_halt; eassumption.
  - destruct (tile_no g s i) as [x|] eqn:EI; [|discriminate]. rename j0 into k. destruct (tile_no g s k) as [y|] eqn:EK; [|discriminate].
    destruct (m_row g i k x y) as [[x' y']|] eqn:ER; [|discriminate]. injection H as <-. destruct R as (f & N & R & L & T).
    destruct (ok_row i k t f N x y x' y' (tile_no_on _ _ _ EI) (tile_no_on _ _ _ EK) R (T i x EI) (T k y EK) ER) as (u & f' & N' & R' & O & T1 & T2).
    exists u, f', N'. split; [exact R'|]. split; [unfold zlen; rewrite !length_upd; exact L|]. cbn [fst snd].
    assert (IK : i <> k).
    { clear - ER. unfold m_row in ER.
      destruct (st_ph x) as [| |[|row rows]|]; try discriminate. destruct (st_prog x) as [|[? ? ? ?| |] ?]; try discriminate. destruct (st_cl x); [discriminate|].
      destruct (st_ph y) as [| | |got]; try discriminate. destruct (st_prog y) as [|[|? ? ? ?|] ?]; try discriminate. destruct (st_cl y); [|discriminate].
      apply guard_some in ER as [G _]. intros <-. rewrite Z.eqb_refl in G. cbn [negb] in G. rewrite ?andb_false_r in G. cbn [andb] in G. rewrite ?andb_false_r in G. discriminate. }
    assert (EK' : tile_no g (upd s (Z.to_nat i) x') k = Some y) by (rewrite (tile_no_upd s i x' x k EI); replace (k =? i) with false by lia; exact EK).
    intros q w Hw. rewrite (tile_no_upd _ k y' y q EK') in Hw. destruct (q =? k) eqn:E1.
    + assert (q = k) by lia. subst q. injection Hw as <-. exact T2.
    + rewrite (tile_no_upd s i x' x q EI) in Hw. destruct (q =? i) eqn:E2.
      * assert (q = i) by lia. subst q. injection Hw as <-. exact T1.
      * destruct (O q ltac:(lia) ltac:(lia)) as [-> ->]. now apply T.
Qed.

Lemma ok_run l : forall t s s', srel t s -> mrun g l s = Some s' -> exists t', srel t' s'.
Proof.
  induction l as [|a l IH]; intros t s s' R H; cbn [mrun] in H.
  - injection H as <-. eauto.
  - destruct (mstep g a s) as [s1|] eqn:E; [|discriminate]. destruct (ok_step a t s s1 R E) as (t1 & R1). eauto.
Qed.
Lemma ok_flush i t s s' : srel t s -> flush g i s = Some s' -> exists t', srel t' s'.
Proof. intros R H. unfold flush in H. destruct (tile_no g s i); [|discriminate]. eapply ok_run; eassumption. Qed.

Lemma ok_big b t s s' : srel t s -> bstep g b s = Some s' -> exists t', srel t' s'.
Proof.
  intros R H. destruct b as [i k|i|i|i|i]; cbn [bstep] in H.
  - destruct (tile_no g s i) as [x|]; [|discriminate]. destruct (core_of x k) as [cs|]; [|discriminate].
    assert (LOC : mstep g (MLocal i k) s = Some s' -> exists t', srel t' s') by (intros E; eapply ok_step; eassumption).
    destruct (sc_prog cs) as [|o rest]; [now apply LOC|]. destruct o; try (now apply LOC).
    + destruct (mstep g (MIssue i k) s) as [s1|] eqn:E1; [|discriminate]. destruct (ok_step _ t s s1 R E1) as (t1 & R1). eapply ok_step; eassumption.
    + destruct (mstep g (MStore i k) s) as [s1|] eqn:E1; [|discriminate]. destruct (ok_step _ t s s1 R E1) as (t1 & R1). eapply ok_flush; eassumption.
  - destruct (tile_no g s i) as [x|]; [|discriminate].
    assert (X : exists s1 t1, srel t1 s1 /\ (match tile_no g s1 i with
      | Some t1 => match st_ph t1, st_prog t1 with
         | SSending rows, TSend _ j _ _ :: _ =>
          match mstep g (MReceive j) s1 with Some s2 =>
          match mrun g (rows_on rows i j) s2 with Some s3 =>
          match mstep g (MSendEnd i) s3 with Some s4 =>
          match mstep g (MWrite j) s4 with Some s5 => flush g j s5 | None => None end | None => None end | None => None end | None => None end
         | _, _ => None end | None => None end) = Some s').
    { destruct (st_ph x); try (exists s, t; split; [exact R|exact H]).
      destruct (mstep g (MSend i) s) as [s1|] eqn:E1; [|discriminate]. destruct (ok_step _ t s s1 R E1) as (t1 & R1).
      destruct (mstep g (MServe i) s1) as [s2|] eqn:E2; [|discriminate]. destruct (ok_step _ t1 s1 s2 R1 E2) as (t2 & R2).
      exists s2, t2. split; [exact R2|exact H]. }
    clear H. destruct X as (s1 & t1 & R1 & H). destruct (tile_no g s1 i) as [x1|]; [|discriminate].
    destruct (st_ph x1) as [| |rows|]; try discriminate. destruct (st_prog x1) as [|[a k w v| |] rest]; try discriminate.
    destruct (mstep g (MReceive k) s1) as [s2|] eqn:E2; [|discriminate]. destruct (ok_step _ t1 s1 s2 R1 E2) as (t2 & R2).
    destruct (mrun g (rows_on rows i k) s2) as [s3|] eqn:E3; [|discriminate]. destruct (ok_run _ t2 s2 s3 R2 E3) as (t3 & R3).
    destruct (mstep g (MSendEnd i) s3) as [s4|] eqn:E4; [|discriminate]. destruct (ok_step _ t3 s3 s4 R3 E4) as (t4 & R4).
    destruct (mstep g (MWrite k) s4) as [s5|] eqn:E5; [|discriminate]. destruct (ok_step _ t4 s4 s5 R4 E5) as (t5 & R5).
    eapply ok_flush; eassumption.
  - destruct (mstep g (MSend i) s) as [s1|] eqn:E1; [|discriminate]. destruct (ok_step _ t s s1 R E1) as (t1 & R1). eapply ok_step; eassumption.
  - eapply ok_step; eassumption.
  - destruct (mstep g (MReceive i) s) as [s1|] eqn:E1; [|discriminate]. destruct (ok_step _ t s s1 R E1) as (t1 & R1). eapply ok_step; eassumption.
Qed.

Lemma ok_brun l : forall t s s', srel t s -> brun g l s = Some s' -> exists t', srel t' s'.
Proof.
  induction l as [|[b n] l IH]; intros t s s' R H; cbn [brun] in H.
  - injection H as <-. eauto.
  - assert (X : forall m s1, Nat.iter m (fun x => match x with Some s => bstep g b s | None => None end) (Some s) = Some s1 -> exists t1, srel t1 s1).
    { induction m as [|m IHm]; intros s1 H1; cbn [Nat.iter nat_rect] in H1; [injection H1 as <-; eauto|].
      destruct (Nat.iter m (fun x => match x with Some s => bstep g b s | None => None end) (Some s)) as [s0|] eqn:E0.
      - destruct (IHm s0 eq_refl) as (t0 & R0). unfold Nat.iter in E0. rewrite E0 in H1. eapply ok_big; eassumption.
      - unfold Nat.iter in E0. rewrite E0 in H1. discriminate. }
    match type of H with match ?e with _ => _ end = _ => destruct e as [s1|] eqn:E end; [|discriminate].
    destruct (X _ _ E) as (t1 & R1). eauto.
Qed.
End Node.
