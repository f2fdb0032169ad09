(** Basic invariants of a node: its routers and memory controllers are those of RouterModel and
    DramModel, and who waits for what. *)
From Verif Require Import PyBase PyLemmas MemoryModel CoreModel DramModel DramSpec DramProofs RouterModel RouterSpec RouterProofs
  SystemModel SystemSpec.
From Coq Require Import ZifyBool ZifyNat.

Lemma set_fun_eq {A} (f : Z -> A) i v : set_fun f i v i = v.
Proof. unfold set_fun. rewrite Z.eqb_refl. reflexivity. Qed.
Lemma set_fun_neq {A} (f : Z -> A) i v j : j <> i -> set_fun f i v j = f j.
Proof. intros N. unfold set_fun. apply Z.eqb_neq in N. rewrite N. reflexivity. Qed.

(** ** What a router step changes *)
Lemma net_log c t a s s' : nstep c t a s = Some s' -> forall j,
  r_submitted (n_router s' j) = r_submitted (n_router s j) ++
    (match a with NSubmit i tg d => if j =? i then [MkPacket i tg d] else [] | _ => [] end) /\
  r_delivered (n_router s' j) = r_delivered (n_router s j) ++
    (match a with NGot i => if j =? i then in_hand (n_router s i) else [] | _ => [] end).
Proof.
  intros H j. unfold in_hand. step_cases H; look.
  all: repeat match goal with |- context [?x =? ?y] => destruct (Z.eqb_spec x y); subst; look end; rewrite ?app_nil_r; try (split; reflexivity).
  all: repeat match goal with E : r_client _ = _ |- _ => rewrite E in * end; try (split; reflexivity).
  all: congruence.
Qed.

Lemma net_client c t a s s' : nstep c t a s = Some s' -> forall j, j <> tile_of a ->
  r_client (n_router s' j) = r_client (n_router s j) /\ r_running (n_router s' j) = r_running (n_router s j).
Proof.
  intros H j. step_cases H; cbn [tile_of]; look; intros N.
  all: repeat match goal with |- context [?x =? ?y] => destruct (Z.eqb_spec x y); subst; look end; try (split; reflexivity); congruence.
Qed.

Lemma net_own_client c t a s s' : nstep c t a s = Some s' -> net_own a = true ->
  let r := n_router s (tile_of a) in let r' := n_router s' (tile_of a) in
  match r_client r with
  | KAdding _ => r_client r' = KIdle \/ r_client r' = r_client r
  | KReading src => r_client r' = r_client r \/ exists d, r_client r' = KGot src d
  | KPolling _ => (exists n, r_client r' = KPolling n) \/ r_client r' = KDraining
  | KDraining => r_client r' = KDraining \/ r_client r' = KIdle /\ r_running r' = false
  | k => r_client r' = k
  end /\ (r_running r' = r_running r \/ r_client r = KDraining /\ r_running r' = false).
Proof.
  intros H O. step_cases H; try discriminate O; cbn [tile_of]; look; rewrite ?Z.eqb_refl.
  all: repeat match goal with |- context [?x =? ?y] => destruct (Z.eqb_spec x y); subst; look end.
  all: try match goal with E : r_client (n_router _ _) = _ |- _ => rewrite E end; cbn [r_client r_running]; try congruence; eauto 6.
  all: try (destruct (r_client (n_router _ _)) eqn:?; cbn [r_client r_running]; eauto 6).

Qed.

(** ** Projections *)
Definition crash_free (s : sys) : Prop := n_crash (s_net s) = None /\ forall i, d_crash (t_dram (s_tile s i)) = None.

Lemma submit_step lat now k a kd d r d' : d_crash d = None -> dc_submit now k a kd d = (Ok r, d') ->
  dstep lat now (ASubmit k a kd) d = Some d'.
Proof. intros C H. unfold dstep. rewrite C, H. reflexivity. Qed.

Lemma start_dram_reach c t act i : exists t0, t0 <= t /\ dreach (y_lat c) (y_size c) t0 (start_dram c t act i).
Proof.
  exists t. split; [lia|]. unfold start_dram. destruct (i =? 0); [|apply reach_init].
  destruct (dc_preload act (dram_init (y_size c))) as [d|] eqn:E; [|apply reach_init].
  eapply (reach_step _ _ t t (APreload act)); [apply reach_init|lia|].
  unfold dc_preload in E. cbn in E. unfold dstep. cbn. unfold dc_preload. cbn.
  destruct (y_size c <? zlen act); [discriminate|]. injection E as <-. reflexivity.
Qed.

(** Dissection of a step that did not fail. *)
Inductive sys_go (c : sys_cfg) (now : Z) (s s' : sys) : Prop :=
| go_dram i a d : on_node c i -> dram_own a = true -> dstep (y_lat c) now a (t_dram (s_tile s i)) = Some d ->
    d_crash d = s_crash s' -> s_net s' = s_net s ->
    s_tile s' = set_fun (s_tile s) i (MkTile d (t_cores (s_tile s i)) (t_prog (s_tile s i)) (t_phase (s_tile s i)) (t_log (s_tile s i))) ->
    sys_go c now s s'
| go_net a n : net_own a = true -> nstep (y_net c) now a (s_net s) = Some n -> n_crash n = s_crash s' ->
    s_net s' = n -> s_tile s' = s_tile s -> sys_go c now s s'
| go_core i k p d p' : on_node c i -> 0 <= k -> nth_error (t_cores (s_tile s i)) (Z.to_nat k) = Some p ->
    core_step_sys c now k (t_dram (s_tile s i)) p = Go (d, p') -> s_crash s' = None -> s_net s' = s_net s ->
    s_tile s' = set_fun (s_tile s) i (MkTile d (upd (t_cores (s_tile s i)) (Z.to_nat k) p') (t_prog (s_tile s i)) (t_phase (s_tile s i)) (t_log (s_tile s i))) ->
    sys_go c now s s'
| go_tile i n t : on_node c i -> tile_step buffer_capacity c now i (s_net s) (s_tile s i) = Go (n, t) -> s_crash s' = None ->
    s_net s' = n -> s_tile s' = set_fun (s_tile s) i t -> sys_go c now s s'
| go_core_crash i k p e : on_node c i -> 0 <= k -> nth_error (t_cores (s_tile s i)) (Z.to_nat k) = Some p ->
    core_step_sys c now k (t_dram (s_tile s i)) p = Crash e -> s' = sys_crash s e -> sys_go c now s s'
| go_tile_crash i e : on_node c i -> tile_step buffer_capacity c now i (s_net s) (s_tile s i) = Crash e ->
    s' = sys_crash s e -> sys_go c now s s'.

Lemma sstep_go c now a s s' : sstep c now a s = Some s' -> s_crash s = None /\ sys_go c now s s'.
Proof.
  unfold sstep, sstep_cap. destruct (s_crash s) eqn:C; [discriminate|]. intros H. split; [reflexivity|].
  assert (K : forall i, known_router (y_net c) i = true -> on_node c i) by (unfold known_router, on_node; lia).
  destruct a as [i a|a|i k|i].
  - destruct (negb (dram_own a)) eqn:O; [discriminate|]. destruct (known_router (y_net c) i) eqn:KR; [|discriminate]. cbn [negb orb] in H.
    destruct (dstep _ _ _ _) as [d|] eqn:E; [|discriminate]. injection H as <-.
    eapply go_dram; eauto. destruct (dram_own a); [reflexivity|discriminate].
  - destruct (net_own a) eqn:O; [|discriminate]. cbn [negb] in H.
    destruct (nstep_cap _ _ _ _ _) as [n|] eqn:E; [|discriminate]. injection H as <-. eapply go_net; eauto.
  - destruct (known_router (y_net c) i) eqn:KR; [|discriminate]. destruct (k <? 0) eqn:KZ; [discriminate|]. cbn [negb orb] in H.
    destruct (nth_error _ _) as [p|] eqn:E; [|discriminate].
    destruct (core_step_sys _ _ _ _ _) as [|e|(d & p')] eqn:E2; [discriminate| |]; injection H as <-.
    + eapply go_core_crash; eauto. lia.
    + eapply go_core; eauto. lia.
  - destruct (known_router (y_net c) i) eqn:KR; [|discriminate]. cbn [negb] in H.
    destruct (tile_step _ _ _ _ _ _) as [|e|(n & t)] eqn:E; [discriminate| |]; injection H as <-.
    + eapply go_tile_crash; eauto.
    + eapply go_tile; eauto.
Qed.

(** The memory controller and the routers after a core's or a tile's step. *)
Lemma core_step_dram c now k d p d' p' : core_step_sys c now k d p = Go (d', p') ->
  d' = d \/ exists a kd r, dc_submit now k a kd d = (Ok r, d').
Proof.
  unfold core_step_sys. intros H.
  destruct (cp_phase p).
  - destruct (cp_prog p) as [|o rest]; [discriminate|].
    destruct o; try (destruct (exec_local _ _ _) as ([u|e] & k1); [injection H as <- <-; auto|discriminate]).
    + destruct (load_address _ _ _) as ([a|e] & k1); [|discriminate].
      destruct (dc_submit _ _ _ _ _) as ([r|e] & d1) eqn:E; [|discriminate]. injection H as <- <-. right. eauto.
    + destruct (store_request _ _ _ _ _ _) as ([(a & v)|e] & k1); [|discriminate]. injection H as <- <-. auto.
    + injection H as <- <-. auto.
  - destruct (result_of _ _); [|discriminate]. destruct (cp_prog p) as [|o rest]; [discriminate|].
    destruct o; try discriminate. destruct (load_finish _ _ _ _) as ([u|e] & k1); [|discriminate]. injection H as <- <-. auto.
  - destruct (dc_submit _ _ _ _ _) as ([r|e] & d1) eqn:E; [|discriminate]. injection H as <- <-. right. eauto.
  - destruct (result_of _ _); [|discriminate]. destruct (cp_prog p); [discriminate|]. injection H as <- <-. auto.
  - discriminate.
Qed.

(** The cases of a tile's step. *)
Inductive tile_go (c : sys_cfg) (now i : Z) (n : net) (t : tile) : net -> tile -> Prop :=
| tg_send_read addr tg w v rest r d : t_prog t = TSend addr tg w v :: rest -> t_phase t = PNext ->
    dc_submit now (-1) addr (RRead w v) (t_dram t) = (Ok r, d) ->
    tile_go c now i n t n (MkTile d (t_cores t) (t_prog t) (PSendRead (q_id r)) (t_log t))
| tg_send_rows addr tg w v rest id data : t_prog t = TSend addr tg w v :: rest -> t_phase t = PSendRead id ->
    result_of id (d_history (t_dram t)) = Some data -> 0 <= w -> 0 <= v ->
    tile_go c now i n t n (MkTile (t_dram t) (t_cores t) (t_prog t) (PSending (rows_of w v data)) (t_log t ++ [EvSend addr tg w v data]))
| tg_send_one addr tg w v rest row rows n' : t_prog t = TSend addr tg w v :: rest -> t_phase t = PSending (row :: rows) ->
    r_client (n_router n i) = KIdle -> nstep (y_net c) now (NSubmit i tg row) n = Some n' -> n_crash n' = None ->
    tile_go c now i n t n' (set_phase t (PSending rows))
| tg_send_end addr tg w v rest : t_prog t = TSend addr tg w v :: rest -> t_phase t = PSending [] ->
    r_client (n_router n i) = KIdle -> tile_go c now i n t n (next_op t [])
| tg_recv addr src w v rest : t_prog t = TRecv addr src w v :: rest -> t_phase t = PNext -> 0 <= w -> 0 <= v ->
    tile_go c now i n t n (set_phase t (PRecv []))
| tg_recv_ask addr src w v rest got n' : t_prog t = TRecv addr src w v :: rest -> t_phase t = PRecv got ->
    r_client (n_router n i) = KIdle -> zlen got < v -> nstep (y_net c) now (NRead i src) n = Some n' -> n_crash n' = None ->
    tile_go c now i n t n' t
| tg_recv_write addr src w v rest got r d : t_prog t = TRecv addr src w v :: rest -> t_phase t = PRecv got ->
    r_client (n_router n i) = KIdle -> v <= zlen got -> dc_submit now (-1) addr (RWrite got) (t_dram t) = (Ok r, d) ->
    tile_go c now i n t n (MkTile d (t_cores t) (t_prog t) (PRecvWrite (q_id r)) (t_log t ++ [EvRecv addr src w v got]))
| tg_recv_got addr src w v rest got src' data n' : t_prog t = TRecv addr src w v :: rest -> t_phase t = PRecv got ->
    r_client (n_router n i) = KGot src' data -> zlen data = w -> nstep (y_net c) now (NGot i) n = Some n' -> n_crash n' = None ->
    tile_go c now i n t n' (set_phase t (PRecv (got ++ [data])))
| tg_recv_bad addr src w v rest got src' data n' : t_prog t = TRecv addr src w v :: rest -> t_phase t = PRecv got ->
    r_client (n_router n i) = KGot src' data -> zlen data <> w -> nstep (y_net c) now (NGot i) n = Some n' -> n_crash n' = None ->
    tile_go c now i n t n' (next_op t [EvMismatch addr src w v (got ++ [data])])
| tg_recv_end addr src w v rest id x : t_prog t = TRecv addr src w v :: rest -> t_phase t = PRecvWrite id ->
    result_of id (d_history (t_dram t)) = Some x -> tile_go c now i n t n (next_op t [])
| tg_halt rest n' : t_prog t = THalt :: rest -> t_phase t = PNext -> forallb halted (t_cores t) = true ->
    nstep (y_net c) now (NHalt i) n = Some n' -> n_crash n' = None -> tile_go c now i n t n' (set_phase t PHalting)
| tg_halt_end rest : t_prog t = THalt :: rest -> t_phase t = PHalting -> r_client (n_router n i) = KIdle ->
    (d_running (t_dram t) = true -> d_pending (t_dram t) = []) ->
    tile_go c now i n t n (MkTile (dc_stop now (t_dram t)) (t_cores t) rest PNext (t_log t ++ [EvHalt])).

Lemma with_net_go c now a n t n' t' : with_net buffer_capacity c now a n t = Go (n', t') ->
  t' = t /\ nstep (y_net c) now a n = Some n' /\ n_crash n' = None.
Proof.
  unfold with_net. change (nstep_cap buffer_capacity) with nstep. destruct (nstep _ _ _ _) as [n1|] eqn:E; [|discriminate].
  destruct (n_crash n1) eqn:C; [discriminate|]. intros [= <- <-]. auto.
Qed.

Lemma tile_step_go c now i n t n' t' : tile_step buffer_capacity c now i n t = Go (n', t') -> tile_go c now i n t n' t'.
Proof.
  unfold tile_step. destruct (t_prog t) as [|op rest] eqn:P; [discriminate|]. intros H.
  destruct (t_phase t) as [|id|rows|got|id|] eqn:PH, op as [addr tg w v|addr src w v|]; try discriminate.
  - destruct (dc_submit _ _ _ _ _) as ([r|e] & d) eqn:E; [|discriminate]. injection H as <- <-. rewrite <- P. eapply tg_send_read; eauto.
  - destruct (_ || _) eqn:E; [discriminate|]. injection H as <- <-. eapply tg_recv; eauto; lia.
  - destruct (forallb _ _) eqn:E; [|discriminate]. apply with_net_go in H as (-> & H & C). eapply tg_halt; eauto.
  - destruct (result_of _ _) as [data|] eqn:E; [|discriminate]. destruct (_ || _) eqn:E2; [discriminate|]. injection H as <- <-.
    rewrite <- P. eapply tg_send_rows; eauto; lia.
  - destruct (r_client _) eqn:K; try discriminate. destruct rows as [|row rows].
    + injection H as <- <-. eapply tg_send_end; eauto.
    + apply with_net_go in H as (-> & H & C). eapply tg_send_one; eauto.
  - destruct (r_client _) eqn:K; try discriminate.
    + destruct (_ <? _) eqn:L.
      * apply with_net_go in H as (-> & H & C). eapply tg_recv_ask; eauto; lia.
      * destruct (dc_submit _ _ _ _ _) as ([r|e] & d) eqn:E; [|discriminate]. injection H as <- <-. rewrite <- P. eapply tg_recv_write; eauto; lia.
    + destruct (_ =? _) eqn:L; apply with_net_go in H as (-> & H & C).
      * eapply tg_recv_got; eauto; lia.
      * eapply tg_recv_bad; eauto; lia.
  - destruct (result_of _ _) as [data|] eqn:E; [|discriminate]. injection H as <- <-. eapply tg_recv_end; eauto.
  - destruct (r_client _) eqn:K; try discriminate. destruct (_ && _) eqn:E; [discriminate|]. injection H as <- <-.
    cbn [tl]. eapply tg_halt_end; eauto. intros R. rewrite R in E. cbn [andb] in E.
    destruct (d_pending (t_dram t)); [reflexivity|]. unfold zlen in E. cbn in E. lia.
Qed.

Lemma tile_go_dram c now i n t n' t' : tile_go c now i n t n' t' ->
  t_dram t' = t_dram t \/ (exists a kd r, dc_submit now (-1) a kd (t_dram t) = (Ok r, t_dram t')) \/ t_dram t' = dc_stop now (t_dram t).
Proof. destruct 1; cbn; eauto 7. Qed.
Lemma tile_go_net c now i n t n' t' : tile_go c now i n t n' t' ->
  n' = n \/ (exists a, tile_of a = i /\ net_own a = false /\ nstep (y_net c) now a n = Some n' /\ n_crash n' = None).
Proof. destruct 1; eauto; right; eexists; repeat split; try eassumption; reflexivity. Qed.

Lemma projections c j t s : sreach c j t s ->
  (exists t0, t0 <= t /\ nreach (y_net c) t0 (s_net s)) /\
  (forall i, exists t0, t0 <= t /\ dreach (y_lat c) (y_size c) t0 (t_dram (s_tile s i))) /\
  (s_crash s = None -> crash_free s).
Proof.
  induction 1 as [t|t t' a s s' R IH T H].
  - split; [|split].
    + exists t. split; [lia|]. apply nr_init.
    + intros i. cbn. apply start_dram_reach.
    + intros _. split; [reflexivity|]. intros i. cbn. unfold start_dram, dc_run.
      destruct (i =? 0); [|reflexivity]. destruct (dc_preload _ _) as [d|] eqn:E; [|reflexivity].
      unfold dc_preload in E. cbn in E. destruct (_ <? _) in E; [discriminate|]. injection E as <-. reflexivity.
  - apply sstep_go in H as (C & G). destruct IH as ((t0 & T0 & N) & D & F). specialize (F C). destruct F as (F1 & F2).
    assert (DS : forall i a d, dstep (y_lat c) t' a (t_dram (s_tile s i)) = Some d ->
                 exists t1, t1 <= t' /\ dreach (y_lat c) (y_size c) t1 d).
    { intros i a0 d Hd. destruct (D i) as (t1 & L & RD). exists t'. split; [lia|]. eapply reach_step; eauto. lia. }
    assert (D' : forall i, exists t0, t0 <= t' /\ dreach (y_lat c) (y_size c) t0 (t_dram (s_tile s i))).
    { intros i. destruct (D i) as (t1 & L & RD). exists t1. split; [lia|auto]. }
    assert (N' : exists t0, t0 <= t' /\ nreach (y_net c) t0 (s_net s)) by (exists t0; split; [lia|auto]).
    destruct G as [i a0 d K O HD HC HN HT|a0 n O HS HC HN HT|i k p d p' K KK HP HS HC HN HT|i n tt K HS HC HN HT|i k p e K KK HP HS ->|i e K HS ->].
    + rewrite HN, HT. split; [auto|]. split.
      * intros i0. destruct (Z.eqb_spec i0 i) as [->|NE]; [rewrite set_fun_eq|rewrite set_fun_neq by auto; auto]. cbn. eauto.
      * intros C'. split; [congruence|]. intros i0. rewrite HT.
        destruct (Z.eqb_spec i0 i) as [->|NE]; [rewrite set_fun_eq|rewrite set_fun_neq by auto; auto]. cbn. congruence.
    + rewrite HT. split; [|split; auto].
      * exists t'. split; [lia|]. rewrite HN. eapply nr_step; eauto. lia.
      * intros C'. split; [rewrite HN; congruence|]. rewrite HT. auto.
    + rewrite HN, HT. apply core_step_dram in HS. split; [auto|].
      assert (X : (exists t0, t0 <= t' /\ dreach (y_lat c) (y_size c) t0 d) /\ d_crash d = None).
      { destruct HS as [->|(a1 & kd & r & E)]; [auto|]. split.
        - eapply (DS i (ASubmit k a1 kd)). eapply submit_step; eauto.
        - unfold dc_submit in E. destruct (negb _); [discriminate|]. injection E as <- <-. cbn. auto. }
      split.
      * intros i0. destruct (Z.eqb_spec i0 i) as [->|NE]; [rewrite set_fun_eq|rewrite set_fun_neq by auto; auto]. cbn. apply X.
      * intros C'. split; [congruence|]. intros i0. rewrite HT.
        destruct (Z.eqb_spec i0 i) as [->|NE]; [rewrite set_fun_eq|rewrite set_fun_neq by auto; auto]. cbn. apply X.
    + apply tile_step_go in HS. pose proof (tile_go_net _ _ _ _ _ _ _ HS) as GN. pose proof (tile_go_dram _ _ _ _ _ _ _ HS) as GD.
      assert (X : (exists t0, t0 <= t' /\ dreach (y_lat c) (y_size c) t0 (t_dram tt)) /\ d_crash (t_dram tt) = None).
      { destruct GD as [->|[(a1 & kd & r & E)|E]]; [auto| |].
        - split.
          + eapply (DS i (ASubmit (-1) a1 kd)). eapply submit_step; eauto.
          + unfold dc_submit in E. destruct (negb _); [discriminate|]. injection E as E1 <-. cbn. auto.
        - split.
          + eapply (DS i AStop). unfold dstep. rewrite F2, E. reflexivity.
          + rewrite E. unfold dc_stop. destruct (negb _); cbn; auto. }
      rewrite HN, HT. split; [|split].
      * destruct GN as [->|(a1 & _ & _ & E & _)]; [auto|]. exists t'. split; [lia|]. eapply nr_step; eauto. lia.
      * intros i0. destruct (Z.eqb_spec i0 i) as [->|NE]; [rewrite set_fun_eq|rewrite set_fun_neq by auto; auto]. apply X.
      * intros C'. split.
        -- rewrite HN. destruct GN as [->|(a1 & _ & _ & _ & E)]; auto.
        -- intros i0. rewrite HT. destruct (Z.eqb_spec i0 i) as [->|NE]; [rewrite set_fun_eq|rewrite set_fun_neq by auto; auto]. apply X.
    + cbn. split; [auto|]. split; [auto|]. discriminate.
    + cbn. split; [auto|]. split; [auto|]. discriminate.
Qed.
