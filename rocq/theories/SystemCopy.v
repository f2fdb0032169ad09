(** What sends and receives do to memory: invariants. *)
From Verif Require Import PyBase PyLemmas MemoryModel CoreModel DramModel DramSpec DramProofs RouterModel RouterSpec RouterProofs
  SystemModel SystemSpec SystemBase SystemInv SystemOracle SystemDet.
From Coq Require Import ZifyBool ZifyNat Permutation.

(** ** Packets of a log *)
Definition sent_rows (k : Z) (l : list tevent) : list (list Z) :=
  flat_map (fun e => match e with EvSend _ tg w v d => if tg =? k then rows_of w v d else [] | _ => [] end) l.
Definition unsent (t : tile) (k : Z) : list (list Z) :=
  match t_phase t, t_prog t with PSending rows, TSend _ tg _ _ :: _ => if tg =? k then rows else [] | _, _ => [] end.
Definition partly (t : tile) (k : Z) : list (list Z) :=
  match t_phase t, t_prog t with PRecv got, TRecv _ src _ _ :: _ => if src =? k then got else [] | _, _ => [] end.

(** ** Memory requests of the tile's program *)
Definition waiting_write (t : tile) : list (Z * list (list Z)) :=
  match prog_req t with
  | Some (id, a, RWrite rows) => match result_of id (d_history (t_dram t)) with Some _ => [] | None => [(a, rows)] end
  | _ => []
  end.
Definition finished_read (t : tile) : list (Z * Z * Z * list Z) :=
  match prog_req t with
  | Some (id, a, RRead w v) => match result_of id (d_history (t_dram t)) with Some x => [(a, w, v, x)] | None => [] end
  | _ => []
  end.

Definition event_ok (e : tevent) : Prop :=
  match e with
  | EvSend a tg w v data => 0 <= w /\ 0 <= v
  | EvRecv a src w v rows => zlen rows = v /\ Forall (fun r => zlen r = w) rows
  | EvMismatch a src w v taken => exists got bad, taken = got ++ [bad] /\ zlen got < v /\ Forall (fun r => zlen r = w) got /\ zlen bad <> w
  | EvHalt => True
  end.

Record cinv (n : net) (i : Z) (t : tile) : Prop := {
  cv_sent : forall k, sent_rows k (t_log t) = for_tile k (r_submitted (n_router n i)) ++ unsent t k;
  cv_taken : forall k, from_tile k (r_delivered (n_router n i)) = taken_packets k (t_log t) ++ partly t k;
  cv_got : match t_phase t, t_prog t with PRecv got, TRecv _ _ w _ :: _ => Forall (fun r => zlen r = w) got | _, _ => True end;
  cv_event : Forall event_ok (t_log t);
  cv_write : received_blocks (t_log t) = program_writes (d_history (t_dram t)) ++ waiting_write t;
  cv_read : program_reads (d_history (t_dram t)) = sent_blocks (t_log t) ++ finished_read t }.

Lemma received_log l : received_blocks l = log_writes l. Proof. reflexivity. Qed.
Lemma flat_snoc {A B} (f : A -> list B) l x : flat_map f (l ++ [x]) = flat_map f l ++ f x.
Proof. rewrite flat_map_app. cbn. now rewrite app_nil_r. Qed.

Lemma dram_own_entry lat now a d d' : dram_own a = true -> dstep lat now a d = Some d' ->
  d_history d' = d_history d \/ exists r g x rest, d_bus d = r :: rest /\ d_history d' = d_history d ++ [EDone r g now x].
Proof.
  unfold dstep. destruct (d_crash d); [discriminate|]. destruct a; try discriminate; intros _ H.
  - unfold dc_handle in H. destruct (negb _); [discriminate|]. destruct (d_queue d); [discriminate|].
    destruct (_ && _); injection H as <-; auto.
  - unfold dc_grant in H. destruct (d_bus d); [discriminate|]. destruct (d_granted d); [discriminate|].
    destruct (_ <? _); injection H as <-; auto.
  - unfold dc_finish in H. destruct (d_bus d) as [|r rest]; [discriminate|]. destruct (d_granted d); [|discriminate].
    destruct (_ <? _); [discriminate|]. destruct (q_kind r).
    + destruct (mem_read _ _ _ _) as ([x|e] & m); injection H as <-; auto. right. cbn. eauto 7.
    + destruct (mem_write _ _ _ _) as ([x|e] & m); [destruct (update_ready _ _ _)|]; injection H as <-; auto. right. cbn. eauto 7.
Qed.

Lemma result_of_snoc id h r g f x : result_of id (h ++ [EDone r g f x]) =
  match result_of id h with Some y => Some y | None => if q_id r =? id then Some x else None end.
Proof. induction h as [|[vals|r' g' f' x'] h IH]; cbn; auto. destruct (q_id r' =? id); auto. Qed.

Lemma cinv_dram c i n t t0 lat now a d' : dinv (y_lat c) (y_size c) t0 (t_dram t) -> tinv c i n t -> dram_own a = true ->
  dstep lat now a (t_dram t) = Some d' -> cinv n i t -> cinv n i (MkTile d' (t_cores t) (t_prog t) (t_phase t) (t_log t)).
Proof.
  intros I T OW H C. destruct (dram_own_entry _ _ _ _ _ OW H) as [E|(r & g & x & rest & B & E)].
  - destruct C as [C1 C2 C3 C4 C5 C6]. split; auto; unfold waiting_write, finished_read, prog_req in *; cbn [t_dram t_phase t_prog t_log]; rewrite E; auto.
  - assert (IS : In r (d_submitted (t_dram t))).
    { eapply Permutation_in; [symmetry; exact (i_place _ _ _ _ I)|]. rewrite B, !in_app_iff. cbn. auto. }
    assert (NC : ~ In r (completed (d_history (t_dram t)))).
    { intros X. pose proof (inv_places_nodup _ _ _ _ I) as ND. rewrite map_app in ND. apply NoDup_app_r in ND. rewrite map_app in ND. apply NoDup_app_r in ND.
      eapply nodup_apart; [exact ND| |exact X]. rewrite B. now left. }
    assert (RN : result_of (q_id r) (d_history (t_dram t)) = None).
    { destruct (result_of _ _) eqn:X; [|auto]. destruct (result_of_completed _ _ _ X) as (r' & R1 & R2). exfalso. apply NC.
      replace r with r'; [auto|]. apply (nodup_id _ _ _ (inv_ids_nodup _ _ _ _ I)); auto. eapply dinv_comp; eauto. }
    destruct (ow_wait _ _ _ _ (ti_own _ _ _ _ T) r IS) as [X|RQ]; [contradiction|].
    destruct C as [C1 C2 C3 C4 C5 C6].
    assert (PR : prog_req (MkTile d' (t_cores t) (t_prog t) (t_phase t) (t_log t)) = prog_req t) by reflexivity.
    split; auto; cbn [t_dram t_phase t_prog t_log].
    + rewrite C5. unfold waiting_write. rewrite PR. cbn [t_dram]. rewrite E. unfold program_writes. rewrite flat_snoc.
      destruct (Z.eqb_spec (q_core r) (-1)) as [K|K].
      * rewrite K, agent_prog in RQ. rewrite RQ. destruct (q_kind r) as [w v|rows].
        -- now rewrite !app_nil_r.
        -- rewrite result_of_snoc, RN, Z.eqb_refl, app_nil_r. reflexivity.
      * rewrite app_nil_r. f_equal. destruct (prog_req t) as [((id & a') & [w v|rows])|] eqn:Q; auto. rewrite result_of_snoc.
        destruct (result_of id _); auto. destruct (Z.eqb_spec (q_id r) id) as [X|X]; auto. exfalso. apply K.
        rewrite <- agent_prog in Q. destruct (ow_req _ _ _ _ (ti_own _ _ _ _ T) _ _ _ _ Q) as (r' & R1 & R2 & R3 & _).
        replace r with r'; [auto|]. apply (nodup_id _ _ _ (inv_ids_nodup _ _ _ _ I)); auto. congruence.
    + unfold finished_read in *. rewrite PR. cbn [t_dram]. rewrite E. unfold program_reads in *. rewrite flat_snoc, C6, <- app_assoc. f_equal.
      destruct (Z.eqb_spec (q_core r) (-1)) as [K|K].
      * rewrite K, agent_prog in RQ. rewrite RQ. destruct (q_kind r) as [w v|rows].
        -- rewrite result_of_snoc, RN, Z.eqb_refl. reflexivity.
        -- reflexivity.
      * rewrite app_nil_r. destruct (prog_req t) as [((id & a') & [w v|rows])|] eqn:Q; auto. rewrite result_of_snoc.
        destruct (result_of id _); auto. destruct (Z.eqb_spec (q_id r) id) as [X|X]; auto. exfalso. apply K.
        rewrite <- agent_prog in Q. destruct (ow_req _ _ _ _ (ti_own _ _ _ _ T) _ _ _ _ Q) as (r' & R1 & R2 & R3 & _).
        replace r with r'; [auto|]. apply (nodup_id _ _ _ (inv_ids_nodup _ _ _ _ I)); auto. congruence.
Qed.

Lemma cinv_same n n' i t t' : r_submitted (n_router n' i) = r_submitted (n_router n i) -> r_delivered (n_router n' i) = r_delivered (n_router n i) ->
  t_prog t' = t_prog t -> t_phase t' = t_phase t -> t_log t' = t_log t -> d_history (t_dram t') = d_history (t_dram t) -> cinv n i t -> cinv n' i t'.
Proof.
  intros A B P1 P2 P3 P4 [C1 C2 C3 C4 C5 C6]. split; unfold unsent, partly, waiting_write, finished_read, prog_req in *;
    rewrite ?A, ?B, ?P1, ?P2, ?P3, ?P4; auto.
Qed.

(** A fresh request has no result. *)
Lemma fresh_result lat size t0 now k a kd d r d' : dinv lat size t0 d -> dc_submit now k a kd d = (Ok r, d') -> result_of (q_id r) (d_history d) = None.
Proof.
  intros I H. destruct (result_of _ _) eqn:X; [|auto]. exfalso. destruct (result_of_completed _ _ _ X) as (r' & R1 & R2).
  assert (In r' (d_submitted d)). { eapply Permutation_in; [symmetry; exact (i_place _ _ _ _ I)|]. rewrite !in_app_iff. auto. }
  assert (ID : q_id r = zlen (d_submitted d)).
  { unfold dc_submit in H. destruct (negb _); [discriminate|]. cbv zeta in H. injection H as <- _. reflexivity. }
  assert (In (q_id r') (zrange (zlen (d_submitted d)))) by (rewrite <- (i_ids _ _ _ _ I); now apply in_map). rewrite in_zrange in *. lia.
Qed.

Lemma cinv_tile c t0 i n t now n' t' : dinv (y_lat c) (y_size c) t0 (t_dram t) -> tinv c i n t -> tile_go c now i n t n' t' -> cinv n i t -> cinv n' i t'.
Proof.
  intros I T G [C1 C2 C3 C4 C5 C6]. pose proof (ti_client _ _ _ _ T) as CL. unfold client_shape in CL. pose proof (ti_prog _ _ _ _ T) as PS. unfold prog_shape in PS.
  unfold unsent, partly, waiting_write, finished_read, prog_req in *. destruct G.
  - pose proof (fresh_result _ _ _ _ _ _ _ _ _ _ I H1) as FR. apply dc_submit_log in H1 as (R1 & R2 & S1 & S2 & S3 & S4 & S5 & _).
    rewrite H, H0 in *. split; unfold unsent, partly, waiting_write, finished_read, prog_req; cbn [t_dram t_phase t_prog t_log]; rewrite ?H; auto; rewrite S2; auto. now rewrite FR.
  - rewrite H, H0 in *. rewrite H1 in *. split; unfold unsent, partly, waiting_write, finished_read, prog_req; cbn [t_dram t_phase t_prog t_log]; rewrite ?H; auto.
    + intros k. unfold sent_rows in *. rewrite flat_snoc, C1, app_nil_r. reflexivity.
    + intros k. rewrite C2. unfold taken_packets. now rewrite flat_snoc, !app_nil_r.
    + apply Forall_app. split; [auto|]. constructor; [|constructor]. cbn. auto.
    + unfold received_blocks in *. rewrite flat_snoc, C5. now rewrite !app_nil_r.
    + unfold sent_blocks in *. rewrite flat_snoc, C6. now rewrite !app_nil_r.
  - rewrite H, H0 in *. destruct (net_log _ _ _ _ _ H2 i) as (E1 & E2). rewrite Z.eqb_refl in E1. rewrite app_nil_r in E2.
    split; unfold unsent, partly, waiting_write, finished_read, prog_req, set_phase; cbn [t_dram t_phase t_prog t_log]; rewrite ?H, ?E1, ?E2; auto.
    intros k. rewrite C1, for_tile_app, for_tile_one, <- app_assoc. cbn. f_equal. destruct (tg =? k); reflexivity.
  - rewrite H, H0 in *. split; unfold unsent, partly, waiting_write, finished_read, prog_req, next_op; cbn [t_dram t_phase t_prog t_log tl]; rewrite ?H, ?app_nil_r; auto.
    all: try (intros k; rewrite ?C1, ?C2; destruct (tg =? k); now rewrite ?app_nil_r).
    all: rewrite ?C5, ?C6; now rewrite ?app_nil_r.
  - rewrite H, H0 in *. split; unfold unsent, partly, waiting_write, finished_read, prog_req, set_phase; cbn [t_dram t_phase t_prog t_log]; rewrite ?H; auto.
    intros k. rewrite C2. destruct (src =? k); reflexivity.
  - destruct (net_log _ _ _ _ _ H3 i) as (E1 & E2). rewrite app_nil_r in E1, E2.
    split; unfold unsent, partly, waiting_write, finished_read, prog_req; rewrite ?E1, ?E2; auto.
  - pose proof (fresh_result _ _ _ _ _ _ _ _ _ _ I H3) as FR. apply dc_submit_log in H3 as (R1 & R2 & S1 & S2 & S3 & S4 & S5 & _).
    rewrite H, H0 in *. destruct PS as (a0 & s0 & w0 & v0 & r0 & P & W0 & LE). injection P as <- <- <- <- <-.
    split; unfold unsent, partly, waiting_write, finished_read, prog_req; cbn [t_dram t_phase t_prog t_log]; rewrite ?H; auto.
    + intros k. unfold sent_rows in *. rewrite flat_snoc, C1. now rewrite !app_nil_r.
    + intros k. unfold taken_packets in *. rewrite flat_snoc, C2. now rewrite app_nil_r.
    + apply Forall_app. split; [auto|]. constructor; [|constructor]. cbn. split; [lia|auto].
    + rewrite S2. unfold received_blocks in *. rewrite flat_snoc, C5, log_writes_app, map_app. cbn [log_writes flat_map ev_write app map]. rewrite last_last, FR.
      now rewrite app_nil_r.
    + rewrite S2, C6. unfold sent_blocks. rewrite flat_snoc, log_writes_app, map_app. cbn [log_writes flat_map ev_write app map]. now rewrite last_last, !app_nil_r.
  - rewrite H, H0 in *. destruct CL as [CL|(a0 & s0 & w0 & v0 & r0 & P & BK & LT & [CL|(d & CL)])]; try congruence. injection P as <- <- <- <- <-.
    assert (src' = src /\ d = data) as (-> & ->) by (split; congruence).
    destruct (net_log _ _ _ _ _ H3 i) as (E1 & E2). rewrite app_nil_r in E1. rewrite Z.eqb_refl in E2. unfold in_hand in E2. rewrite CL in E2.
    split; unfold unsent, partly, waiting_write, finished_read, prog_req, set_phase; cbn [t_dram t_phase t_prog t_log]; rewrite ?H, ?E1, ?E2; auto.
    + intros k. rewrite from_tile_app, C2, <- app_assoc, from_tile_one. cbn [fst snd]. destruct (src =? k); cbn; now rewrite ?app_nil_r.
    + apply Forall_app. auto.
  - rewrite H, H0 in *. destruct CL as [CL|(a0 & s0 & w0 & v0 & r0 & P & BK & LT & [CL|(d & CL)])]; try congruence. injection P as <- <- <- <- <-.
    assert (src' = src /\ d = data) as (-> & ->) by (split; congruence).
    destruct (net_log _ _ _ _ _ H3 i) as (E1 & E2). rewrite app_nil_r in E1. rewrite Z.eqb_refl in E2. unfold in_hand in E2. rewrite CL in E2.
    split; unfold unsent, partly, waiting_write, finished_read, prog_req, next_op; cbn [t_dram t_phase t_prog t_log tl]; rewrite ?H, ?E1, ?E2; auto.
    + intros k. unfold sent_rows in *. rewrite flat_snoc, C1. now rewrite !app_nil_r.
    + intros k. unfold taken_packets in *. rewrite from_tile_app, C2, flat_snoc, from_tile_one. cbn [fst snd].
      destruct (src =? k); rewrite ?app_nil_r, <- ?app_assoc; auto.
    + apply Forall_app. split; [auto|]. constructor; [|constructor]. cbn. eauto 8.
    + unfold received_blocks in *. rewrite flat_snoc, C5. now rewrite !app_nil_r.
    + rewrite C6. unfold sent_blocks. rewrite flat_snoc. now rewrite !app_nil_r.
  - rewrite H, H0 in *. destruct PS as (a0 & s0 & w0 & v0 & r0 & l & rows & P & LG).
    assert (LA : last (map Some (log_writes (t_log t))) None = Some (a0, rows)).
    { rewrite LG, log_writes_app, map_app. cbn [log_writes flat_map ev_write app map]. apply last_last. }
    rewrite LA in C5, C6. rewrite H1 in C5.
    split; unfold unsent, partly, waiting_write, finished_read, prog_req, next_op; cbn [t_dram t_phase t_prog t_log tl]; rewrite ?H, ?app_nil_r; auto.
    all: try (intros k; rewrite ?C1, ?C2; now rewrite ?app_nil_r).
    all: rewrite ?C5, ?C6; now rewrite ?app_nil_r.
  - rewrite H, H0 in *. destruct (net_log _ _ _ _ _ H2 i) as (E1 & E2). rewrite app_nil_r in E1, E2.
    split; unfold unsent, partly, waiting_write, finished_read, prog_req, set_phase; cbn [t_dram t_phase t_prog t_log]; rewrite ?H, ?E1, ?E2; auto.
  - rewrite H, H0 in *. destruct (dc_stop_log now (t_dram t)) as (_ & S1 & S2).
    split; unfold unsent, partly, waiting_write, finished_read, prog_req; cbn [t_dram t_phase t_prog t_log]; rewrite ?S2; auto.
    + intros k. unfold sent_rows in *. rewrite flat_snoc, C1. now rewrite !app_nil_r.
    + intros k. unfold taken_packets in *. rewrite flat_snoc, C2. now rewrite !app_nil_r.
    + apply Forall_app. split; [auto|]. constructor; [|constructor]. exact Logic.I.
    + unfold received_blocks in *. rewrite flat_snoc, C5. now rewrite !app_nil_r.
    + rewrite C6. unfold sent_blocks. rewrite flat_snoc. now rewrite !app_nil_r.
Qed.

Lemma preload_only h : Forall (fun e => match e with EPreload _ => True | _ => False end) h -> program_writes h = [] /\ program_reads h = [].
Proof. induction 1 as [|e h H F (A & B)]; [auto|]. destruct e; [|contradiction]. auto. Qed.

Lemma sreach_cinv c j t s : 0 <= y_size c -> sreach c j t s -> forall i, cinv (s_net s) i (s_tile s i).
Proof.
  intros SZ R. induction R as [t|t t' a s s' R IH T H].
  - intros i. assert (X : program_writes (d_history (start_dram c t (j_activation j) i)) = [] /\ program_reads (d_history (start_dram c t (j_activation j) i)) = []).
    { apply preload_only. unfold start_dram. destruct (i =? 0); [|constructor]. unfold dc_preload.
      destruct (_ <? _); constructor; [exact Logic.I|constructor]. }
    destruct X as (X & Y). split; cbn [sys_start s_tile s_net t_log t_dram]; rewrite ?X, ?Y; try reflexivity; constructor.
  - pose proof (sreach_dinv _ _ SZ _ _ R) as DI. pose proof (sreach_tinv _ _ SZ _ _ R) as TI. apply sstep_go in H as (CR & G).
    destruct G as [i0 a0 d K O0 HD HC HN HT|a0 n O0 HS HC HN HT|i0 k p d p' K KK HP HS HC HN HT|i0 n tt K HS HC HN HT|i0 k p e K KK HP HS ->|i0 e K HS ->];
      intros i; specialize (IH i); try rewrite HN; try rewrite HT; auto.
    + destruct (Z.eq_dec i i0) as [->|NE]; [rewrite set_fun_eq|rewrite set_fun_neq by auto; auto]. eapply cinv_dram; eauto.
    + destruct (net_quiet _ _ _ _ _ HS i (or_intror O0)). eapply cinv_same; eauto.
    + destruct (Z.eq_dec i i0) as [->|NE]; [rewrite set_fun_eq|rewrite set_fun_neq by auto; auto].
      apply (cinv_same (s_net s) _ _ (s_tile s i0)); auto. cbn.
      destruct (core_step_dram _ _ _ _ _ _ _ HS) as [->|(a1 & kd & r & SB)]; [auto|]. apply dc_submit_log in SB. apply SB.
    + apply tile_step_go in HS. destruct (Z.eq_dec i i0) as [->|NE]; [rewrite set_fun_eq|rewrite set_fun_neq by auto].
      * eapply cinv_tile; eauto.
      * apply tile_go_net in HS as [->|(a1 & E & _ & HS & _)]; [auto|]. assert (NE1 : i <> tile_of a1) by congruence.
        destruct (net_quiet _ _ _ _ _ HS i (or_introl NE1)). eapply cinv_same; eauto.
Qed.
