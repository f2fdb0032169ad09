(** A bound on the work of a node: a measure that decreases with every step but idle polls. *)
From Coq Require Import Permutation.
From Verif Require Import PyBase PyLemmas MemoryModel CoreModel DramModel DramSpec DramProofs DramProgress RouterModel RouterSpec RouterProofs
  SystemModel SystemSpec SystemBase SystemInv SystemProofs LiveSpec LiveProofs.

Definition client_rank2 (k : client) : Z :=
  match k with KIdle => 0 | KAdding _ => 1 | KReading _ => 2 | KGot _ _ => 1 | KPolling _ => 2 | KDraining => 1 end.
Definition rwork (r : router) : Z := 5 * zlen (r_queue r) + sender_rank r + client_rank2 (r_client r).
Definition core_work (p : cproc) : Z :=
  match cp_phase p with
  | PReady => 7 * zlen (cp_prog p)
  | PLoad _ _ => 7 * (zlen (cp_prog p) - 1) + 1
  | PStoring _ _ => 7 * (zlen (cp_prog p) - 1) + 6
  | PStore _ => 7 * (zlen (cp_prog p) - 1) + 1
  | PHalted => 0
  end.
Definition busy_client (k : client) : Z := match k with KIdle => 0 | _ => 3 end.
Definition prog_work (k : client) (t : tile) : Z :=
  match t_phase t, t_prog t with
  | PNext, l => zsum (map op_steps l)
  | PSendRead _, TSend _ _ _ v :: l => 2 + 7 * Z.max 0 v + zsum (map op_steps l)
  | PSending rows, _ :: l => 7 * zlen rows + 1 + zsum (map op_steps l)
  | PRecv got, TRecv _ _ _ v :: l => 3 * (v - zlen got) + 6 - busy_client k + zsum (map op_steps l)
  | PRecvWrite _, _ :: l => 1 + zsum (map op_steps l)
  | PHalting, _ :: l => 1 + zsum (map op_steps l)
  | _, _ => 0
  end.
Definition tile_work (n : net) (t : tile) (i : Z) : Z :=
  zsum (map core_work (t_cores t)) + prog_work (r_client (n_router n i)) t + weight (t_dram t) + rwork (n_router n i).
Definition sys_work (c : sys_cfg) (s : sys) : Z :=
  match s_crash s with Some _ => 0 | None => 1 + over_tiles (y_net c) (fun i => tile_work (s_net s) (s_tile s i) i) end.

Lemma rwork_other c t a s s' : nstep c t a s = Some s' -> forall x, x <> tile_of a -> rwork (n_router s' x) = rwork (n_router s x).
Proof.
  intros H x N. unfold rwork, sender_rank, client_rank2.
  step_cases H; cbn [tile_of] in N; look.
  all: repeat match goal with |- context [?x =? ?y] => destruct (Z.eqb_spec x y); subst; look end; try congruence; reflexivity.
Qed.

Definition call_rank (a : nact) (s : net) : Z :=
  match a with
  | NSubmit _ _ _ => 6 | NRead _ _ => 2 | NGot _ => -1
  | NHalt _ => 2
  | NPoll i => match r_queue (n_router s i) with [] => -1 | _ => 0 end
  | _ => -1
  end.
Lemma rwork_own c t a s s' : nstep c t a s = Some s' -> n_crash s' = None ->
  rwork (n_router s' (tile_of a)) <= rwork (n_router s (tile_of a)) + call_rank a s.
Proof.
  intros H C. unfold rwork, sender_rank, client_rank2, call_rank.
  step_cases H; cbn [tile_of]; look; rewrite ?Z.eqb_refl; look.
  all: repeat match goal with |- context [?x =? ?y] => destruct (Z.eqb_spec x y); subst; look end.
  all: repeat match goal with E : r_sender _ = _ |- _ => rewrite E in * end.
  all: repeat match goal with E : r_client _ = _ |- _ => rewrite E in * end.
  all: repeat match goal with E : r_queue _ = _ |- _ => rewrite E in * end.
  all: rewrite ?zlen_app, ?zlen_cons, ?zlen_nil.
  all: try lia.
  all: try (destruct (r_queue _); lia).
Qed.

(** ** The memory controller *)
Lemma weight_submit lat size t0 now k a kd d r d' : dinv lat size t0 d -> dc_submit now k a kd d = (Ok r, d') -> weight d' = weight d + 4.
Proof.
  intros I H. unfold dc_submit in H. destruct (d_running d); [|discriminate]. cbn [negb] in H. injection H as <- <-.
  unfold weight. cbn [d_queue d_pending d_bus d_granted]. rewrite (weight_le d) by reflexivity. rewrite map_app, zsum_app.
  cbn [map]. change (zsum [?x]) with (x + 0).
  enough (E : queue_weight d (MkReq (zlen (d_submitted d)) k a now kd) = 4) by (rewrite E; lia).
  unfold queue_weight, never_waited. cbn [q_id].
  replace (existsb (Z.eqb (zlen (d_submitted d))) (d_waited d)) with false; [reflexivity|].
  symmetry. apply not_true_is_false. intros E. apply existsb_exists in E as (x & X & E).
  pose proof (proj1 (Forall_forall _ _) (i_waited _ _ _ _ I) x X) as B. cbn beta in B. lia.
Qed.
Lemma weight_stop now d : weight (dc_stop now d) = weight d.
Proof. unfold dc_stop. destruct (d_running d); cbn [negb]; [|reflexivity]. unfold weight. cbn. reflexivity. Qed.

(** ** Cores *)
Lemma op_steps_pos o : 4 <= op_steps o.
Proof. destruct o; cbn [op_steps]; lia. Qed.
Lemma ops_nonneg l : 0 <= zsum (map op_steps l).
Proof. apply zsum_nonneg. apply Forall_forall. intros x H. apply in_map_iff in H as (o & <- & _). pose proof (op_steps_pos o). lia. Qed.
Lemma core_work_nonneg p : core_shape p -> 0 <= core_work p.
Proof.
  unfold core_shape, core_work. pose proof (zlen_nonneg (cp_prog p)).
  destruct (cp_phase p); intros S; repeat match type of S with ex _ => destruct S as (? & S) end; try destruct S as (S & _);
  try rewrite S, ?zlen_cons in *; try match goal with |- context [zlen ?l] => pose proof (zlen_nonneg l) end; lia.
Qed.
Lemma zsum_upd {A} (f : A -> Z) l k p p' : nth_error l k = Some p -> zsum (map f (upd l k p')) = zsum (map f l) - f p + f p'.
Proof.
  revert k. induction l as [|x l IH]; intros [|k] E; try discriminate; cbn in E.
  - injection E as ->. change (zsum (map f (p' :: l)) = zsum (map f (p :: l)) - f p + f p'). cbn [map].
    change (zsum (?h :: ?t)) with (h + zsum t). lia.
  - change (upd (x :: l) (S k) p') with (x :: upd l k p'). cbn [map]. change (zsum (?h :: ?t)) with (h + zsum t). rewrite (IH _ E). lia.
Qed.
Lemma core_work_step c lat size t0 now k d p d' p' : dinv lat size t0 d -> core_shape p -> core_step_sys c now k d p = Go (d', p') ->
  core_work p' + weight d' <= core_work p + weight d - 1.
Proof.
  intros I S H. unfold core_step_sys in H. unfold core_shape in S. unfold core_work.
  destruct (cp_phase p) as [|id a|a rows|id|] eqn:PH.
  - destruct (cp_prog p) as [|o rest] eqn:P; [discriminate|]. pose proof (zlen_nonneg rest).
    destruct o; try (destruct (exec_local _ _ _) as ([u|e] & k1); [injection H as <- <-; cbn [cp_phase cp_prog]; rewrite ?zlen_cons; lia|discriminate]).
    + destruct (load_address _ _ _) as ([a|e] & k1); [|discriminate].
      destruct (dc_submit _ _ _ _ _) as ([r|e] & d1) eqn:E; [|discriminate]. injection H as <- <-. cbn [cp_phase cp_prog].
      rewrite (weight_submit _ _ _ _ _ _ _ _ _ _ I E), !zlen_cons. lia.
    + destruct (store_request _ _ _ _ _ _) as ([(a & v)|e] & k1); [|discriminate]. injection H as <- <-. cbn [cp_phase cp_prog]. rewrite !zlen_cons. lia.
    + injection H as <- <-. cbn [cp_phase cp_prog]. rewrite !zlen_cons. lia.
  - destruct (result_of _ _); [|discriminate]. destruct (cp_prog p) as [|o rest]; [discriminate|].
    destruct o; try discriminate. destruct (load_finish _ _ _ _) as ([u|e] & k1); [|discriminate]. injection H as <- <-.
    cbn [cp_phase cp_prog]. rewrite ?zlen_cons. lia.
  - destruct (dc_submit _ _ _ _ _) as ([r|e] & d1) eqn:E; [|discriminate]. injection H as <- <-. cbn [cp_phase cp_prog].
    rewrite (weight_submit _ _ _ _ _ _ _ _ _ _ I E). lia.
  - destruct (result_of _ _); [|discriminate]. destruct (cp_prog p) as [|o rest]; [discriminate|]. injection H as <- <-. cbn [cp_phase cp_prog].
    rewrite ?zlen_cons. lia.
  - discriminate.
Qed.

(** ** Tiles *)
Lemma zlen_rows_of w v l : 0 <= v -> zlen (rows_of w v l) = v.
Proof. intros V. unfold rows_of, zlen. rewrite map_length. unfold zrange. rewrite map_length, seq_length. lia. Qed.
Lemma zsum_cons' x l : zsum (x :: l) = x + zsum l. Proof. reflexivity. Qed.

Lemma prog_work_nonneg c i n t : tinv c i n t -> 0 <= prog_work (r_client (n_router n i)) t.
Proof.
  intros T. pose proof (ti_prog _ _ _ _ T) as P. pose proof (ti_client _ _ _ _ T) as K. unfold prog_shape in P. unfold client_shape in K. unfold prog_work.
  destruct (t_phase t) as [|id|rows|got|id|]; [apply ops_nonneg| | | | |];
    repeat match type of P with ex _ => destruct P as (? & P) end; try destruct P as (P & P'); rewrite P in *;
    match goal with |- context [zsum (map op_steps ?l)] => pose proof (ops_nonneg l) end; try pose proof (zlen_nonneg rows); try lia.
  destruct K as [K|(? & ? & ? & ? & ? & K & _ & L & [K2|(? & K2)])]; [rewrite K|injection K as -> -> -> -> ->; rewrite K2..]; cbn [busy_client]; lia.
Qed.
Lemma rwork_nonneg r : 0 <= rwork r.
Proof. unfold rwork, sender_rank, client_rank2. pose proof (zlen_nonneg (r_queue r)). destruct (r_sender r), (r_client r); lia. Qed.

Lemma tile_go_work c lat size t0 now i n t n' t' : dinv lat size t0 (t_dram t) -> tinv c i n t -> tile_go c now i n t n' t' ->
  tile_work n' t' i <= tile_work n t i - 1.
Proof.
  intros I T H. pose proof (ti_client _ _ _ _ T) as K. unfold client_shape in K.
  pose proof (ti_prog _ _ _ _ T) as PS. unfold prog_shape in PS.
  unfold tile_work, prog_work.
  destruct H as [addr tg w v rest r d P PH E|addr tg w v rest id data P PH E W V|addr tg w v rest row rows n' P PH KI E C|addr tg w v rest P PH KI
    |addr src w v rest P PH W V|addr src w v rest got n' P PH KI L E C|addr src w v rest got r d P PH KI L E|addr src w v rest got src' data n' P PH KI L E C
    |addr src w v rest got src' data n' P PH KI L E C|addr src w v rest id x P PH E|rest n' P PH HC E C|rest P PH KI DP];
  rewrite ?PH, ?P in *; cbn [t_phase t_prog t_dram t_cores set_phase next_op]; rewrite ?P; cbn [map tl]; rewrite ?zsum_cons'.
  - rewrite (weight_submit _ _ _ _ _ _ _ _ _ _ I E). cbn [op_steps]. lia.
  - rewrite zlen_rows_of by lia. lia.
  - pose proof (rwork_own _ _ _ _ _ E C) as R. cbn [tile_of call_rank] in R. rewrite zlen_cons. lia.
  - change (zlen (@nil (list Z))) with 0. lia.
  - rewrite K. cbn [op_steps busy_client]. change (zlen (@nil (list Z))) with 0. lia.
  - pose proof (rwork_own _ _ _ _ _ E C) as R. cbn [tile_of call_rank] in R. rewrite KI. cbn [busy_client].
    assert (B : busy_client (r_client (n_router n' i)) = 3).
    { revert E C. clear. intros H C. step_cases H; look; rewrite ?Z.eqb_refl; look; try reflexivity. }
    rewrite B. lia.
  - rewrite (weight_submit _ _ _ _ _ _ _ _ _ _ I E). rewrite KI. cbn [busy_client].
    destruct PS as (? & ? & ? & ? & ? & Q & _ & PS). injection Q as <- <- <- <- <-. lia.
  - pose proof (rwork_own _ _ _ _ _ E C) as R. cbn [tile_of call_rank] in R. rewrite KI. cbn [busy_client].
    assert (B : busy_client (r_client (n_router n' i)) = 0).
    { revert E C. clear. intros H C. step_cases H; look; rewrite ?Z.eqb_refl; look; try reflexivity. }
    rewrite B, zlen_app. change (zlen [data]) with 1. lia.
  - pose proof (rwork_own _ _ _ _ _ E C) as R. cbn [tile_of call_rank] in R. rewrite KI. cbn [busy_client].
    destruct PS as (? & ? & ? & ? & ? & Q & _ & PS). injection Q as <- <- <- <- <-. lia.
  - lia.
  - pose proof (rwork_own _ _ _ _ _ E C) as R. cbn [tile_of call_rank] in R. cbn [op_steps]. lia.
  - rewrite weight_stop. lia.
Qed.

(** ** The node *)
Lemma over_tiles_nonneg c f : (forall x, 0 <= x < w_tiles c -> 0 <= f x) -> 0 <= over_tiles c f.
Proof.
  intros H. pose proof (over_tiles_le c (fun _ => 0) f H) as L. replace (over_tiles c (fun _ => 0)) with 0 in L; [exact L|].
  unfold over_tiles. induction (zrange (w_tiles c)) as [|x l IH]; [reflexivity|]. cbn [map]. rewrite zsum_cons'. lia.
Qed.
Lemma tile_work_nonneg c j t s i : 0 <= y_size c -> sreach c j t s -> 0 <= tile_work (s_net s) (s_tile s i) i.
Proof.
  intros SZ R. pose proof (sreach_tinv _ _ SZ _ _ R i) as T. destruct (projections _ _ _ _ R) as (_ & D & _). destruct (D i) as (t0 & _ & RD).
  pose proof (weight_nonneg _ _ _ _ SZ RD). pose proof (prog_work_nonneg _ _ _ _ T). pose proof (rwork_nonneg (n_router (s_net s) i)).
  assert (0 <= zsum (map core_work (t_cores (s_tile s i)))).
  { apply zsum_nonneg, Forall_forall. intros x X. apply in_map_iff in X as (p & <- & X).
    apply core_work_nonneg. exact (proj1 (Forall_forall _ _) (ti_cores _ _ _ _ T) p X). }
  unfold tile_work. lia.
Qed.
Lemma sys_work_nonneg c j t s : 0 <= y_size c -> sreach c j t s -> 0 <= sys_work c s /\ (s_crash s = None -> 1 <= sys_work c s).
Proof.
  intros SZ R. unfold sys_work. destruct (s_crash s); [split; [lia|discriminate]|].
  pose proof (over_tiles_nonneg (y_net c) (fun i => tile_work (s_net s) (s_tile s i) i) (fun x _ => tile_work_nonneg _ _ _ _ x SZ R)). lia.
Qed.

(** A step changes the work of one tile. *)
Lemma one_tile c s n' tl' k i : on_node c i -> (forall x, x <> i -> tile_work n' (tl' x) x = tile_work (s_net s) (s_tile s x) x) ->
  tile_work n' (tl' i) i <= tile_work (s_net s) (s_tile s i) i + k ->
  over_tiles (y_net c) (fun x => tile_work n' (tl' x) x) <= over_tiles (y_net c) (fun x => tile_work (s_net s) (s_tile s x) x) + k.
Proof.
  intros N E L. rewrite (over_tiles_change (y_net c) _ (fun x => tile_work (s_net s) (s_tile s x) x) i); [|exact N|exact E]. lia.
Qed.

Lemma sys_work_step c j t s t' a s' : 0 <= y_size c -> sreach c j t s -> t <= t' -> sstep c t' a s = Some s' ->
  (idle_poll s a -> sys_work c s' <= sys_work c s) /\ (~ idle_poll s a -> sys_work c s' <= sys_work c s - 1).
Proof.
  intros SZ R LE H.
  assert (NC : s_crash s = None).
  { unfold sstep, sstep_cap in H. destruct (s_crash s); [discriminate|reflexivity]. }
  pose proof (sys_work_nonneg _ _ _ _ SZ R) as (_ & POS). specialize (POS NC).
  pose proof (sreach_dinv _ _ SZ _ _ R) as DI. pose proof (sreach_tinv _ _ SZ _ _ R) as TI.
  destruct (s_crash s') as [e|] eqn:NC'.
  { unfold sys_work at 1 3. rewrite NC'. lia. }
  unfold sys_work in *. rewrite NC, NC' in *.
  assert (CASES : (exists n, a = SNet n) \/ (forall n, a <> SNet n)) by (destruct a; eauto; right; intros n; discriminate).
  destruct CASES as [(n & ->)|NN].
  - unfold sstep, sstep_cap in H. rewrite NC in H. change (nstep_cap buffer_capacity) with nstep in H.
    destruct (net_own n) eqn:O; [|discriminate]. cbn [negb] in H. destruct (nstep _ _ _ _) as [n'|] eqn:E; [|discriminate].
    injection H as <-. cbn [s_net s_tile s_crash] in *.
    assert (KA : on_node c (tile_of n)).
    { unfold nstep, nstep_cap in E. destruct (n_crash (s_net s)); [discriminate|]. unfold on_node.
      destruct (known_router (y_net c) (tile_of n)) eqn:KR; [unfold known_router in KR; lia|discriminate]. }
    assert (OT : forall x, x <> tile_of n -> tile_work n' (s_tile s x) x = tile_work (s_net s) (s_tile s x) x).
    { intros x N. unfold tile_work. rewrite (rwork_other _ _ _ _ _ E x N). destruct (net_client _ _ _ _ _ E x N) as (-> & _). reflexivity. }
    assert (OW : tile_work n' (s_tile s (tile_of n)) (tile_of n) <= tile_work (s_net s) (s_tile s (tile_of n)) (tile_of n) + call_rank n (s_net s)).
    { pose proof (rwork_own _ _ _ _ _ E NC') as RW. unfold tile_work.
      enough (PW : prog_work (r_client (n_router n' (tile_of n))) (s_tile s (tile_of n)) = prog_work (r_client (n_router (s_net s) (tile_of n))) (s_tile s (tile_of n))) by (rewrite PW; lia).
      pose proof (ti_client _ _ _ _ (TI (tile_of n))) as K. unfold client_shape in K. unfold prog_work.
      destruct (t_phase (s_tile s (tile_of n))) eqn:PH; try reflexivity.
      destruct (net_own_client _ _ _ _ _ E O) as (OC & _).
      destruct K as [K|(? & ? & ? & ? & ? & P & _ & _ & [K|(? & K)])]; rewrite K in OC |- *; [now rewrite OC| |now rewrite OC].
      destruct OC as [->|(? & ->)]; reflexivity. }
    pose proof (one_tile c s n' (s_tile s) _ _ KA OT OW) as B. split.
    + intros (i & Q & QE). injection Q as ->. unfold call_rank in B. destruct (r_queue _); [congruence|lia].
    + intros NI. assert (call_rank n (s_net s) = -1); [|lia].
      destruct n; try discriminate O; try reflexivity. cbn [call_rank]. destruct (r_queue (n_router (s_net s) i)) eqn:Q; [reflexivity|].
      exfalso. apply NI. exists i. split; [reflexivity|congruence].
  - split; [intros (i & Q & _); now apply NN in Q|]. intros _.
    enough (over_tiles (y_net c) (fun i => tile_work (s_net s') (s_tile s' i) i) <= over_tiles (y_net c) (fun i => tile_work (s_net s) (s_tile s i) i) + -1) by lia.
    unfold sstep, sstep_cap in H. rewrite NC in H.
    assert (KN : forall i, known_router (y_net c) i = true -> on_node c i) by (unfold known_router, on_node; lia).
    destruct a as [i a|a|i k|i]; [| now destruct (NN a)| |].
    + destruct (dram_own a) eqn:O; [|discriminate]. destruct (known_router (y_net c) i) eqn:KR; [|discriminate]. cbn [negb orb] in H.
      destruct (dstep _ _ _ _) as [d|] eqn:E; [|discriminate]. injection H as <-. cbn [s_net s_tile s_crash] in *.
      apply (one_tile c s _ _ _ i); [now apply KN|intros x N; now rewrite set_fun_neq|].
      rewrite set_fun_eq. unfold tile_work. cbn [t_cores t_dram]. unfold prog_work. cbn [t_phase t_prog].
      destruct (projections _ _ _ _ R) as (_ & D & _). destruct (D i) as (t0 & L0 & RD).
      assert (IA : internal a) by (destruct a; try discriminate O; exact I).
      destruct (internal_decreases (y_lat c) (y_size c) t0 t' a (t_dram (s_tile s i)) d) as [X|X]; try assumption; try lia; try congruence.
    + destruct (known_router (y_net c) i) eqn:KR; [|discriminate]. destruct (k <? 0) eqn:KZ; [discriminate|]. cbn [negb orb] in H.
      destruct (nth_error _ _) as [p|] eqn:E; [|discriminate].
      destruct (core_step_sys _ _ _ _ _) as [|e|(d & p')] eqn:E2; [discriminate| |]; injection H as <-; [discriminate NC'|]. cbn [s_net s_tile s_crash set_tile] in *.
      apply (one_tile c s _ _ _ i); [now apply KN|intros x N; now rewrite set_fun_neq|].
      rewrite set_fun_eq. unfold tile_work. cbn [t_cores t_dram]. unfold prog_work. cbn [t_phase t_prog].
      rewrite (zsum_upd _ _ _ _ _ E).
      assert (S : core_shape p) by (eapply Forall_forall; [exact (ti_cores _ _ _ _ (TI i))|eapply nth_error_In; exact E]).
      pose proof (core_work_step _ _ _ _ _ _ _ _ _ _ (DI i) S E2). lia.
    + destruct (known_router (y_net c) i) eqn:KR; [|discriminate]. cbn [negb] in H.
      destruct (tile_step _ _ _ _ _ _) as [|e|(n & tl)] eqn:E; [discriminate| |]; injection H as <-; [discriminate NC'|]. cbn [s_net s_tile s_crash] in *.
      apply tile_step_go in E. pose proof (tile_go_work _ _ _ _ _ _ _ _ _ _ (DI i) (TI i) E) as W.
      apply (one_tile c s _ _ _ i); [now apply KN| |rewrite set_fun_eq; lia].
      intros x N. rewrite set_fun_neq by assumption. destruct (tile_go_net _ _ _ _ _ _ _ E) as [->|(a & A & _ & NS & _)]; [reflexivity|]. subst i.
      unfold tile_work. rewrite (rwork_other _ _ _ _ _ NS x N). destruct (net_client _ _ _ _ _ NS x N) as (-> & _). reflexivity.
Qed.

Lemma sys_work_start c now j : sys_work c (sys_start c now j) = job_steps c j.
Proof.
  unfold sys_work, job_steps, sys_start. cbn [s_crash s_net s_tile]. f_equal. apply over_tiles_same. intros x.
  unfold tile_work, prog_work. cbn [t_cores t_phase t_prog t_dram].
  replace (weight (start_dram c now (j_activation j) x)) with 0.
  2:{ unfold start_dram, weight. destruct (x =? 0); [|reflexivity].
      unfold dc_preload. destruct (_ <? _); [reflexivity|]. reflexivity. }
  change (rwork (n_router net_init x)) with 0. rewrite map_map. unfold core_work. cbn [cp_phase cp_prog].
  rewrite Z.add_0_r, Z.add_0_r. f_equal.
  induction (j_cores j x) as [|a l IH]; [reflexivity|]. cbn [map]. rewrite !zsum_cons', IH. lia.
Qed.

Lemma sworks_reach c j t s n t' s' : sreach c j t s -> sworks c t s n t' s' -> sreach c j t' s'.
Proof. intros R. induction 1; [assumption| |]; eapply sr_step; eauto. Qed.
Lemma sworks_work c j t s n t' s' : 0 <= y_size c -> sreach c j t s -> sworks c t s n t' s' -> n + sys_work c s' <= sys_work c s.
Proof.
  intros SZ R H. induction H as [|n t1 s1 a t2 s2 H IH L E I|n t1 s1 a t2 s2 H IH L E I]; [lia| |];
    destruct (sys_work_step _ _ _ _ _ _ _ SZ (sworks_reach _ _ _ _ _ _ _ R H) L E) as (W1 & W2).
  - specialize (W2 I). lia.
  - specialize (W1 I). lia.
Qed.

(** At most so many steps. *)
Lemma bounded_work c j t n t' s' : 0 <= y_size c -> sworks c t (sys_start c t j) n t' s' -> n <= job_steps c j.
Proof.
  intros SZ H. assert (R : sreach c j t (sys_start c t j)) by constructor. rewrite <- (sys_work_start c t).
  pose proof (sworks_work _ _ _ _ _ _ _ SZ R H). pose proof (sys_work_nonneg _ _ _ _ SZ (sworks_reach _ _ _ _ _ _ _ R H)). lia.
Qed.

(** Every execution can go on until nothing but idle polls is left. *)
From Coq Require Import Classical_Prop.
Lemma more_or_wedged c t s : wedged c t s \/ exists t' a s', t <= t' /\ sstep c t' a s = Some s' /\ ~ idle_poll s a.
Proof.
  destruct (classic (exists t' a s', t <= t' /\ sstep c t' a s = Some s' /\ ~ idle_poll s a)) as [H|H]; [now right|]. left.
  intros t' a s' L E. apply NNPP. intros N. apply H. eauto 7.
Qed.
Lemma settles c j t s : 0 <= y_size c -> sreach c j t s -> exists n t' s', sworks c t s n t' s' /\ wedged c t' s'.
Proof.
  intros SZ R.
  assert (G : forall m n t1 s1, sworks c t s n t1 s1 -> sys_work c s1 <= Z.of_nat m -> exists n' t' s', sworks c t s n' t' s' /\ wedged c t' s').
  { induction m as [|m IH]; intros n t1 s1 W B; (destruct (more_or_wedged c t1 s1) as [D|(t2 & a & s2 & L & E & N)]; [eauto|]);
      pose proof (sworks_reach _ _ _ _ _ _ _ R W) as R1; destruct (sys_work_step _ _ _ _ _ _ _ SZ R1 L E) as (_ & D); specialize (D N).
    - pose proof (sys_work_nonneg _ _ _ _ SZ (sr_step _ _ _ _ _ _ _ R1 L E)). lia.
    - apply (IH (n + 1) t2 s2); [eapply sw_step; eauto|]. lia. }
  apply (G (Z.to_nat (sys_work c s)) 0 t s); [constructor|]. pose proof (sys_work_nonneg _ _ _ _ SZ R). lia.
Qed.
