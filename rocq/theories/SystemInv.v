(** Invariants of a node: which process waits for which memory request, and what halting implies. *)
From Verif Require Import PyBase PyLemmas MemoryModel CoreModel DramModel DramSpec DramProofs RouterModel RouterSpec RouterProofs
  SystemModel SystemSpec SystemBase.
From Coq Require Import ZifyBool ZifyNat Permutation.

(** ** Requests and their owners *)
Definition rqkey : Type := Z * Z * rkind.
Record owned (sub comp : list req) (rq : Z -> option rqkey) (wr : Z -> list (Z * list (list Z))) : Prop := {
  ow_wait : forall r, In r sub -> In r comp \/ rq (q_core r) = Some (q_id r, q_start r, q_kind r);
  ow_req : forall k id a kd, rq k = Some (id, a, kd) -> exists r, In r sub /\ q_core r = k /\ q_id r = id /\ q_start r = a /\ q_kind r = kd;
  ow_log : forall r rows, In r sub -> q_kind r = RWrite rows -> In (q_start r, rows) (wr (q_core r));
  ow_write : forall k a rows, In (a, rows) (wr k) -> exists r, In r sub /\ q_core r = k /\ q_start r = a /\ q_kind r = RWrite rows }.

Definition kind_log (a : Z) (kd : rkind) : list (Z * list (list Z)) := match kd with RWrite rows => [(a, rows)] | _ => [] end.

Lemma owned_submit sub comp rq wr rq' wr' r : owned sub comp rq wr -> rq (q_core r) = None ->
  rq' (q_core r) = Some (q_id r, q_start r, q_kind r) -> (forall k, k <> q_core r -> rq' k = rq k) ->
  wr' (q_core r) = wr (q_core r) ++ kind_log (q_start r) (q_kind r) -> (forall k, k <> q_core r -> wr' k = wr k) ->
  owned (sub ++ [r]) comp rq' wr'.
Proof.
  intros [A B C D] N R1 R2 W1 W2. split.
  - intros x [X|[<-|[]]]%in_app_iff; [|auto]. destruct (A x X) as [Y|Y]; [auto|]. right.
    rewrite R2; [auto|]. intros E. rewrite E in Y. congruence.
  - intros k id a kd H. destruct (Z.eq_dec k (q_core r)) as [->|NE].
    + rewrite R1 in H. exists r. rewrite in_app_iff. cbn. assert (id = q_id r /\ a = q_start r /\ kd = q_kind r) by (repeat split; congruence). intuition.
    + rewrite R2 in H by auto. destruct (B _ _ _ _ H) as (x & X & Y). exists x. rewrite in_app_iff. auto.
  - intros x rows [X|[<-|[]]]%in_app_iff K.
    + destruct (Z.eq_dec (q_core x) (q_core r)) as [E|NE].
      * rewrite E, W1. apply in_app_iff. left. rewrite <- E. auto.
      * rewrite W2 by auto. auto.
    + rewrite W1, K. apply in_app_iff. right. now left.
  - intros k a rows H. destruct (Z.eq_dec k (q_core r)) as [->|NE].
    + rewrite W1 in H. apply in_app_iff in H as [H|H].
      * destruct (D _ _ _ H) as (x & X & Y). exists x. rewrite in_app_iff. auto.
      * destruct (q_kind r) eqn:K; cbn in H; [destruct H|]. destruct H as [[= <- <-]|[]]. exists r. rewrite in_app_iff. cbn. auto.
    + rewrite W2 in H by auto. destruct (D _ _ _ H) as (x & X & Y). exists x. rewrite in_app_iff. auto.
Qed.

Lemma nodup_id (l : list req) x y : NoDup (map q_id l) -> In x l -> In y l -> q_id x = q_id y -> x = y.
Proof.
  induction l as [|z l IH]; cbn; [tauto|]. intros N. inversion N as [|? ? N1 N2]; subst.
  intros [->|X] [->|Y] E; auto.
  - exfalso. apply N1. rewrite E. now apply in_map.
  - exfalso. apply N1. rewrite <- E. now apply in_map.
Qed.

Lemma owned_done sub comp rq wr rq' wr' k id a kd : owned sub comp rq wr -> rq k = Some (id, a, kd) ->
  NoDup (map q_id sub) -> (forall r, In r comp -> In r sub) -> (exists r, In r comp /\ q_id r = id) ->
  (forall k', k' <> k -> rq' k' = rq k') -> rq' k = None -> (forall k', wr' k' = wr k') -> owned sub comp rq' wr'.
Proof.
  intros [A B C D] H ND CS (r0 & I0 & E0) R2 R1 W. split.
  - intros x X. destruct (A x X) as [Y|Y]; [auto|]. destruct (Z.eq_dec (q_core x) k) as [E|NE].
    + left. assert (q_id x = id) by congruence. replace x with r0; [auto|]. eapply nodup_id; eauto. congruence.
    + right. rewrite R2 by auto. auto.
  - intros k' id' a' kd' H'. destruct (Z.eq_dec k' k) as [->|NE]; [congruence|]. rewrite R2 in H' by auto. eauto.
  - intros. rewrite W. eauto.
  - intros k' a' rows. rewrite W. eauto.
Qed.

Lemma owned_same sub comp comp' rq wr rq' wr' : owned sub comp rq wr -> (forall r, In r comp -> In r comp') ->
  (forall k, rq' k = rq k) -> (forall k, wr' k = wr k) -> owned sub comp' rq' wr'.
Proof.
  intros [A B C D] CS R W. split.
  - intros x X. rewrite R. destruct (A x X); auto.
  - intros k id a kd. rewrite R. auto.
  - intros. rewrite W. auto.
  - intros k a rows. rewrite W. auto.
Qed.

(** The request a core or the tile's program (number -1) waits for, and what it has written. *)
Definition core_req (p : cproc) : option rqkey :=
  match cp_phase p, cp_prog p with
  | PLoad id a, CLoad _ _ w v :: _ => Some (id, a, RRead w v)
  | PStore id, _ => match last (map Some (cp_writes p)) None with Some (a, rows) => Some (id, a, RWrite rows) | None => None end
  | _, _ => None
  end.
Definition ev_write (e : tevent) : list (Z * list (list Z)) := match e with EvRecv a _ _ _ rows => [(a, rows)] | _ => [] end.
Definition log_writes (l : list tevent) : list (Z * list (list Z)) := flat_map ev_write l.
Definition prog_req (t : tile) : option rqkey :=
  match t_phase t, t_prog t with
  | PSendRead id, TSend a _ w v :: _ => Some (id, a, RRead w v)
  | PRecvWrite id, TRecv a _ _ _ :: _ =>
      match last (map Some (log_writes (t_log t))) None with Some (a', rows) => Some (id, a', RWrite rows) | None => None end
  | _, _ => None
  end.
Definition agent_req (t : tile) (k : Z) : option rqkey :=
  if k =? -1 then prog_req t else if k <? 0 then None
  else match nth_error (t_cores t) (Z.to_nat k) with Some p => core_req p | None => None end.
Definition agent_writes (t : tile) (k : Z) : list (Z * list (list Z)) :=
  if k =? -1 then log_writes (t_log t) else if k <? 0 then []
  else match nth_error (t_cores t) (Z.to_nat k) with Some p => cp_writes p | None => [] end.

Definition core_shape (p : cproc) : Prop :=
  match cp_phase p with
  | PLoad id a => exists dest rd w v rest, cp_prog p = CLoad dest rd w v :: rest
  | PStoring a rows => exists dest rd w v rest, cp_prog p = CStore dest rd w v :: rest
  | PStore id => exists dest rd w v rest l x, cp_prog p = CStore dest rd w v :: rest /\ cp_writes p = l ++ [x]
  | _ => True
  end.
Definition prog_shape (t : tile) : Prop :=
  match t_phase t with
  | PNext => True
  | PSendRead id => exists a tg w v rest, t_prog t = TSend a tg w v :: rest
  | PSending rows => exists a tg w v rest, t_prog t = TSend a tg w v :: rest
  | PRecv got => exists a src w v rest, t_prog t = TRecv a src w v :: rest /\ 0 <= w /\ zlen got <= v
  | PRecvWrite id => exists a src w v rest l rows, t_prog t = TRecv a src w v :: rest /\ t_log t = l ++ [EvRecv a src w v rows]
  | PHalting => exists rest, t_prog t = THalt :: rest
  end.
Definition client_shape (c : sys_cfg) (i : Z) (r : router) (t : tile) : Prop :=
  match t_phase t with
  | PSending _ => r_client r = KIdle \/ exists since, r_client r = KAdding since
  | PRecv got => r_client r = KIdle \/ exists a src w v rest, t_prog t = TRecv a src w v :: rest /\ buffer_key (y_net c) i src = true /\
      zlen got < v /\ (r_client r = KReading src \/ exists d, r_client r = KGot src d)
  | PHalting => (r_client r = KIdle /\ r_running r = false) \/ (exists n, r_client r = KPolling n) \/ r_client r = KDraining
  | _ => r_client r = KIdle
  end.
Definition is_halt (e : tevent) : bool := match e with EvHalt => true | _ => false end.
Definition has_halted (t : tile) : bool := existsb is_halt (t_log t).
Record halt_shape (r : router) (t : tile) : Prop := {
  hs_dram : d_running (t_dram t) = negb (has_halted t);
  hs_router : r_running r = false -> has_halted t = true \/ t_phase t = PHalting;
  hs_router' : has_halted t = true -> r_running r = false;
  hs_cores : has_halted t = true \/ t_phase t = PHalting -> forallb halted (t_cores t) = true;
  hs_reads : has_halted t = true -> forall id, t_phase t <> PSendRead id /\ t_phase t <> PRecvWrite id }.

Record tinv (c : sys_cfg) (i : Z) (n : net) (t : tile) : Prop := {
  ti_own : owned (d_submitted (t_dram t)) (completed (d_history (t_dram t))) (agent_req t) (agent_writes t);
  ti_cores : Forall core_shape (t_cores t);
  ti_prog : prog_shape t;
  ti_client : client_shape c i (n_router n i) t;
  ti_halt : halt_shape (n_router n i) t }.

Lemma result_of_completed id h x : result_of id h = Some x -> exists r, In r (completed h) /\ q_id r = id.
Proof.
  induction h as [|e h IH]; cbn; [discriminate|]. destruct e as [vals|r g f data]; [auto|].
  destruct (q_id r =? id) eqn:E; intros H.
  - exists r. cbn. split; [auto|lia].
  - destruct (IH H) as (r' & I & J). exists r'. cbn. auto.
Qed.
Lemma result_of_entry id h x : result_of id h = Some x -> exists r g f h1 h2, h = h1 ++ EDone r g f x :: h2 /\ q_id r = id.
Proof.
  induction h as [|e h IH]; cbn; [discriminate|]. destruct e as [vals|r g f data].
  - intros H. destruct (IH H) as (r & g & f & h1 & h2 & -> & E). exists r, g, f, (EPreload vals :: h1), h2. auto.
  - destruct (q_id r =? id) eqn:E; intros H.
    + injection H as <-. exists r, g, f, [], h. split; [reflexivity|lia].
    + destruct (IH H) as (r' & g' & f' & h1 & h2 & -> & E'). exists r', g', f', (EDone r g f data :: h1), h2. auto.
Qed.

(** Steps of the memory controller. *)
Lemma dram_own_log lat now a d d' : dram_own a = true -> dstep lat now a d = Some d' ->
  d_submitted d' = d_submitted d /\ d_running d' = d_running d /\ exists h, d_history d' = d_history d ++ h.
Proof.
  unfold dstep. destruct (d_crash d); [discriminate|]. destruct a; try discriminate; intros _ H.
  - unfold dc_handle in H. destruct (negb _); [discriminate|]. destruct (d_queue d); [discriminate|].
    destruct (_ && _); injection H as <-; cbn; repeat split; exists []; now rewrite app_nil_r.
  - unfold dc_grant in H. destruct (d_bus d); [discriminate|]. destruct (d_granted d); [discriminate|].
    destruct (_ <? _); injection H as <-; cbn; repeat split; exists []; now rewrite app_nil_r.
  - unfold dc_finish in H. destruct (d_bus d) as [|r rest]; [discriminate|]. destruct (d_granted d); [|discriminate].
    destruct (_ <? _); [discriminate|]. destruct (q_kind r).
    + destruct (mem_read _ _ _ _) as ([x|e] & m); injection H as <-; cbn; repeat split; eauto. exists []; now rewrite app_nil_r.
    + destruct (mem_write _ _ _ _) as ([x|e] & m); [destruct (update_ready _ _ _)|]; injection H as <-; cbn; repeat split; eauto.
      exists []; now rewrite app_nil_r.
Qed.
Lemma dc_submit_log now k a kd d r d' : dc_submit now k a kd d = (Ok r, d') ->
  d_running d = true /\ d_running d' = true /\ d_submitted d' = d_submitted d ++ [r] /\ d_history d' = d_history d /\
  q_core r = k /\ q_start r = a /\ q_kind r = kd /\ d_crash d' = d_crash d.
Proof.
  unfold dc_submit. destruct (d_running d) eqn:R; cbn [negb]; [|discriminate]. cbv zeta. intros H.
  assert (d' = snd (@Ok req r, d')) by reflexivity. rewrite <- H in H0. cbn in H0. subst d'. injection H as <-. cbn. auto 9.
Qed.
Lemma dc_stop_log now d : d_running (dc_stop now d) = false /\ d_submitted (dc_stop now d) = d_submitted d /\
  d_history (dc_stop now d) = d_history d.
Proof. unfold dc_stop. destruct (d_running d) eqn:R; cbn; auto. Qed.

Section Steps.
Variables (c : sys_cfg) (j : job).
Hypothesis SZ : 0 <= y_size c.

Lemma sreach_dinv t s : sreach c j t s -> forall i, dinv (y_lat c) (y_size c) t (t_dram (s_tile s i)).
Proof.
  intros R i. destruct (projections _ _ _ _ R) as (_ & D & _). destruct (D i) as (t0 & L & RD).
  eapply inv_time; [exact L|]. now apply dreach_inv.
Qed.
Lemma dinv_comp t d : dinv (y_lat c) (y_size c) t d -> forall r, In r (completed (d_history d)) -> In r (d_submitted d).
Proof.
  intros I r H. eapply Permutation_in; [symmetry; exact (i_place _ _ _ _ I)|]. rewrite !in_app_iff. auto.
Qed.

Lemma agent_prog t : agent_req t (-1) = prog_req t. Proof. reflexivity. Qed.
Lemma agent_core t k : agent_req t (Z.of_nat k) = match nth_error (t_cores t) k with Some p => core_req p | None => None end.
Proof. unfold agent_req. replace (Z.of_nat k =? -1) with false by lia. replace (Z.of_nat k <? 0) with false by lia. now rewrite Nat2Z.id. Qed.
Lemma agent_core_w t k : agent_writes t (Z.of_nat k) = match nth_error (t_cores t) k with Some p => cp_writes p | None => [] end.
Proof. unfold agent_writes. replace (Z.of_nat k =? -1) with false by lia. replace (Z.of_nat k <? 0) with false by lia. now rewrite Nat2Z.id. Qed.

(** Only the log and the phase matter for the program, only the cores for the cores. *)
Lemma agent_other_prog t d pr ph lg k : k <> -1 -> agent_req (MkTile d (t_cores t) pr ph lg) k = agent_req t k /\
  agent_writes (MkTile d (t_cores t) pr ph lg) k = agent_writes t k.
Proof. intros N. unfold agent_req, agent_writes. cbn. replace (k =? -1) with false by lia. auto. Qed.
Lemma agent_other_core t d k p k' : k' <> Z.of_nat k ->
  agent_req (MkTile d (upd (t_cores t) k p) (t_prog t) (t_phase t) (t_log t)) k' = agent_req t k' /\
  agent_writes (MkTile d (upd (t_cores t) k p) (t_prog t) (t_phase t) (t_log t)) k' = agent_writes t k'.
Proof.
  intros N. unfold agent_req, agent_writes, prog_req. cbn. destruct (k' =? -1); [auto|]. destruct (k' <? 0) eqn:E; [auto|].
  rewrite nth_error_upd. replace (k =? Z.to_nat k')%nat with false; [auto|]. symmetry. apply Nat.eqb_neq. lia.
Qed.

Lemma tinv_router i n n' t : r_client (n_router n' i) = r_client (n_router n i) -> r_running (n_router n' i) = r_running (n_router n i) ->
  tinv c i n t -> tinv c i n' t.
Proof.
  intros E1 E2 [A B C D E]. split; auto.
  - unfold client_shape in *. rewrite E1, E2. exact D.
  - destruct E. split; auto; rewrite E2; auto.
Qed.

Lemma tinv_dram i n t lat now a d' : dram_own a = true -> dstep lat now a (t_dram t) = Some d' -> tinv c i n t ->
  tinv c i n (MkTile d' (t_cores t) (t_prog t) (t_phase t) (t_log t)).
Proof.
  intros O H [A B C D E]. destruct (dram_own_log _ _ _ _ _ O H) as (S & RU & h & HI). split; auto; cbn.
  - rewrite S, HI, completed_app. eapply owned_same; [exact A| |reflexivity|reflexivity]. intros r. rewrite in_app_iff. auto.
  - destruct E. split; auto. cbn. rewrite RU. auto.
Qed.

Lemma tinv_net_own i n n' t now a : net_own a = true -> nstep (y_net c) now a n = Some n' -> tinv c i n t -> tinv c i n' t.
Proof.
  intros O H T. destruct (Z.eq_dec i (tile_of a)) as [E|NE].
  2:{ destruct (net_client _ _ _ _ _ H i NE). eapply tinv_router; eauto. }
  destruct (net_own_client _ _ _ _ _ H O) as (K & RU). cbv zeta in *. rewrite <- E in *. destruct T as [A B C D F].
  split; auto.
  - unfold client_shape in *. destruct (t_phase t).
    + rewrite D in K. auto.
    + rewrite D in K. auto.
    + destruct D as [D|(x & D)]; rewrite D in K; [auto|]. destruct K as [K|K]; eauto.
    + destruct D as [D|(a0 & src & w & v & rest & P & BK & L & [D|(x & D)])]; rewrite D in K; [auto| |].
      * right. exists a0, src, w, v, rest. repeat split; auto.
      * right. exists a0, src, w, v, rest. repeat split; auto. right. eauto.
    + rewrite D in K. auto.
    + destruct D as [(D1 & D2)|[(x & D)|D]].
      * left. rewrite D1 in K. split; [auto|]. destruct RU as [->|(_ & ->)]; auto.
      * rewrite D in K. destruct K; auto.
      * rewrite D in K. destruct K as [K|(K & K2)]; auto.
  - destruct F as [F1 F2 F3 F4 F5]. split; auto.
    + intros N. destruct RU as [RU|(RU & _)]; [apply F2; congruence|]. right.
      unfold client_shape in D. destruct (t_phase t); try congruence.
      * destruct D as [D|(x & D)]; congruence.
      * destruct D as [D|(a0 & src & w & v & rest & P & BK & L & [D|(x & D)])]; congruence.
    + intros N. destruct RU as [RU|(_ & RU)]; [rewrite RU; auto|auto].
Qed.

Lemma last_snoc {A} (l : list A) x d : last (l ++ [x]) d = x.
Proof. apply last_last. Qed.

Lemma Forall_nth_error {A} (P : A -> Prop) l k x : Forall P l -> nth_error l k = Some x -> P x.
Proof. intros F E. rewrite Forall_forall in F. apply F. eapply nth_error_In; eauto. Qed.

Lemma forallb_upd_false {A} (f : A -> bool) l k x : nth_error l k = Some x -> f x = false -> forallb f l = false.
Proof.
  intros E F. destruct (forallb f l) eqn:G; [|reflexivity]. rewrite forallb_forall in G.
  apply nth_error_In in E. rewrite (G _ E) in F. discriminate.
Qed.

(** How a core's step changes what it waits for. *)
Inductive core_change (now k : Z) (d : dram) (p : cproc) : dram -> cproc -> Prop :=
| cc_submit a kd r d' p' : dc_submit now k a kd d = (Ok r, d') -> core_req p = None -> core_req p' = Some (q_id r, a, kd) ->
    cp_writes p' = cp_writes p ++ kind_log a kd -> halted p = false -> core_shape p' -> core_change now k d p d' p'
| cc_done id a kd x p' : core_req p = Some (id, a, kd) -> result_of id (d_history d) = Some x -> core_req p' = None ->
    cp_writes p' = cp_writes p -> halted p = false -> core_shape p' -> core_change now k d p d p'
| cc_same p' : core_req p = None -> core_req p' = None -> cp_writes p' = cp_writes p -> halted p = false -> core_shape p' ->
    core_change now k d p d p'.

Lemma core_step_change now k d p d' p' : core_shape p -> core_step_sys c now k d p = Go (d', p') -> core_change now k d p d' p'.
Proof.
  unfold core_step_sys, core_shape. intros S H. destruct (cp_phase p) as [|id a|a rows|id|] eqn:PH.
  - destruct (cp_prog p) as [|o rest] eqn:PR; [discriminate|].
    assert (X : match exec_local (y_core c) (cp_core p) o with
                | (Ok _, k1) => Go (d, MkCProc k1 rest PReady (cp_writes p))
                | (Raise e, _) => Crash e
                end = Go (d', p') -> core_change now k d p d' p').
    { intros X. destruct (exec_local _ _ _) as ([u|e] & k1); [|discriminate]. injection X as <- <-.
      apply cc_same; cbn; auto; unfold core_req, halted; rewrite PH; auto. }
    destruct o; auto; clear X.
    + destruct (load_address _ _ _) as ([a|e] & k1); [|discriminate].
      destruct (dc_submit _ _ _ _ _) as ([r|e] & d1) eqn:E; [|discriminate]. injection H as <- <-.
      eapply cc_submit; eauto; cbn; unfold core_req, halted; rewrite ?PH; auto; cbn; rewrite ?app_nil_r; auto. unfold core_shape. cbn. eauto 8.
    + destruct (store_request _ _ _ _ _ _) as ([(a & v)|e] & k1); [|discriminate]. injection H as <- <-.
      apply cc_same; cbn; auto; unfold core_req, halted; rewrite ?PH; auto. unfold core_shape. cbn. eauto 8.
    + injection H as <- <-. apply cc_same; cbn; auto; unfold core_req, halted; rewrite ?PH; auto.
  - destruct (result_of _ _) eqn:E; [|discriminate]. destruct S as (dest & rd & w & v & rest & PR). rewrite PR in H.
    destruct (load_finish _ _ _ _) as ([u|e] & k1); [|discriminate]. injection H as <- <-.
    eapply cc_done with (id := id); eauto; unfold core_req, halted, core_shape; rewrite ?PH, ?PR; cbn; auto.
  - destruct S as (dest & rd & w & v & rest & PR).
    destruct (dc_submit _ _ _ _ _) as ([r|e] & d1) eqn:E; [|discriminate]. injection H as <- <-.
    eapply cc_submit; eauto; unfold core_req, halted, core_shape; rewrite ?PH, ?PR; cbn; auto.
    + rewrite map_app. cbn [map]. rewrite last_last. auto.
    + exists dest, rd, w, v, rest. eauto.
  - destruct (result_of _ _) eqn:E; [|discriminate]. destruct S as (dest & rd & w & v & rest & l' & (xa & xr) & PR & WR). rewrite PR in H.
    injection H as <- <-.
    eapply cc_done with (id := id) (a := xa) (kd := RWrite xr); eauto; unfold core_req, halted, core_shape; rewrite ?PH, ?PR; cbn; auto.
    rewrite WR, map_app. cbn [map]. rewrite last_last. auto.
  - discriminate.
Qed.

Lemma tinv_core t0 i n t now k p d' p' : dinv (y_lat c) (y_size c) t0 (t_dram t) ->
  nth_error (t_cores t) k = Some p -> core_step_sys c now (Z.of_nat k) (t_dram t) p = Go (d', p') -> tinv c i n t ->
  tinv c i n (MkTile d' (upd (t_cores t) k p') (t_prog t) (t_phase t) (t_log t)).
Proof.
  intros I NE H [A B C D E]. pose proof (Forall_nth_error _ _ _ _ B NE) as SH. apply core_step_change in H; [|auto].
  set (t' := MkTile d' _ _ _ _).
  assert (NK : nth_error (upd (t_cores t) k p') k = Some p') by (rewrite nth_error_upd, Nat.eqb_refl, NE; auto).
  assert (RQ : agent_req t (Z.of_nat k) = core_req p) by (rewrite agent_core, NE; auto).
  assert (RQ' : agent_req t' (Z.of_nat k) = core_req p') by (rewrite agent_core; unfold t'; cbn; rewrite NK; auto).
  assert (WR : agent_writes t (Z.of_nat k) = cp_writes p) by (rewrite agent_core_w, NE; auto).
  assert (WR' : agent_writes t' (Z.of_nat k) = cp_writes p') by (rewrite agent_core_w; unfold t'; cbn; rewrite NK; auto).
  assert (OT : forall k', k' <> Z.of_nat k -> agent_req t' k' = agent_req t k' /\ agent_writes t' k' = agent_writes t k')
    by (intros; apply agent_other_core; auto).
  assert (HF : halted p = false /\ core_shape p' /\ d_running d' = d_running (t_dram t)).
  { destruct H; auto. apply dc_submit_log in H as (R1 & R2 & _). rewrite R1. auto. }
  destruct HF as (HF & SH' & RU). pose proof (forallb_upd_false _ _ _ _ NE HF) as NH.
  split; [|now apply Forall_upd|exact C|exact D|].
  - destruct H as [a kd r d' p' S R1 R2 W _ _|id a kd x p' R1 RO R2 W _ _|p' R1 R2 W _ _]; cbn.
    + apply dc_submit_log in S as (_ & _ & S1 & S2 & S3 & S4 & S5 & _). rewrite S1, S2.
      eapply owned_submit; [exact A|rewrite S3..]; try congruence.
      * intros. apply OT; auto.
      * intros. apply OT; auto.
    + eapply (owned_done _ _ _ _ _ _ (Z.of_nat k)); [exact A|rewrite RQ; exact R1|eapply inv_ids_nodup; eauto|eapply dinv_comp; eauto|
        eapply result_of_completed; eauto| | |].
      * intros. apply OT; auto.
      * congruence.
      * intros k'. destruct (Z.eq_dec k' (Z.of_nat k)) as [->|NE']; [congruence|apply OT; auto].
    + eapply owned_same; [exact A|auto| |]; intros k'; (destruct (Z.eq_dec k' (Z.of_nat k)) as [->|NE']; [congruence|apply OT; auto]).
  - destruct E as [E1 E2 E3 E4 E5]. split; cbn; auto.
    + rewrite RU. exact E1.
    + intros X. rewrite E4 in NH by exact X. discriminate.
Qed.

(** The tile's calls on its router. *)
Lemma call_submit cn now i tg row n n' : nstep cn now (NSubmit i tg row) n = Some n' ->
  r_client (n_router n' i) = KAdding now /\ r_running (n_router n i) = true /\ r_running (n_router n' i) = true.
Proof. intros H. step_cases H; look; rewrite ?Z.eqb_refl; cbn; auto. Qed.
Lemma call_read cn now i src n n' : nstep cn now (NRead i src) n = Some n' -> n_crash n' = None ->
  r_client (n_router n' i) = KReading src /\ r_running (n_router n' i) = r_running (n_router n i) /\ buffer_key cn i src = true.
Proof. intros H C0. step_cases H; look; rewrite ?Z.eqb_refl; cbn in *; try discriminate; auto. Qed.
Lemma call_got cn now i n n' : nstep cn now (NGot i) n = Some n' ->
  r_client (n_router n' i) = KIdle /\ r_running (n_router n' i) = r_running (n_router n i).
Proof. intros H. step_cases H; look; rewrite ?Z.eqb_refl; cbn; auto. Qed.
Lemma call_halt cn now i n n' : nstep cn now (NHalt i) n = Some n' ->
  (r_client (n_router n' i) = KPolling now /\ r_running (n_router n' i) = true /\ r_running (n_router n i) = true) \/
  (r_client (n_router n' i) = KIdle /\ r_running (n_router n' i) = false /\ r_running (n_router n i) = false).
Proof. intros H. step_cases H; look; rewrite ?Z.eqb_refl; cbn; auto. Qed.

Lemma log_writes_app l1 l2 : log_writes (l1 ++ l2) = log_writes l1 ++ log_writes l2.
Proof. apply flat_map_app. Qed.
Lemma has_halted_app l1 l2 : existsb is_halt (l1 ++ l2) = existsb is_halt l1 || existsb is_halt l2.
Proof. apply existsb_app. Qed.

Lemma owned_prog_same sub comp t d pr ph lg : owned sub comp (agent_req t) (agent_writes t) ->
  prog_req t = None -> prog_req (MkTile d (t_cores t) pr ph lg) = None -> log_writes lg = log_writes (t_log t) ->
  owned sub comp (agent_req (MkTile d (t_cores t) pr ph lg)) (agent_writes (MkTile d (t_cores t) pr ph lg)).
Proof.
  intros A P1 P2 W. eapply owned_same; [exact A|auto| |]; intros k.
  - destruct (Z.eq_dec k (-1)) as [->|N]; [rewrite !agent_prog; congruence|apply agent_other_prog; auto].
  - destruct (Z.eq_dec k (-1)) as [->|N]; [exact W|apply agent_other_prog; auto].
Qed.
Lemma owned_prog_done sub comp t d pr ph lg id a kd : owned sub comp (agent_req t) (agent_writes t) ->
  NoDup (map q_id sub) -> (forall r, In r comp -> In r sub) -> (exists r, In r comp /\ q_id r = id) ->
  prog_req t = Some (id, a, kd) -> prog_req (MkTile d (t_cores t) pr ph lg) = None -> log_writes lg = log_writes (t_log t) ->
  owned sub comp (agent_req (MkTile d (t_cores t) pr ph lg)) (agent_writes (MkTile d (t_cores t) pr ph lg)).
Proof.
  intros A ND CS EX P1 P2 W. eapply (owned_done _ _ _ _ _ _ (-1)); [exact A|exact P1|exact ND|exact CS|exact EX| |exact P2|].
  - intros k N. apply agent_other_prog; auto.
  - intros k. destruct (Z.eq_dec k (-1)) as [->|N]; [exact W|apply agent_other_prog; auto].
Qed.
Lemma owned_prog_submit sub comp t d pr ph lg r : owned sub comp (agent_req t) (agent_writes t) ->
  q_core r = -1 -> prog_req t = None -> prog_req (MkTile d (t_cores t) pr ph lg) = Some (q_id r, q_start r, q_kind r) ->
  log_writes lg = log_writes (t_log t) ++ kind_log (q_start r) (q_kind r) ->
  owned (sub ++ [r]) comp (agent_req (MkTile d (t_cores t) pr ph lg)) (agent_writes (MkTile d (t_cores t) pr ph lg)).
Proof.
  intros A Q P1 P2 W. eapply owned_submit; [exact A|rewrite Q..].
  - exact P1.
  - exact P2.
  - intros k N. apply agent_other_prog; auto.
  - exact W.
  - intros k N. apply agent_other_prog; auto.
Qed.

Lemma tinv_tile t0 i n t now n' t' : dinv (y_lat c) (y_size c) t0 (t_dram t) -> tile_go c now i n t n' t' -> tinv c i n t -> tinv c i n' t'.
Proof.
  intros I G T. pose proof (inv_ids_nodup _ _ _ _ I) as ND. pose proof (dinv_comp _ _ I) as CS.
  destruct T as [A B C D E]. destruct E as [E1 E2 E3 E4 E5]. unfold client_shape, prog_shape, has_halted in *. destruct G.
  - (* send_read *) rewrite H0 in *. apply dc_submit_log in H1 as (R1 & R2 & S1 & S2 & S3 & S4 & S5 & _).
    assert (HH : existsb is_halt (t_log t) = false) by (rewrite R1 in E1; destruct (existsb _ _); [discriminate|auto]).
    split; [|exact B| | |].
    + cbn. rewrite S1, S2. apply owned_prog_submit; auto; unfold prog_req; cbn; rewrite ?H, ?H0; auto; rewrite S4, S5; cbn; rewrite ?app_nil_r; auto.
    + unfold prog_shape. cbn. rewrite H. eauto 7.
    + unfold client_shape. cbn. auto.
    + split; cbn; unfold has_halted; cbn; rewrite ?HH, ?R2; try discriminate; auto.
      * intros X. destruct (E2 X) as [Y|Y]; [congruence|discriminate].
      * intros [X|X]; discriminate.
  - (* send_rows *) rewrite H0 in *. split; [|exact B| | |].
    + cbn. eapply owned_prog_done; eauto; try (eapply result_of_completed; eauto).
      * unfold prog_req. rewrite H0, H. reflexivity.
      * rewrite log_writes_app. cbn. now rewrite app_nil_r.
    + unfold prog_shape. cbn. rewrite H. eauto 7.
    + unfold client_shape. cbn. auto.
    + split; unfold has_halted; cbn; rewrite ?has_halted_app; cbn; rewrite ?orb_false_r; auto.
      * intros X. destruct (E2 X) as [Y|Y]; [auto|discriminate].
      * intros [X|X]; [auto|discriminate].
      * intros X id'. split; discriminate.
  - (* send_one *) rewrite H0 in *. apply call_submit in H2 as (K1 & K2 & K3). split; [|exact B| | |].
    + unfold set_phase. apply owned_prog_same; auto. unfold prog_req. rewrite H0. auto.
    + unfold prog_shape. cbn. rewrite H. eauto 7.
    + unfold client_shape. cbn. right. eauto.
    + split; unfold has_halted; cbn; auto.
      * rewrite K3. discriminate.
      * intros X. rewrite (E3 X) in K2. discriminate.
      * intros [X|X]; [auto|discriminate].
      * intros X id'. split; discriminate.
  - (* send_end *) rewrite H0 in *. split; [|exact B| | |].
    + unfold next_op. apply owned_prog_same; auto.
      * unfold prog_req. rewrite H0. auto.
      * now rewrite app_nil_r.
    + exact Logic.I.
    + unfold client_shape. cbn. auto.
    + split; unfold has_halted; cbn; rewrite ?app_nil_r; auto.
      * intros X. destruct (E2 X) as [Y|Y]; [auto|discriminate].
      * intros [X|X]; [auto|discriminate].
      * intros X id'. split; discriminate.
  - (* recv *) rewrite H0 in *. split; [|exact B| | |].
    + unfold set_phase. apply owned_prog_same; auto. unfold prog_req. rewrite H0. auto.
    + unfold prog_shape. cbn. rewrite H. exists addr, src, w, v, rest. auto.
    + unfold client_shape. cbn. auto.
    + split; unfold has_halted; cbn; auto.
      * intros X. destruct (E2 X) as [Y|Y]; [auto|discriminate].
      * intros [X|X]; [auto|discriminate].
      * intros X id'. split; discriminate.
  - (* recv_ask *) rewrite H0 in *. apply call_read in H3 as (K1 & K2 & K3); [|auto]. split; [exact A|exact B| | |].
    + unfold prog_shape. rewrite H0. exact C.
    + unfold client_shape. rewrite H0, K1. right. exists addr, src, w, v, rest. auto.
    + split; unfold has_halted; rewrite ?K2; rewrite ?H0; auto.
  - (* recv_write *) rewrite H0 in *. apply dc_submit_log in H3 as (R1 & R2 & S1 & S2 & S3 & S4 & S5 & _).
    assert (HH : existsb is_halt (t_log t) = false) by (rewrite R1 in E1; destruct (existsb _ _); [discriminate|auto]).
    split; [|exact B| | |].
    + cbn. rewrite S1, S2. apply owned_prog_submit; auto; unfold prog_req; cbn; rewrite ?H, ?H0; auto; rewrite S4, S5; cbn; rewrite ?app_nil_r; auto.
      * rewrite log_writes_app. cbn. rewrite map_app. cbn [map]. rewrite last_last. auto.
      * rewrite log_writes_app. reflexivity.
    + unfold prog_shape. cbn. rewrite H. exists addr, src, w, v, rest. eauto.
    + unfold client_shape. cbn. auto.
    + split; cbn; unfold has_halted; cbn; rewrite ?has_halted_app; cbn; rewrite ?orb_false_r; rewrite ?HH, ?R2; try discriminate; auto.
      * intros X. destruct (E2 X) as [Y|Y]; [congruence|discriminate].
      * intros [X|X]; discriminate.
  - (* recv_got *) rewrite H0 in *. apply call_got in H3 as (K1 & K2). split; [|exact B| | |].
    + unfold set_phase. apply owned_prog_same; auto. unfold prog_req. rewrite H0. auto.
    + unfold prog_shape. cbn. rewrite H. destruct D as [D|(a0 & s0 & w0 & v0 & r0 & P & _ & L & _)]; [congruence|].
      rewrite H in P. injection P as <- <- <- <- <-. exists addr, src, w, v, rest.
      destruct C as (a1 & s1 & w1 & v1 & r1 & P & W & _). rewrite H in P. injection P as <- <- <- <- <-.
      split; [auto|]. split; [auto|]. rewrite zlen_app. unfold zlen in *. cbn. lia.
    + unfold client_shape. cbn. auto.
    + split; unfold has_halted; cbn; rewrite ?K2; auto.
      * intros X. destruct (E2 X) as [Y|Y]; [auto|discriminate].
      * intros [X|X]; [auto|discriminate].
      * intros X id'. split; discriminate.
  - (* recv_bad *) rewrite H0 in *. apply call_got in H3 as (K1 & K2). split; [|exact B| | |].
    + unfold next_op. apply owned_prog_same; auto.
      * unfold prog_req. rewrite H0. auto.
      * rewrite log_writes_app. cbn. now rewrite app_nil_r.
    + exact Logic.I.
    + unfold client_shape. cbn. auto.
    + split; unfold has_halted; cbn; rewrite ?has_halted_app, ?K2; cbn; rewrite ?orb_false_r; auto.
      * intros X. destruct (E2 X) as [Y|Y]; [auto|discriminate].
      * intros [X|X]; [auto|discriminate].
      * intros X id'. split; discriminate.
  - (* recv_end *) rewrite H0 in *. destruct C as (a0 & s0 & w0 & v0 & r0 & l & rows & P & L). split; [|exact B| | |].
    + cbn. unfold next_op. eapply owned_prog_done with (id := id); eauto; try (eapply result_of_completed; eauto).
      * unfold prog_req. rewrite H0, H, L, log_writes_app, map_app. cbn [log_writes flat_map ev_write app map]. rewrite last_last. reflexivity.
      * now rewrite app_nil_r.
    + exact Logic.I.
    + unfold client_shape. cbn. auto.
    + split; unfold has_halted; cbn; rewrite ?app_nil_r; auto.
      * intros X. destruct (E2 X) as [Y|Y]; [auto|discriminate].
      * intros [X|X]; [auto|discriminate].
      * intros X id'. split; discriminate.
  - (* halt *) rewrite H0 in *. apply call_halt in H2. split; [|exact B| | |].
    + unfold set_phase. apply owned_prog_same; auto. unfold prog_req. rewrite H0. auto.
    + unfold prog_shape. cbn. rewrite H. eauto.
    + unfold client_shape. cbn. destruct H2 as [(X & Y & _)|(X & Y & _)]; eauto.
    + split; unfold has_halted; cbn; auto.
      * intros X. apply E3 in X. destruct H2 as [(_ & _ & Y)|(_ & Y & _)]; congruence.
      * intros X id'. split; discriminate.
  - (* halt_end *) rewrite H0 in *. destruct (dc_stop_log now (t_dram t)) as (S1 & S2 & S3). split; [|exact B| | |].
    + cbn. rewrite S2, S3. apply owned_prog_same; auto.
      * unfold prog_req. rewrite H0. auto.
      * rewrite log_writes_app. cbn. now rewrite app_nil_r.
    + exact Logic.I.
    + unfold client_shape. cbn. auto.
    + split; unfold has_halted; cbn; rewrite ?has_halted_app; cbn; rewrite ?orb_true_r; auto.
      * intros _. destruct D as [(_ & D)|[(x & D)|D]]; congruence.
      * intros X id'. split; discriminate.
Qed.

Lemma sreach_tinv t s : sreach c j t s -> forall i, tinv c i (s_net s) (s_tile s i).
Proof.
  induction 1 as [t|t t' a s s' R IH T H]; intros i.
  - split; cbn.
    + assert (W : forall k, agent_req (s_tile (sys_start c t j) i) k = None /\ agent_writes (s_tile (sys_start c t j) i) k = []).
      { intros k. unfold agent_req, agent_writes. cbn. destruct (k =? -1); [auto|]. destruct (k <? 0); [auto|].
        rewrite nth_error_map. destruct (nth_error _ _); cbn; auto. }
      assert (S : d_submitted (start_dram c t (j_activation j) i) = []).
      { unfold start_dram, dc_run. destruct (i =? 0); [|reflexivity]. destruct (dc_preload _ _) as [d|] eqn:E; [|reflexivity].
        unfold dc_preload in E. cbn in E. destruct (_ <? _) in E; [discriminate|]. injection E as <-. reflexivity. }
      rewrite S. split.
      * intros r [].
      * intros k id a kd X. change (agent_req (s_tile (sys_start c t j) i) k = Some (id, a, kd)) in X. rewrite (proj1 (W k)) in X. discriminate.
      * intros r rows [].
      * intros k a rows X. change (In (a, rows) (agent_writes (s_tile (sys_start c t j) i) k)) in X. rewrite (proj2 (W k)) in X. destruct X.
    + apply Forall_map, Forall_forall. intros; exact Logic.I.
    + exact Logic.I.
    + reflexivity.
    + split; cbn; try discriminate.
      * unfold start_dram, dc_run. destruct (i =? 0); [|reflexivity]. destruct (dc_preload _ _) as [d|] eqn:E; [|reflexivity].
        unfold dc_preload in E. cbn in E. destruct (_ <? _) in E; [discriminate|]. injection E as <-. reflexivity.
      * intros [X|X]; discriminate.
  - apply sstep_go in H as (CR & G). pose proof (sreach_dinv _ _ R) as DI.
    destruct G as [i0 a0 d K O HD HC HN HT|a0 n O HS HC HN HT|i0 k p d p' K KK HP HS HC HN HT|i0 n tt K HS HC HN HT|i0 k p e K KK HP HS ->|i0 e K HS ->].
    + rewrite HN, HT. destruct (Z.eq_dec i i0) as [->|NE]; [rewrite set_fun_eq|rewrite set_fun_neq by auto; auto].
      eapply tinv_dram; eauto.
    + rewrite HN, HT. eapply tinv_net_own; eauto.
    + rewrite HN, HT. destruct (Z.eq_dec i i0) as [->|NE]; [rewrite set_fun_eq|rewrite set_fun_neq by auto; auto].
      eapply tinv_core; eauto. rewrite Z2Nat.id by lia. exact HS.
    + apply tile_step_go in HS. rewrite HN, HT. destruct (Z.eq_dec i i0) as [->|NE]; [rewrite set_fun_eq|rewrite set_fun_neq by auto].
      * eapply tinv_tile; eauto.
      * apply tile_go_net in HS as [->|(a1 & E & _ & HS & _)]; [auto|].
        assert (NE' : i <> tile_of a1) by congruence. destruct (net_client _ _ _ _ _ HS i NE'). eapply tinv_router; eauto.
    + apply IH.
    + apply IH.
Qed.
End Steps.
