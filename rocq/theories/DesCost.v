(** How many events a state of the event simulation can still lead to, apart from those of the monitor and of polling. *)
From Verif Require Import PyBase PyLemmas CoreModel DramModel DramProofs RouterModel SystemModel DesModel.

Lemma len_cons {A} (x : A) l : zlen (x :: l) = zlen l + 1.
Proof. unfold zlen. cbn [length]. lia. Qed.
Lemma len_app {A} (a b : list A) : zlen (a ++ b) = zlen a + zlen b.
Proof. unfold zlen. rewrite app_length. lia. Qed.
Lemma len_snoc {A} (a : list A) x : zlen (a ++ [x]) = zlen a + 1.
Proof. rewrite len_app. reflexivity. Qed.
Lemma len_nil {A} : zlen (@nil A) = 0.
Proof. reflexivity. Qed.
Definition tick (e : ev) : bool := match e with VMonitor | VPoll _ | VPollTime _ => true | _ => false end.
(** The end of a tile counts twice: it may be the last one. *)
Definition weight (e : ev) : Z := if tick e then 0 else match e with VTileEnd _ => 2 | _ => 1 end.
Fixpoint total {A} (f : A -> Z) (l : list A) : Z := match l with [] => 0 | a :: r => f a + total f r end.
Lemma total_app {A} (f : A -> Z) a b : total f (a ++ b) = total f a + total f b.
Proof. induction a as [|x a IH]; cbn; lia. Qed.
Lemma total_nonneg {A} (f : A -> Z) l : (forall a, 0 <= f a) -> 0 <= total f l.
Proof. intros H. induction l as [|x l IH]; cbn; [lia|]. specialize (H x). lia. Qed.
Lemma total_le {A} (f g : A -> Z) l : (forall a, f a <= g a) -> total f l <= total g l.
Proof. intros H. induction l as [|x l IH]; cbn; [lia|]. specialize (H x). lia. Qed.
Lemma total_upd {A} (f : A -> Z) l k x y : nth_error l k = Some x -> total f (upd l k y) = total f l - f x + f y.
Proof. revert k. induction l as [|a l IH]; intros [|k] H; try discriminate; cbn in *; [injection H as ->; lia|]. rewrite (IH k H). lia. Qed.

Definition cnt (l : sched) : Z := total (fun z => weight (snd z)) l.
Lemma cnt_app a b : cnt (a ++ b) = cnt a + cnt b.
Proof. apply total_app. Qed.
Lemma cnt_cons z l : cnt (z :: l) = weight (snd z) + cnt l.
Proof. reflexivity. Qed.
Lemma cnt_nil : cnt [] = 0.
Proof. reflexivity. Qed.
Lemma weight_nonneg e : 0 <= weight e <= 2.
Proof. destruct e; cbn; lia. Qed.
Lemma cnt_nonneg l : 0 <= cnt l.
Proof. apply total_nonneg. intros z. apply weight_nonneg. Qed.

Section Cost.
  Context {K M : Type}.
  Variable P : machine K M.
  Variable c : sys_cfg.
  Notation dcore := (dcore K). Notation dctl := (dctl M). Notation dtile := (dtile K M). Notation dnode := (dnode K M).

  Definition spends {A} (cost : A -> Z) (a : A) (r : dres A) : Prop := match r with DGo a' new => cost a' + cnt new <= cost a | _ => True end.

  (** *** Cores *)
  Definition stage_cost (s : st) (g : gstate) : Z :=
    match s, g with
    | SF, GGot _ => 21 | SF, GWork _ | SF, GPutting _ => 20 | SF, GPut _ => 1
    | SD, GGot _ => 17 | SD, GWork _ | SD, GPutting _ => 16 | SD, GPut _ => 1
    | SX, GGot _ => 13 | SX, GWork _ => 1
    | _, _ => 0
    end.
  Local Arguments stage_cost s !g.
  Definition xp_cost (p : xphase) : Z :=
    match p with
    | XLoading _ => 3 | XLoadNew _ => 2 | XLoadTiming _ => 1
    | XStoreNew _ _ => 11 | XStoreTiming _ _ => 10 | XStoring _ => 1
    | _ => 0
    end.
  Definition core_cost (x : dcore) : Z :=
    (match k_proc x with CNew => 5 | CRunning => 1 | _ => 0 end) + 23 * zlen (k_wait x)
    + 22 * zlen (t_f (k_buf x)) + 18 * zlen (t_d (k_buf x)) + 14 * zlen (t_x (k_buf x))
    + stage_cost SF (t_f (k_stage x)) + stage_cost SD (t_d (k_stage x)) + stage_cost SX (t_x (k_stage x))
    + xp_cost (k_xp x) + (match k_mon x with MEnd => 0 | _ => 1 end).
  (** *** Memory controllers *)
  Definition req_cost (m : M) (r : req) : Z := if is_read r && negb (m_ready P m r) then 8 else 6.
  Definition ctl_cost (d : dctl) : Z :=
    total (req_cost (c_mem d)) (c_items d) + (match c_handler d with HGot r => req_cost (c_mem d) r - 1 | _ => 0 end)
    + 7 * zlen (c_pending d) + 4 * zlen (c_starting d) + (match c_bus d with BFree => 0 | BGranted _ => 3 | BTiming _ _ => 2 end)
    + 4 * zlen (c_waiting d).
  (** *** Routers *)
  Definition sender_cost (z : sstate) : Z :=
    match z with
    | ZGot _ _ => 5 | ZTravel _ _ _ => 4 | ZOffering _ _ | ZPutting _ _ => 3 | ZPut _ _ => 2 | ZArrived _ _ => 1
    | _ => 0
    end.
  Definition rt_cost (u : drt) : Z := 6 * zlen (u_queue u) + sender_cost (u_sender u).
  (** *** Tiles *)
  Definition op_cost (o : top) : Z :=
    match o with
    | TSend _ _ _ vec => 10 + 10 * Z.max 0 vec
    | TRecv _ _ _ vec => 10 + 3 * Z.max 0 vec
    | THalt => 7
    end.
  Definition vec_of (o : top) : Z := match o with TSend _ _ _ v | TRecv _ _ _ v => v | THalt => 0 end.
  Definition phase_cost (p : dphase) (o : top) : Z :=
    match p with
    | TNew | TOpNew => op_cost o
    | TSendRead _ => 1 + 10 * Z.max 0 (vec_of o)
    | TAddNew _ rest => 10 + 10 * zlen rest
    | TAdding rest _ => 2 + 10 * zlen rest
    | TAdded rest => 1 + 10 * zlen rest
    | TReadNew got | TReading _ got => 12 + 3 * Z.max 0 (vec_of o - zlen got - 1)
    | TPopped _ got _ => 11 + 3 * Z.max 0 (vec_of o - zlen got - 1)
    | TReadEnd _ got _ => 10 + 3 * Z.max 0 (vec_of o - zlen got - 1)
    | TRecvWrite _ => 1
    | THaltWait => 7 | THaltAll => 6 | TStopNew => 5 | TPolling _ => 5 | TEmptied => 4 | TSentWait _ => 4 | TStopEnd => 2
    | TOpEnd _ | TDone => 0
    end.
  Definition head_cost (p : dphase) (prog : list top) : Z := match prog with [] => phase_cost p THalt | o :: _ => phase_cost p o end.
  Definition run_cost (p : dphase) (prog : list top) : Z :=
    match p with
    | TDone => 0
    | TNew => 2 + total (fun o => 1 + op_cost o) prog
    | _ => 2 + head_cost p prog + total (fun o => 1 + op_cost o) (tl prog)
    end.
  Definition tile_cost (t : dtile) : Z :=
    ctl_cost (x_ctl t) + rt_cost (x_rt t) + total core_cost (x_cores t) + run_cost (x_phase t) (x_prog t)
    + (match x_phase t with TNew => zlen (x_cores t) + 2 | _ => 0 end).
  Definition node_cost (n : dnode) : Z :=
    total tile_cost (z_tiles n) + (match z_fin n with FRunning => 3 | FNode => 1 | _ => 0 end).

  Local Opaque zlen Z.mul Z.add cnt.
  Ltac ct := rewrite ?cnt_app, ?cnt_cons, ?cnt_nil, ?len_cons, ?len_nil; cbn [snd soon start later weight tick].
  Lemma stage_nonneg s g : 0 <= stage_cost s g.
  Proof. destruct s, g; cbn; lia. Qed.
  Lemma xp_nonneg p : 0 <= xp_cost p.
  Proof. destruct p; cbn; lia. Qed.

  Definition saves {A} (cost : A -> Z) (a : A) (p : A * sched) : Prop := cost (fst p) + cnt (snd p) <= cost a.
  Lemma buf_get_saves i k s x : saves core_cost x (buf_get i k s x).
  Proof.
    unfold saves, buf_get. destruct (tget (k_stage x) s) eqn:E; try (cbn [fst snd]; ct; lia). destruct (tget (k_buf x) s) as [|o r] eqn:E2; [cbn [fst snd]; ct; lia|].
    destruct s; cbn in E, E2; unfold core_cost; cbn; rewrite E, E2; ct; cbn; lia.
  Qed.
  Lemma buf_put_saves i k s x : saves core_cost x (buf_put i k s x).
  Proof.
    unfold saves, buf_put. destruct (tget (k_buf x) s) as [|o r] eqn:E; [|cbn [fst snd]; ct; lia]. destruct s; cbn in E.
    - destruct (k_wait x) eqn:E2; [cbn [fst snd]; ct; lia|]. unfold core_cost. cbn. rewrite E, E2. ct. lia.
    - destruct (t_f (k_stage x)) eqn:E2; try (cbn [fst snd]; ct; lia). unfold core_cost. cbn. rewrite E, E2. ct. cbn. lia.
    - destruct (t_d (k_stage x)) eqn:E2; try (cbn [fst snd]; ct; lia). unfold core_cost. cbn. rewrite E, E2. ct. cbn. lia.
  Qed.
  Lemma stage_get_saves i k s x : saves core_cost x (stage_get i k s x).
  Proof.
    unfold stage_get. pose proof (buf_get_saves i k s (set_stage x s GWaiting)) as H. unfold saves in *. enough (core_cost (set_stage x s GWaiting) <= core_cost x) by lia.
    pose proof (stage_nonneg SF (t_f (k_stage x))). pose proof (stage_nonneg SD (t_d (k_stage x))). pose proof (stage_nonneg SX (t_x (k_stage x))).
    unfold core_cost. destruct s; cbn; lia.
  Qed.
  Lemma stage_end_saves i k s o x : 1 <= stage_cost s (tget (k_stage x) s) -> saves core_cost x (stage_end i k s o x).
  Proof.
    intros H. unfold stage_end. destruct (is_hlt o); [|apply stage_get_saves]. unfold saves. cbn [fst snd]. ct. unfold core_cost. destruct s; cbn in *; lia.
  Qed.
  Lemma go_spends {A} (cost : A -> Z) a p : saves cost a p -> spends cost a (go p).
  Proof. auto. Qed.
  Lemma stage_start_spends i k s x : spends core_cost x (stage_start i k s x).
  Proof. unfold stage_start. destruct (tget (k_stage x) s); try exact I. apply go_spends, stage_get_saves. Qed.
  Lemma core_start_spends b now i k x : spends core_cost x (core_start b now i k x).
  Proof.
    unfold core_start. destruct (k_proc x) eqn:E; try exact I. destruct (negb (now =? b)); [exact I|]. pose proof (buf_put_saves i k SF (set_proc x CRunning (k_cycles x))) as H.
    destruct (buf_put i k SF (set_proc x CRunning (k_cycles x))) as [x1 l]. unfold saves in H. cbn [fst snd] in H. cbn [spends]. ct. revert H. unfold core_cost at 2 4. rewrite E. cbn. lia.
  Qed.
  Lemma on_put_spends i k s x : spends core_cost x (on_put i k s x).
  Proof.
    unfold on_put. pose proof (buf_get_saves i k s x) as H. destruct (buf_get i k s x) as [x1 l1]. unfold saves in H. cbn [fst snd] in H. destruct s.
    - exact H.
    - destruct (t_f (k_stage x1)) eqn:E; try exact I. pose proof (stage_end_saves i k SF o x1) as H2. destruct (stage_end i k SF o x1) as [x2 l2]. unfold saves in H2. cbn in H2 |- *. rewrite E in H2. cbn in H2. ct. lia.
    - destruct (t_d (k_stage x1)) eqn:E; try exact I. pose proof (stage_end_saves i k SD o x1) as H2. destruct (stage_end i k SD o x1) as [x2 l2]. unfold saves in H2. cbn in H2 |- *. rewrite E in H2. cbn in H2. ct. lia.
  Qed.
  Lemma mon_from_saves i k s x : k_mon x <> MEnd -> saves core_cost x (mon_from i k s x).
  Proof.
    intros H. unfold saves, mon_from, mon_wait, mon_end. destruct s; repeat match goal with |- context [match ?a with Processed => _ | _ => _ end] => destruct a end; cbn [fst snd]; ct; unfold core_cost; cbn; destruct (k_mon x); try contradiction; lia.
  Qed.
  Lemma pipe_start_spends i k x : spends core_cost x (pipe_start i k x).
  Proof. unfold pipe_start. destruct (k_mon x) eqn:E; try exact I. apply go_spends, mon_from_saves. congruence. Qed.
  Lemma stage_done_spends i k s x : spends core_cost x (stage_done i k s x).
  Proof.
    unfold stage_done. destruct (tget (k_comp x) s); try exact I. assert (E : core_cost (set_comp x s Processed) = core_cost x) by reflexivity.
    assert (Z0 : spends core_cost x (DGo (set_comp x s Processed) [])) by (cbn; ct; lia).
    destruct (k_mon x) eqn:EM; auto. destruct (st_eqb s s0); auto. pose proof (mon_from_saves i k s (set_comp x s Processed)) as H. unfold saves in H. rewrite E in H. unfold spends, go. apply H. cbn. congruence.
  Qed.
  Lemma on_time_spends i k s x : spends core_cost x (on_time i k s x).
  Proof.
    unfold on_time. destruct (tget (k_stage x) s) eqn:E; try (destruct s; exact I). destruct s; cbn in E.
    - apply go_spends. unfold stage_put. pose proof (buf_put_saves i k SD (set_stage x SF (GPutting o))) as H. unfold saves in *. revert H. unfold core_cost at 2 4. cbn. rewrite E. cbn. lia.
    - apply go_spends. unfold stage_put. pose proof (buf_put_saves i k SX (set_stage x SD (GPutting o))) as H. unfold saves in *. revert H. unfold core_cost at 2 4. cbn. rewrite E. cbn. lia.
    - destruct (k_xp x) eqn:EX; try exact I. apply go_spends. pose proof (stage_end_saves i k SX o (set_xp x XNone)) as H. unfold saves in *. cbn in H. rewrite E in H. cbn in H. specialize (H ltac:(lia)).
      revert H. unfold core_cost at 2 4. cbn. rewrite EX. cbn. lia.
  Qed.
  Lemma memory_end_spends i k b x : spends core_cost x (memory_end i k b x).
  Proof.
    unfold memory_end. assert (G : forall o, t_x (k_stage x) = GWork o -> spends core_cost x (go (stage_end i k SX o (set_xp x XNone)))).
    { intros o E. apply go_spends. pose proof (stage_end_saves i k SX o (set_xp x XNone)) as H. unfold saves in *. cbn in H. rewrite E in H. cbn in H. specialize (H ltac:(lia)).
      pose proof (xp_nonneg (k_xp x)). revert H. unfold core_cost at 2 4. cbn. lia. }
    destruct (k_xp x); try exact I; destruct (t_x (k_stage x)) eqn:E; try exact I; destruct b; try exact I; auto.
  Qed.
  Lemma timeout_spends {A} (cost : A -> Z) (a a' : A) d e : cost a' + weight e <= cost a -> spends cost a (timeout d e a').
  Proof. intros H. unfold timeout. destruct (d <? 0); [exact I|]. cbn [spends]. ct. lia. Qed.
  Lemma load_new_spends i k x : spends core_cost x (load_new c i k x).
  Proof. unfold load_new. destruct (k_xp x) eqn:E; try exact I. destruct (t_x (k_stage x)) eqn:E2; try exact I. destruct o; try exact I. apply timeout_spends. unfold core_cost. cbn. rewrite E. cbn. lia. Qed.
  Lemma store_new_spends i k x : spends core_cost x (store_new c i k x).
  Proof. unfold store_new. destruct (k_xp x) eqn:E; try exact I. destruct (t_x (k_stage x)) eqn:E2; try exact I. destruct o; try exact I. apply timeout_spends. unfold core_cost. cbn. rewrite E. cbn. lia. Qed.
  Lemma load_time_spends i k x : spends core_cost x (load_time P i k x).
  Proof.
    unfold load_time. destruct (k_xp x) eqn:E; try exact I. destruct (t_x (k_stage x)) eqn:E2; try exact I. destruct o; try exact I. destruct (m_loaded P (k_core x) _ _) as [[?|?] ?]; try exact I.
    cbn [spends]. ct. unfold core_cost. cbn. rewrite E. cbn. lia.
  Qed.
  Lemma load_done_spends i k id vs x : spends core_cost x (load_done i k id vs x).
  Proof.
    unfold load_done. destruct (k_xp x) eqn:E; try exact I; destruct (t_x (k_stage x)) eqn:E2; try exact I; destruct (value_of id vs); try exact I; destruct (id =? _); try exact I; cbn [spends]; ct; unfold core_cost; cbn; rewrite E; cbn; lia.
  Qed.
  Lemma pipe_done_spends b now i k x : spends core_cost x (pipe_done b now i k x).
  Proof. unfold pipe_done. destruct (k_proc x) eqn:E; try exact I. destruct (k_mon x) eqn:E2; try exact I. cbn [spends]. ct. unfold core_cost. cbn. rewrite E, E2. lia. Qed.

  (** *** Memory controllers *)
  (** Validity flags are only ever set. *)
  Definition keeps : Prop := (forall m r q, m_ready P m q = true -> m_ready P (snd (m_read P m r)) q = true) /\
    (forall m r rows q, m_ready P m q = true -> m_ready P (snd (m_write P m r rows)) q = true).
  Lemma req_nonneg m r : 6 <= req_cost m r <= 8.
  Proof. unfold req_cost. destruct (_ && _); lia. Qed.
  Lemma req_get_saves i d : saves ctl_cost d (req_get i d).
  Proof.
    unfold saves, req_get. destruct (c_handler d) eqn:E; try (cbn [fst snd]; ct; lia).
    - destruct (c_items d) eqn:E2; [cbn [fst snd]; ct; lia|]. cbn [fst snd]. ct. unfold ctl_cost. cbn. rewrite E, E2. cbn. lia.
    - destruct dangling; [|cbn [fst snd]; ct; lia]. destruct (c_items d) eqn:E2; [cbn [fst snd]; ct; lia|]. cbn [fst snd]. ct. unfold ctl_cost. cbn. rewrite E, E2. cbn. pose proof (req_nonneg (c_mem d) r). lia.
  Qed.
  Lemma bus_give_saves i d : saves ctl_cost d (bus_give i d).
  Proof.
    unfold saves, bus_give. destruct (c_bus d) eqn:E; try (cbn [fst snd]; ct; lia). destruct (c_waiting d) eqn:E2; [cbn [fst snd]; ct; lia|]. cbn [fst snd]. ct. unfold ctl_cost. cbn. rewrite E, E2. ct. lia.
  Qed.
  Lemma wait_cost d : match c_handler d with HGot _ => False | _ => True end -> ctl_cost (ctl_handler d (c_items d) HWaiting) = ctl_cost d.
  Proof. intros H. unfold ctl_cost. cbn. destruct (c_handler d); try contradiction; lia. Qed.
  Lemma handler_start_spends i d : spends ctl_cost d (handler_start i d).
  Proof.
    unfold handler_start. destruct (c_handler d) eqn:E; try exact I. apply go_spends. pose proof (req_get_saves i (ctl_handler d (c_items d) HWaiting)) as H. unfold saves in *. rewrite wait_cost in H; [exact H|]. rewrite E. exact I.
  Qed.
  Lemma on_req_spends i d : spends ctl_cost d (on_req P i d).
  Proof.
    unfold on_req. destruct (c_handler d) eqn:E; try exact I; [|cbn [spends]; ct; lia]. destruct (negb (c_running d)); [exact I|]. destruct (is_read r && negb (m_ready P (c_mem d) r)) eqn:ER.
    - apply go_spends. pose proof (req_get_saves i (ctl_handler (ctl_pending d (c_pending d ++ [r])) (c_items d) HWaiting)) as H. unfold saves in *. cbn [ctl_pending c_items] in *.
      revert H. unfold ctl_cost at 2 4. cbn. rewrite E, len_snoc. assert (HC : req_cost (c_mem d) r = 8) by (unfold req_cost; now rewrite ER). rewrite HC. ct. lia.
    - pose proof (req_get_saves i (ctl_handler (ctl_bus d (c_starting d ++ [r]) (c_bus d) (c_waiting d)) (c_items d) HWaiting)) as H. cbn [ctl_bus c_items] in *.
      destruct (req_get i _) as [d1 l]. unfold saves in H. cbn [fst snd] in H. cbn [spends]. ct. revert H. unfold ctl_cost at 2 4. cbn. rewrite E, len_snoc. assert (HC : req_cost (c_mem d) r = 6) by (unfold req_cost; now rewrite ER). rewrite HC. ct. lia.
  Qed.
  Lemma handler_int_spends d : spends ctl_cost d (handler_int d).
  Proof.
    unfold handler_int. destruct (c_running d); [exact I|]. destruct (c_handler d) eqn:E; try exact I; cbn [spends]; ct; unfold ctl_cost; cbn; rewrite E; [lia|]. pose proof (req_nonneg (c_mem d) r). lia.
  Qed.
  Lemma thread_start_spends i id d : spends ctl_cost d (thread_start i id d).
  Proof.
    unfold thread_start. destruct (c_starting d) as [|r rest] eqn:E; [exact I|]. destruct (q_id r =? id); [|exact I]. apply go_spends. pose proof (bus_give_saves i (ctl_bus d rest (c_bus d) (c_waiting d ++ [r]))) as H.
    unfold saves in *. revert H. unfold ctl_cost at 2 4. cbn. rewrite E, len_snoc. ct. lia.
  Qed.
  Lemma on_grant_spends now i d : spends ctl_cost d (on_grant c now i d).
  Proof. unfold on_grant. destruct (c_bus d) eqn:E; try exact I. apply timeout_spends. unfold ctl_cost. cbn. rewrite E. lia. Qed.
  Lemma remove_first_len r l : In r l -> zlen (remove_first (q_id r) l) = zlen l - 1.
  Proof.
    induction l as [|a l IH]; intros H; [contradiction|]. cbn. destruct (q_id a =? q_id r) eqn:E; ct; [lia|]. destruct H as [-> |H]; [rewrite Z.eqb_refl in E; discriminate|]. rewrite IH by exact H. lia.
  Qed.
  Lemma release_ready_len fuel : forall j m p q, Forall (fun r => m_ready P m r = true) q ->
    let '(p', q') := release_ready P fuel j m p q in zlen p' + zlen q' = zlen p + zlen q /\ Forall (fun r => m_ready P m r = true) q'.
  Proof.
    induction fuel as [|f IH]; intros j m p q HQ; cbn; [auto|]. destruct (nth_error p j) as [r|] eqn:E; [|auto]. destruct (m_ready P m r) eqn:ER; [|now apply IH].
    specialize (IH (S j) m (remove_first (q_id r) p) (q ++ [r])). destruct (release_ready P f (S j) m _ _) as [p' q']. destruct IH as [H1 H2]; [apply Forall_app; auto|]. split; [|exact H2].
    apply nth_error_In in E. rewrite remove_first_len in H1 by exact E. rewrite len_snoc in H1. revert H1. ct. lia.
  Qed.
  Lemma req_mono m m' r : (forall q, m_ready P m q = true -> m_ready P m' q = true) -> req_cost m' r <= req_cost m r.
  Proof. intros H. unfold req_cost. destruct (is_read r); cbn; [|lia]. destruct (m_ready P m r) eqn:E; [rewrite (H r E); cbn; lia|]. cbn. destruct (negb _); lia. Qed.
  Lemma cnt_puts i (l : list req) : cnt (map (fun _ => soon (VReqPut i)) l) = zlen l.
  Proof. induction l as [|a l IH]; [reflexivity|]. cbn [map]. ct. lia. Qed.
  Lemma ready_total m l : Forall (fun r => m_ready P m r = true) l -> total (req_cost m) l = 6 * zlen l.
  Proof. induction 1 as [|r l H _ IH]; [reflexivity|]. cbn [total]. ct. rewrite IH. unfold req_cost. rewrite H. cbn. rewrite andb_false_r. lia. Qed.
  Lemma thread_end_spends now i d : keeps -> spends ctl_cost d (thread_end P c now i d).
  Proof.
    intros [read_keeps write_keeps].
    unfold thread_end. destruct (c_bus d) eqn:E; try exact I. destruct (now <? _); [exact I|].
    assert (G : forall m (new p' : list req), (forall q, m_ready P (c_mem d) q = true -> m_ready P m q = true) -> Forall (fun r => m_ready P m r = true) new -> zlen p' + zlen new = zlen (c_pending d) ->
      total (req_cost m) (c_items d ++ new) + (match c_handler d with HGot r => req_cost m r - 1 | _ => 0 end) + 7 * zlen p' + zlen new <= total (req_cost (c_mem d)) (c_items d) + (match c_handler d with HGot r => req_cost (c_mem d) r - 1 | _ => 0 end) + 7 * zlen (c_pending d)).
    { intros m new p' HM HN HL. rewrite total_app, (ready_total m new HN). pose proof (total_le (req_cost m) (req_cost (c_mem d)) (c_items d) (fun r => req_mono _ m r HM)).
      assert (match c_handler d with HGot r => req_cost m r - 1 | _ => 0 end <= match c_handler d with HGot r => req_cost (c_mem d) r - 1 | _ => 0 end) by (destruct (c_handler d); try lia; pose proof (req_mono (c_mem d) m r0 HM); lia). lia. }
    destruct (q_kind r) as [b n|rows].
    - pose proof (read_keeps (c_mem d) r) as HK. destruct (m_read P (c_mem d) r) as [[data|?] m]; [|exact I]. cbn [snd] in HK. specialize (G m [] (c_pending d) HK ltac:(constructor)). rewrite app_nil_r in G. change (zlen (@nil req)) with 0 in G. specialize (G ltac:(lia)).
      cbn [spends app]. ct. unfold ctl_cost. cbn. rewrite E. lia.
    - pose proof (write_keeps (c_mem d) r rows) as HK. destruct (m_write P (c_mem d) r rows) as [[data|?] m]; [|exact I]. cbn [snd] in HK.
      pose proof (release_ready_len (length (c_pending d)) 0 m (c_pending d) [] ltac:(constructor)) as HL. destruct (release_ready P (length (c_pending d)) 0 m (c_pending d) []) as [p' new]. destruct HL as [HL HR].
      change (zlen (@nil req)) with 0 in HL. specialize (G m new p' HK HR ltac:(lia)). cbn [spends]. ct. rewrite cnt_puts. unfold ctl_cost. cbn. rewrite E. lia.
  Qed.
  Lemma submit_spends now i k a kd d : match submit now i k a kd d with DGo rd new => ctl_cost (snd rd) + cnt new <= ctl_cost d + 9 | _ => True end.
  Proof.
    unfold submit. destruct (negb (c_running d)); [exact I|]. set (r := MkReq _ _ _ _ _). cbn [snd]. ct. unfold ctl_cost. cbn. rewrite total_app. cbn. pose proof (req_nonneg (c_mem d) r). lia.
  Qed.
  Lemma ctl_stop_spends now i d : match ctl_stop now i d with DGo d' new => ctl_cost d' + cnt new <= ctl_cost d + 1 | _ => True end.
  Proof. unfold ctl_stop. destruct (negb (c_running d)); [ct; lia|]. destruct (negb _); [exact I|]. ct. unfold ctl_cost. cbn. lia. Qed.

  (** *** Cores and controllers *)
  Definition both_cost (dx : dctl * dcore) : Z := ctl_cost (fst dx) + core_cost (snd dx).
  Lemma alone_spends d x r : spends core_cost x r -> spends both_cost (d, x) (dmap (fun x' => (d, x')) r).
  Proof. destruct r; cbn; try exact (fun _ => I). unfold both_cost. cbn. lia. Qed.
  Lemma execute_spends now i k o d x : (exists o', t_x (k_stage x) = GGot o') -> spends both_cost (d, x) (execute P c now i k o d x).
  Proof.
    intros [o' E]. pose proof (xp_nonneg (k_xp x)) as HX. assert (LOC : spends both_cost (d, x) (match m_local P (k_core x) o with (Raise e, _) => DRaise e | (Ok _, k1) => match exec_time (y_core c) o with Raise e => DRaise e | Ok t => timeout t (VTime i k SX) (d, set_xp (set_core (set_stage x SX (GWork o)) k1) XTiming) end end)).
    { destruct (m_local P (k_core x) o) as [[?|?] k1]; [|exact I]. destruct (exec_time _ o); [|exact I]. apply timeout_spends. unfold both_cost, core_cost. cbn. rewrite E. cbn. lia. }
    unfold execute. destruct o; try exact LOC.
    - destruct (m_load P (k_core x) _) as [[a|?] k1]; [|exact I]. pose proof (submit_spends now i k a (RRead width vec) d) as H. destruct (submit now i k a (RRead width vec) d) as [[r d'] new| |]; try exact I.
      cbn in H |- *. unfold both_cost, core_cost. cbn. rewrite E. cbn. lia.
    - destruct (m_store P (k_core x) _ _ _ _) as [[[a v]|?] k1]; [|exact I]. cbn [spends]. ct. unfold both_cost, core_cost. cbn. rewrite E. cbn. lia.
  Qed.
  Lemma on_got_spends now i k s d x : spends both_cost (d, x) (on_got P c now i k s d x).
  Proof.
    unfold on_got. pose proof (buf_put_saves i k s x) as H. destruct (buf_put i k s x) as [x1 l1]. unfold saves in H. cbn [fst snd] in H. destruct (tget (k_stage x1) s) eqn:E; try exact I.
    assert (G : forall r, spends both_cost (d, x1) r -> spends both_cost (d, x) (dbind (DGo (d, x1) l1) (fun _ => r))).
    { intros r HR. destruct r as [[d' x'] l'| |]; try exact I. cbn in HR |- *. ct. unfold both_cost in *. cbn in *. lia. }
    apply G. destruct s; cbn in E.
    - apply timeout_spends. unfold both_cost, core_cost. cbn. rewrite E. cbn. lia.
    - apply timeout_spends. unfold both_cost, core_cost. cbn. rewrite E. cbn. lia.
    - apply execute_spends. eauto.
  Qed.
  Lemma store_time_spends now i k d x : spends both_cost (d, x) (store_time now i k d x).
  Proof.
    unfold store_time. destruct (k_xp x) eqn:E; try exact I. destruct (t_x (k_stage x)); try exact I. pose proof (submit_spends now i k addr (RWrite rows) d) as H. destruct (submit now i k addr (RWrite rows) d) as [[r d'] new| |]; try exact I.
    cbn in H |- *. unfold both_cost, core_cost. cbn. rewrite E. cbn. lia.
  Qed.

  (** *** Routers *)
  Lemma send_get_saves now i u : saves rt_cost u (send_get now i u).
  Proof.
    unfold saves, send_get. destruct (u_sender u) eqn:E; try (cbn [fst snd]; ct; lia).
    - destruct (u_queue u) eqn:E2; [cbn [fst snd]; ct; lia|]. cbn [fst snd]. ct. unfold rt_cost. cbn. rewrite E, E2. ct. cbn. lia.
    - destruct dangling; [|cbn [fst snd]; ct; lia]. destruct (u_queue u) eqn:E2; [cbn [fst snd]; ct; lia|]. cbn [fst snd]. ct. unfold rt_cost. cbn. rewrite E, E2. ct. cbn. lia.
  Qed.
  Lemma sender_start_spends now i u : spends rt_cost u (sender_start now i u).
  Proof. unfold sender_start. destruct (u_sender u) eqn:E; try exact I. apply go_spends. pose proof (send_get_saves now i (rt_sender u ZWaiting)) as H. unfold saves in *. revert H. unfold rt_cost at 2 4. cbn. rewrite E. auto. Qed.
  Lemma on_send_spends i u : spends rt_cost u (on_send c i u).
  Proof.
    unfold on_send. destruct (u_sender u) eqn:E; try exact I; [|cbn [spends]; ct; lia]. destruct (get_latency _ _ _) as [lat inter]. destruct (negb _); [exact I|]. apply timeout_spends. unfold rt_cost. cbn. rewrite E. cbn. lia.
  Qed.
  Lemma on_travel_spends now i u : spends rt_cost u (on_travel c now i u).
  Proof. unfold on_travel. destruct (u_sender u) eqn:E; try exact I. destruct (now <? _); [exact I|]. cbn [spends]. ct. unfold rt_cost. cbn. rewrite E. cbn. lia. Qed.
  Lemma on_arrived_spends now i u : spends rt_cost u (on_arrived now i u).
  Proof.
    unfold on_arrived. destruct (u_sender u) eqn:E; try exact I. destruct (u_event u) as [[n [| |]]|]; try exact I. match goal with |- context [send_get now i ?u'] => pose proof (send_get_saves now i u') as H; destruct (send_get now i u') as [u1 l] end.
    unfold saves in H. cbn [fst snd] in H. cbn [spends]. ct. revert H. unfold rt_cost at 2 4. cbn. rewrite E. cbn. lia.
  Qed.
  Lemma sender_int_spends u : spends rt_cost u (sender_int u).
  Proof. unfold sender_int. destruct (u_running u); [exact I|]. destruct (u_sender u) eqn:E; try exact I. cbn [spends]. ct. unfold rt_cost. cbn. rewrite E. cbn. lia. Qed.
End Cost.
