(** The event queue of a simulation (DesModel): times do not go back, and the monitor keeps pace. *)
From Coq Require Import Sorting.Sorted.
From Verif Require Import PyBase PyLemmas CoreModel DramModel RouterModel SystemModel DesModel.

Definition nonneg (l : sched) : Prop := Forall (fun x => 0 <= fst (fst x)) l.
Definition fair {A} (r : dres A) : Prop := match r with DGo _ l => nonneg l | _ => True end.

Lemma nonneg_app l l' : nonneg l -> nonneg l' -> nonneg (l ++ l').
Proof. intros. now apply Forall_app. Qed.
Lemma nonneg_nil : nonneg [].
Proof. constructor. Qed.
Lemma nonneg_cons d p e l : 0 <= d -> nonneg l -> nonneg ((d, p, e) :: l).
Proof. constructor; auto. Qed.
Lemma nonneg_start e l : nonneg l -> nonneg (start e :: l).
Proof. apply nonneg_cons. lia. Qed.
Lemma nonneg_soon e l : nonneg l -> nonneg (soon e :: l).
Proof. apply nonneg_cons. lia. Qed.
Lemma fair_dmap {A B} (f : A -> B) r : fair r -> fair (dmap f r).
Proof. destruct r; auto. Qed.
Lemma fair_dbind {A B} (r : dres A) (f : A -> dres B) : fair r -> (forall a, fair (f a)) -> fair (dbind r f).
Proof. intros H F. destruct r as [a l|e|]; cbn in *; auto. specialize (F a). destruct (f a); cbn in *; auto. now apply nonneg_app. Qed.
Lemma fair_timeout {A} d e (a : A) : fair (timeout d e a).
Proof. unfold timeout. destruct (d <? 0) eqn:E; [exact I|]. cbn. apply nonneg_cons; [lia|constructor]. Qed.
Lemma fair_go {A} (p : A * sched) : nonneg (snd p) -> fair (go p).
Proof. auto. Qed.

Ltac cases := repeat match goal with |- context [match ?e with _ => _ end] => destruct e end; cbn.
Ltac nn := repeat first [exact I | apply nonneg_nil | apply nonneg_soon | apply nonneg_start | apply nonneg_cons; [lia|] | apply nonneg_app | assumption].

Section Fair.
  Context {K M : Type}.
  Variable P : machine K M.
  Variable c : sys_cfg.
  Notation dcore := (dcore K). Notation dctl := (dctl M). Notation dtile := (dtile K M). Notation dnode := (dnode K M).

  Lemma buf_get_n i k s (x : dcore) : nonneg (snd (buf_get i k s x)).
  Proof. unfold buf_get. cases; nn. Qed.
  Lemma buf_put_n i k s (x : dcore) : nonneg (snd (buf_put i k s x)).
  Proof. unfold buf_put. cases; nn. Qed.
  Lemma stage_get_n i k s (x : dcore) : nonneg (snd (stage_get i k s x)).
  Proof. apply buf_get_n. Qed.
  Lemma stage_end_n i k s o (x : dcore) : nonneg (snd (stage_end i k s o x)).
  Proof. unfold stage_end. destruct (is_hlt o); [nn|apply stage_get_n]. Qed.
  Lemma stage_put_n i k s o (x : dcore) : nonneg (snd (stage_put i k s o x)).
  Proof. unfold stage_put. destruct s; [apply buf_put_n|apply buf_put_n|apply stage_end_n]. Qed.
  Lemma mon_from_n i k s (x : dcore) : nonneg (snd (mon_from i k s x)).
  Proof. unfold mon_from, mon_wait, mon_end. cases; nn. Qed.
  Lemma req_get_n i (d : dctl) : nonneg (snd (req_get i d)).
  Proof. unfold req_get. cases; nn. Qed.
  Lemma bus_give_n i (d : dctl) : nonneg (snd (bus_give i d)).
  Proof. unfold bus_give. cases; nn. Qed.
  Lemma send_get_n now i u : nonneg (snd (send_get now i u)).
  Proof. unfold send_get. cases; nn. Qed.

  Lemma core_start_f b now i k (x : dcore) : fair (core_start b now i k x).
  Proof.
    unfold core_start. destruct (k_proc x); try exact I. destruct (negb _); try exact I.
    assert (H := buf_put_n i k SF (set_proc x CRunning (k_cycles x))). destruct (buf_put i k SF _). cbn in *. nn.
  Qed.
  Lemma stage_start_f i k s (x : dcore) : fair (stage_start i k s x).
  Proof. unfold stage_start. destruct (tget _ _); try exact I. apply fair_go, stage_get_n. Qed.
  Lemma on_put_f i k s (x : dcore) : fair (on_put i k s x).
  Proof.
    unfold on_put. assert (H := buf_get_n i k s x). destruct (buf_get i k s x) as [x1 l1]. cbn in H. destruct s; [exact H| |].
    - destruct (t_f (k_stage x1)); try exact I. assert (H' := stage_end_n i k SF o x1). destruct (stage_end i k SF o x1). cbn in *. now apply nonneg_app.
    - destruct (t_d (k_stage x1)); try exact I. assert (H' := stage_end_n i k SD o x1). destruct (stage_end i k SD o x1). cbn in *. now apply nonneg_app.
  Qed.
  Lemma pipe_start_f i k (x : dcore) : fair (pipe_start i k x).
  Proof. unfold pipe_start. destruct (k_mon x); try exact I. apply fair_go, mon_from_n. Qed.
  Lemma stage_done_f i k s (x : dcore) : fair (stage_done i k s x).
  Proof.
    unfold stage_done. destruct (tget _ _); try exact I. destruct (k_mon x); try (cbn; constructor).
    destruct (st_eqb _ _); [apply fair_go, mon_from_n|constructor].
  Qed.
  Lemma on_time_f i k s (x : dcore) : fair (on_time i k s x).
  Proof. unfold on_time. destruct (tget _ _), s, (k_xp x); try exact I; apply fair_go; first [apply stage_put_n|apply stage_end_n]. Qed.
  Lemma memory_end_f i k load (x : dcore) : fair (memory_end i k load x).
  Proof. unfold memory_end. destruct (k_xp x), (t_x (k_stage x)), load; try exact I; apply fair_go, stage_end_n. Qed.
  Lemma load_done_f i k id v (x : dcore) : fair (load_done i k id v x).
  Proof. unfold load_done. cases; nn. Qed.
  Lemma load_new_f i k (x : dcore) : fair (load_new c i k x).
  Proof. unfold load_new. destruct (k_xp x), (t_x (k_stage x)) as [| | |[]| | |]; try exact I; apply fair_timeout. Qed.
  Lemma load_time_f i k (x : dcore) : fair (load_time P i k x).
  Proof. unfold load_time. cases; nn. Qed.
  Lemma store_new_f i k (x : dcore) : fair (store_new c i k x).
  Proof. unfold store_new. destruct (k_xp x), (t_x (k_stage x)) as [| | |[]| | |]; try exact I; apply fair_timeout. Qed.
  Lemma submit_f now i k a kd (d : dctl) : fair (submit now i k a kd d).
  Proof. unfold submit. destruct (negb _); [exact I|]. cbn. nn. Qed.
  Lemma store_time_f now i k (d : dctl) (x : dcore) : fair (store_time now i k d x).
  Proof. unfold store_time. destruct (k_xp x), (t_x (k_stage x)); try exact I. apply fair_dmap, submit_f. Qed.
  Lemma execute_f now i k o (d : dctl) (x : dcore) : fair (execute P c now i k o d x).
  Proof.
    assert (L : fair (match m_local P (k_core x) o with
                | (Raise e, _) => DRaise e
                | (Ok _, k1) => match exec_time (y_core c) o with
                                | Raise e => DRaise e
                                | Ok t => timeout t (VTime i k SX) (d, set_xp (set_core (set_stage x SX (GWork o)) k1) XTiming)
                                end
                end)).
    { destruct (m_local P (k_core x) o) as [[|] k1]; try exact I. destruct (exec_time (y_core c) o); try exact I. apply fair_timeout. }
    unfold execute. destruct o; try exact L.
    - destruct (m_load P (k_core x) read) as [[|] k1]; try exact I. apply fair_dmap, submit_f.
    - destruct (m_store P (k_core x) dest read width vec) as [[[a v]|] k1]; try exact I. cbn. nn.
  Qed.
  Lemma on_got_f now i k s (d : dctl) (x : dcore) : fair (on_got P c now i k s d x).
  Proof.
    unfold on_got. assert (H := buf_put_n i k s x). destruct (buf_put i k s x) as [x1 l1]. cbn in H.
    destruct (tget _ _); try exact I. apply fair_dbind; [exact H|]. intros _. destruct s; [apply fair_timeout|apply fair_timeout|apply execute_f].
  Qed.
  Lemma pipe_done_f b now i k (x : dcore) : fair (pipe_done b now i k x).
  Proof. unfold pipe_done. cases; nn. Qed.

  Lemma handler_start_f i (d : dctl) : fair (handler_start i d).
  Proof. unfold handler_start. destruct (c_handler d); try exact I. apply fair_go, req_get_n. Qed.
  Lemma on_req_f i (d : dctl) : fair (on_req P i d).
  Proof.
    unfold on_req. destruct (c_handler d); try exact I; [|constructor]. destruct (negb _); [exact I|]. destruct (_ && _).
    - apply fair_go, req_get_n.
    - set (d0 := ctl_bus _ _ _ _). assert (H := req_get_n i (ctl_handler d0 (c_items d0) HWaiting)).
      destruct (req_get i _) as [d1 l]. cbn in *. constructor; [cbn; lia|exact H].
  Qed.
  Lemma handler_int_f (d : dctl) : fair (handler_int d).
  Proof. unfold handler_int. cases; nn. Qed.
  Lemma thread_start_f i id (d : dctl) : fair (thread_start i id d).
  Proof. unfold thread_start. destruct (c_starting d); try exact I. destruct (_ =? _); [apply fair_go, bus_give_n|exact I]. Qed.
  Lemma on_grant_f now i (d : dctl) : fair (on_grant c now i d).
  Proof. unfold on_grant. destruct (c_bus d); try exact I. apply fair_timeout. Qed.
  Lemma thread_end_f now i (d : dctl) : fair (thread_end P c now i d).
  Proof.
    unfold thread_end. destruct (c_bus d); try exact I. destruct (_ <? _); [exact I|]. destruct (q_kind r) as [w v|rows].
    - destruct (m_read P (c_mem d) r) as [[|] m]; try exact I. cbn. nn.
    - destruct (m_write P (c_mem d) r rows) as [[|] m]; try exact I. destruct (release_ready _ _ _ _ _ _) as [pe new]. cbn.
      apply nonneg_app; [|nn]. induction new; cbn; constructor; [cbn; lia|assumption].
  Qed.
  Lemma ctl_stop_f now i (d : dctl) : fair (ctl_stop now i d).
  Proof. unfold ctl_stop. cases; nn. Qed.

  Lemma sender_start_f now i u : fair (sender_start now i u).
  Proof. unfold sender_start. destruct (u_sender u); try exact I. apply fair_go, send_get_n. Qed.
  Lemma on_send_f i u : fair (on_send c i u).
  Proof. unfold on_send. destruct (u_sender u); try exact I; [|constructor]. destruct (get_latency _ _ _). destruct (negb _); [exact I|apply fair_timeout]. Qed.
  Lemma on_travel_f now i u : fair (on_travel c now i u).
  Proof. unfold on_travel. cases; nn. Qed.
  Lemma on_arrived_f now i u : fair (on_arrived now i u).
  Proof.
    unfold on_arrived. destruct (u_sender u); try exact I. destruct (u_event u) as [[n []]|]; try exact I.
    match goal with |- context [send_get now i ?u] => assert (H := send_get_n now i u); destruct (send_get now i u) end. cbn in *. constructor; [cbn; lia|exact H].
  Qed.
  Lemma sender_int_f u : fair (sender_int u).
  Proof. unfold sender_int. cases; nn. Qed.

  (** A tile that has ended stays so. *)
  Definition kept (x : dtile) (r : dres dtile) : Prop := match r with DGo x' l => x_ended x' = x_ended x /\ nonneg l | _ => True end.
  Lemma kept_dmap {A} (x : dtile) (f : A -> dtile) r : fair r -> (forall a, x_ended (f a) = x_ended x) -> kept x (dmap f r).
  Proof. destruct r; cbn; auto. Qed.
  Ltac kk := cases; try (split; [reflexivity|nn]); try exact I.

  Lemma next_instr_k b now i (x : dtile) : kept x (go (next_instr b now i x)).
  Proof. unfold next_instr. destruct (x_prog x); cbn; split; try reflexivity; nn. Qed.
  Lemma tile_start_k b now i (x : dtile) : kept x (tile_start c b now i x).
  Proof.
    unfold tile_start. destruct (x_phase x); try exact I. destruct (negb _); [exact I|].
    assert (H1 : nonneg (snd (ctl_run now i (x_ctl x)))) by (unfold ctl_run; cases; nn).
    assert (H2 : nonneg (snd (rt_run c i (x_rt x)))) by (unfold rt_run; cases; nn).
    destruct (ctl_run now i (x_ctl x)) as [d l1], (rt_run c i (x_rt x)) as [u l2]. cbn in H1, H2.
    assert (H3 := next_instr_k b now i (dt_rt (dt_ctl x d) u)). destruct (next_instr b now i _) as [t1 l3]. cbn in *. destruct H3 as [H3 H4].
    split; [exact H3|]. apply nonneg_app; [|apply nonneg_app; [exact H1|apply nonneg_app; assumption]].
    apply Forall_forall. intros y Hy. apply in_map_iff in Hy as (k & <- & _). cbn. lia.
  Qed.
  Lemma on_op_end_k b now i (x : dtile) : kept x (on_op_end b now i x).
  Proof. unfold on_op_end. destruct (x_phase x); try exact I. destruct (negb _); [exact I|]. apply (next_instr_k b now i (MkDTile _ _ _ _ _ _ _)). Qed.
  Lemma recv_rows_k now i addr vec got (x : dtile) : kept x (recv_rows now i addr vec got x).
  Proof. unfold recv_rows. destruct (_ <? _); [cbn; split; [reflexivity|nn]|]. apply kept_dmap; [apply submit_f|reflexivity]. Qed.
  Lemma on_op_k now i (x : dtile) : kept x (on_op now i x).
  Proof.
    unfold on_op. destruct (x_phase x); try exact I. destruct (x_prog x) as [|[]]; try exact I.
    - apply kept_dmap; [apply submit_f|reflexivity].
    - destruct (_ || _); [exact I|apply recv_rows_k].
    - kk.
  Qed.
  Lemma tile_done_k now i id (x : dtile) : kept x (tile_done now i id x).
  Proof. unfold tile_done, send_rows, op_end. kk. Qed.
  Lemma on_add_k now i (x : dtile) : kept x (on_add c now i x).
  Proof.
    unfold on_add. destruct (x_phase x); try exact I. destruct (x_prog x) as [|[]]; try exact I. unfold timeout. cbn.
    destruct (_ <? 0) eqn:E; cbn; [exact I|]. split; [reflexivity|]. nn.
  Qed.
  Lemma on_add_time_k now i (x : dtile) : kept x (on_add_time c now i x).
  Proof. unfold on_add_time. kk. Qed.
  Lemma on_added_k now i (x : dtile) : kept x (on_added now i x).
  Proof. unfold on_added, send_rows, op_end. kk. Qed.
  Lemma on_read_end_k now i (x : dtile) : kept x (on_read_end now i x).
  Proof.
    unfold on_read_end. destruct (x_phase x); try exact I. destruct (x_prog x) as [|[]]; try exact I.
    destruct (_ =? _); [apply recv_rows_k|]. cbn. split; [reflexivity|nn].
  Qed.
  Lemma on_stop_k now i (x : dtile) : kept x (on_stop now i x).
  Proof. unfold on_stop. kk. Qed.
  Lemma on_poll_k now i (x : dtile) : kept x (on_poll now i x).
  Proof. unfold on_poll. kk. Qed.
  Lemma on_poll_time_k i (x : dtile) : kept x (on_poll_time i x).
  Proof. unfold on_poll_time. kk. Qed.
  Lemma router_stop_k i (x : dtile) : kept x (router_stop i x).
  Proof. unfold router_stop. kk. Qed.
  Lemma on_empty_k i (x : dtile) : kept x (on_empty i x).
  Proof. unfold on_empty. destruct (x_phase x); try exact I. destruct (u_event (x_rt x)) as [[n []]|]; try apply router_stop_k; cbn; split; try reflexivity; nn. Qed.
  Lemma on_sent_k i n (x : dtile) : kept x (on_sent i n x).
  Proof.
    unfold on_sent. destruct (u_event (x_rt x)) as [[m []]|]; try (cbn; split; [reflexivity|nn]). destruct (m =? n); [|cbn; split; [reflexivity|nn]].
    destruct (x_phase x); try (cbn; split; [reflexivity|nn]). destruct (_ =? _); [|cbn; split; [reflexivity|nn]].
    exact (router_stop_k i (dt_rt x (rt_event (x_rt x) (Some (m, Processed))))).
  Qed.
  Lemma on_stopped_k now i (x : dtile) : kept x (on_stopped now i x).
  Proof.
    unfold on_stopped. destruct (x_phase x); try exact I. assert (H := ctl_stop_f now i (x_ctl x)).
    destruct (ctl_stop now i (x_ctl x)); cbn in *; auto. split; [reflexivity|]. apply nonneg_app; [exact H|nn].
  Qed.
  Lemma on_all_cores_k i (x : dtile) : kept x (on_all_cores i x).
  Proof. unfold on_all_cores, begin_stop. kk. Qed.
  Lemma core_end_k i k (x : dtile) : kept x (core_end i k x).
  Proof. unfold core_end. kk. Qed.

  (** *** The node *)
  Definition calm (n : dnode) (r : dres dnode) : Prop :=
    match r with
    | DGo n' l => nonneg l /\ z_fin n' = z_fin n /\ z_monitor n' = z_monitor n /\ z_next n' = z_next n /\ z_begin n' = z_begin n /\
                  (forallb x_ended (z_tiles n) = true -> forallb x_ended (z_tiles n') = true)
    | _ => True
    end.
  Lemma ended_put (n : dnode) i x x' : the_tile n i = Some x -> (x_ended x = true -> x_ended x' = true) ->
    forallb x_ended (z_tiles n) = true -> forallb x_ended (z_tiles (put_tile n i x')) = true.
  Proof.
    intros Hx E H. rewrite forallb_forall in *. intros y Hy. cbn in Hy. apply In_nth_error in Hy as [k Hk]. rewrite nth_error_upd in Hk.
    unfold the_tile in Hx. destruct (i <? 0); [discriminate|]. destruct (Nat.eqb _ _) eqn:Ek.
    - destruct (nth_error (z_tiles n) k) eqn:En; [|discriminate]. injection Hk as <-. apply E, H. eapply nth_error_In; eauto.
    - apply H. eapply nth_error_In; eauto.
  Qed.
  Lemma calm_here (n : dnode) : calm n (DGo n []).
  Proof. repeat split; auto. constructor. Qed.
  Lemma calm_put (n : dnode) i x r : the_tile n i = Some x -> kept x r -> calm n (dmap (put_tile n i) r).
  Proof.
    intros Hx. destruct r as [x' l|e|]; cbn; auto. intros [He Hl]. repeat split; auto. apply ended_put with (x := x); auto. congruence.
  Qed.
  Lemma calm_tile (n : dnode) i f : (forall x, kept x (f x)) -> calm n (on_tile n i f).
  Proof. intros H. unfold on_tile. destruct (the_tile n i) eqn:Hx; [|exact I]. destruct (is_new d); [exact I|]. now apply calm_put with (x := d). Qed.
  Lemma calm_bind (n : dnode) r f : calm n r -> (forall n', calm n' (f n')) -> calm n (dbind r f).
  Proof.
    intros H F. destruct r as [n1 l|e|]; cbn in *; auto. specialize (F n1). destruct (f n1); cbn in *; auto.
    destruct H as (h1 & h2 & h3 & h4 & h5 & h6), F as (f1 & f2 & f3 & f4 & f5 & f6).
    repeat split; try congruence; [now apply nonneg_app|auto].
  Qed.
  Lemma calm_core2 (n : dnode) i k f : (forall d x, fair (f d x)) -> calm n (on_core2 n i k f).
  Proof.
    intros H. apply calm_tile. intro x. destruct (k <? 0); [exact I|]. destruct (nth_error _ _); [|exact I]. apply kept_dmap; auto.
  Qed.
  Lemma calm_core (n : dnode) i k f : (forall x, fair (f x)) -> calm n (on_core n i k f).
  Proof. intros H. apply calm_core2. intros. apply fair_dmap, H. Qed.
  Lemma calm_ctl (n : dnode) i f : (forall x, fair (f x)) -> calm n (on_ctl n i f).
  Proof. intros H. apply calm_tile. intro. now apply kept_dmap. Qed.
  Lemma calm_rt (n : dnode) i f : (forall x, fair (f x)) -> calm n (on_rt n i f).
  Proof. intros H. apply calm_tile. intro. now apply kept_dmap. Qed.

  Lemma calm_trans (n n1 : dnode) r : z_fin n1 = z_fin n -> z_monitor n1 = z_monitor n -> z_next n1 = z_next n -> z_begin n1 = z_begin n ->
    (forallb x_ended (z_tiles n) = true -> forallb x_ended (z_tiles n1) = true) -> calm n1 r -> calm n r.
  Proof. intros. destruct r; cbn in *; auto. destruct H4 as (h1 & h2 & h3 & h4 & h5 & h6). repeat split; auto; congruence. Qed.
  Lemma calm_put2 (n : dnode) i x x' r : the_tile n i = Some x -> x_ended x' = x_ended x -> calm (put_tile n i x') r -> calm n r.
  Proof. intros Hx He. apply calm_trans; auto. apply ended_put with (x := x); auto. congruence. Qed.

  Lemma recv_put_calm src dst (n : dnode) : calm n (recv_put src dst n).
  Proof.
    unfold recv_put. destruct (the_tile n src) as [t|] eqn:Hs; [|apply calm_here]. destruct (u_sender (x_rt t)); try apply calm_here.
    destruct (negb _); [apply calm_here|]. cbn zeta. destruct (the_tile (put_tile n src _) dst) as [t'|] eqn:Hd; [|exact I].
    destruct (buffer_of _ _); [|apply calm_here]. destruct (is_new t'); [exact I|].
    eapply calm_put2; [exact Hs| |]; [|apply (calm_put _ dst t' (DGo _ _) Hd)]; [reflexivity|]. split; [reflexivity|nn].
  Qed.
  Lemma recv_get_calm src dst (n : dnode) : calm n (recv_get src dst n).
  Proof.
    unfold recv_get. destruct (the_tile n dst) as [t|] eqn:Hs; [|apply calm_here]. destruct (x_phase t); try apply calm_here.
    destruct (negb _); [apply calm_here|]. destruct (buffer_of _ _); [apply calm_here|].
    apply (calm_put _ dst t (DGo _ _) Hs). split; [reflexivity|nn].
  Qed.
  Definition paced (e : ev) : bool := match e with VMonitor | VMonitorInt | VAllTiles | VNodeEnd | VRunEnd => false | _ => true end.
  Lemma fire_calm now e (n : dnode) : paced e = true -> calm n (fire P c now e n).
  Proof.
    destruct e; cbn [paced fire]; intro E; try discriminate.
    all: try match goal with |- calm _ (on_core _ _ _ _) => apply calm_core; intro end.
    all: try match goal with |- calm _ (on_core2 _ _ _ _) => apply calm_core2; intros end.
    all: try match goal with |- calm _ (on_ctl _ _ _) => apply calm_ctl; intro end.
    all: try match goal with |- calm _ (on_rt _ _ _) => apply calm_rt; intro end.
    all: try match goal with |- calm _ (on_tile _ _ _) => apply calm_tile; intro end.
    - unfold start_tile. destruct (the_tile n i) eqn:Hx; [|exact I]. apply calm_put with (x := d); auto. apply tile_start_k.
    - apply core_start_f.
    - apply stage_start_f.
    - apply pipe_start_f.
    - apply on_put_f.
    - apply on_got_f.
    - apply on_time_f.
    - apply load_new_f.
    - apply load_time_f.
    - apply memory_end_f.
    - apply store_new_f.
    - apply store_time_f.
    - apply memory_end_f.
    - apply stage_done_f.
    - apply pipe_done_f.
    - destruct (k <? 0); [exact I|apply core_end_k].
    - apply handler_start_f.
    - apply fair_go, req_get_n.
    - apply on_req_f.
    - apply handler_int_f.
    - apply thread_start_f.
    - apply on_grant_f.
    - apply thread_end_f.
    - apply fair_go, bus_give_n.
    - destruct (k =? -1); [apply calm_tile; intro; apply tile_done_k|]. apply calm_core2. intros. apply fair_dmap, load_done_f.
    - apply sender_start_f.
    - apply fair_go, send_get_n.
    - apply on_send_f.
    - apply on_travel_f.
    - unfold on_offer. destruct (the_tile n i) eqn:Hx; [|exact I]. destruct (u_sender (x_rt d)); try exact I. destruct (negb _); [exact I|].
      eapply calm_put2; [exact Hx| |apply recv_put_calm]. reflexivity.
    - unfold on_taken. destruct (the_tile n i) eqn:Hx; [|exact I]. destruct (u_sender (x_rt d)); try exact I.
      apply calm_bind; [apply recv_get_calm|]. intro n1. apply calm_bind; [apply calm_tile; intro; split; [reflexivity|nn]|].
      intro n2. apply calm_tile; intro; split; [reflexivity|nn].
    - apply on_arrived_f.
    - apply on_sent_k.
    - apply sender_int_f.
    - apply on_op_k.
    - apply on_op_end_k.
    - unfold tile_end. unfold on_tile. destruct (the_tile n i) eqn:Hx; [|exact I]. destruct (is_new d); [exact I|]. destruct (x_phase d); try exact I.
      cbn [dmap dbind]. match goal with |- context [put_tile n i ?x'] => set (y := x') end. cbn. repeat split; auto.
      + destruct (forallb x_ended _); nn.
      + apply ended_put with (x := d); auto.
    - apply on_add_k.
    - apply on_add_time_k.
    - apply on_added_k.
    - unfold on_read. destruct (the_tile n i) eqn:Hx; [|exact I]. destruct (x_phase d); try exact I. destruct (x_prog d) as [|[]]; try exact I.
      destruct (negb _); [exact I|]. eapply calm_put2; [exact Hx| |apply recv_get_calm]. reflexivity.
    - unfold on_popped. destruct (the_tile n i) eqn:Hx; [|exact I]. destruct (x_phase d); try exact I.
      apply calm_bind; [apply recv_put_calm|]. intro n1. apply calm_tile; intro; split; [reflexivity|nn].
    - apply on_read_end_k.
    - apply on_all_cores_k.
    - apply on_stop_k.
    - apply on_poll_k.
    - apply on_poll_time_k.
    - apply on_empty_k.
    - apply on_stopped_k.
  Qed.

  (** ** The queue *)
  Definition before (x y : entry ev) : Prop := e_time x <= e_time y.
  Definition sorted (q : list (entry ev)) : Prop := StronglySorted before q.
  Lemma insert_in x y (q : list (entry ev)) : In y (insert x q) <-> y = x \/ In y q.
  Proof. induction q as [|z q IH]; cbn; [intuition|]. destruct (sooner x z); cbn; [intuition|]. rewrite IH. intuition. Qed.
  Lemma insert_sorted x q : sorted q -> sorted (insert x q).
  Proof.
    induction q as [|z q IH]; intro H; cbn; [repeat constructor|]. inversion H as [|? ? H1 H2]; subst. destruct (sooner x z) eqn:E.
    - constructor; [exact H|]. constructor.
      + unfold sooner in E. unfold before. lia.
      + apply Forall_impl with (P := before z); [|exact H2]. intros w Hw. unfold before, sooner in *. lia.
    - constructor; [now apply IH|]. apply Forall_forall. intros w Hw. apply insert_in in Hw as [->|Hw].
      + unfold sooner in E. unfold before. lia.
      + now apply (proj1 (Forall_forall _ _) H2).
  Qed.
  Lemma schedule_sorted now (l : sched) q : sorted q -> sorted (schedule now l q).
  Proof. unfold schedule. revert q. induction l as [|x l IH]; intros q H; cbn; [exact H|]. apply IH. now apply insert_sorted. Qed.
  Lemma schedule_in now (l : sched) (q : list (entry ev)) y : In y (schedule now l q) <-> In y q \/ exists d p e, In (d, p, e) l /\ y = (now + d, p, e).
  Proof.
    unfold schedule. revert q. induction l as [|[[d p] e] l IH]; intro q; cbn.
    - split; [auto|]. intros [H|(d & p & e & [] & _)]. exact H.
    - rewrite IH, insert_in. cbn. split.
      + intros [[->|H]|(d' & p' & e' & H & E)]; [right; exists d, p, e; auto|auto|right; exists d', p', e'; auto].
      + intros [H|(d' & p' & e' & [H|H] & E)]; [auto|injection H as <- <- <-; auto|right; exists d', p', e'; auto].
  Qed.
  Lemma schedule_after now l q : nonneg l -> (forall y, In y q -> now <= e_time y) -> forall y, In y (schedule now l q) -> now <= e_time y.
  Proof.
    intros H1 H2 y Hy. apply schedule_in in Hy as [Hy|(d & p & e & Hy & ->)]; [auto|]. unfold nonneg in H1. rewrite Forall_forall in H1.
    specialize (H1 _ Hy). cbn in *. lia.
  Qed.

  (** The monitor, or the end of the simulation, is waited for. *)
  Definition awaited (n : dnode) (q : list (entry ev)) : Prop :=
    match z_fin n with
    | FRunning => z_monitor n = true /\ exists p, In (z_next n, p, VMonitor) q
    | FNode => exists t p, t <= z_next n /\ In (t, p, VNodeEnd) q
    | FCond => exists t p, t <= z_next n /\ In (t, p, VRunEnd) q
    | FEnd => True
    end.
  Record timely (s : des (K := K) (M := M)) : Prop := {
    ti_sorted : sorted (w_queue s); ti_after : forall y, In y (w_queue s) -> w_now s <= e_time y;
    ti_awaited : awaited (w_node s) (w_queue s);
    ti_fin : z_fin (w_node s) <> FRunning -> forallb x_ended (z_tiles (w_node s)) = true }.

  Lemma head_first x q y : sorted (x :: q) -> In y (x :: q) -> e_time x <= e_time y.
  Proof. intros H [->|Hy]; [lia|]. inversion H as [|? ? H1 H2]; subst. exact (proj1 (Forall_forall _ _) H2 _ Hy). Qed.
  Lemma timely_next s x q : timely s -> w_queue s = x :: q -> z_fin (w_node s) <> FEnd -> e_time x <= z_next (w_node s).
  Proof.
    intros [H1 H2 H3 H4] E Hf. rewrite E in *. unfold awaited in H3. destruct (z_fin (w_node s)); try contradiction.
    - destruct H3 as [_ [p H3]]. apply (head_first _ _ _ H1) in H3. exact H3.
    - destruct H3 as (t & p & Ht & H3). apply (head_first _ _ _ H1) in H3. cbn in H3. lia.
    - destruct H3 as (t & p & Ht & H3). apply (head_first _ _ _ H1) in H3. cbn in H3. lia.
  Qed.

  Local Arguments schedule {E} now new q : simpl never.
  Theorem step_timely s s' : timely s -> des_step P c s = NStep s' -> timely s' /\ w_now s <= w_now s'.
  Proof.
    intros T H. unfold des_step in H.
    assert (Hf : z_fin (w_node s) <> FEnd) by (intro E; rewrite E in H; discriminate).
    destruct (w_queue s) as [|x q] eqn:Eq; [destruct (z_fin (w_node s)); discriminate|].
    assert (Hn := timely_next _ _ _ T Eq Hf).
    assert (H' : exists n l, fire P c (e_time x) (e_ev x) (w_node s) = DGo n l /\ s' = MkDes (e_time x) (schedule (e_time x) l q) n).
    { destruct (z_fin (w_node s)); try contradiction; destruct (fire P c (e_time x) (e_ev x) (w_node s)); try discriminate; injection H as <-; eauto. }
    clear H. destruct H' as (n & l & Hl & ->). destruct T as [T1 T2 T3 T4]. rewrite Eq in *.
    assert (Hx : w_now s <= e_time x) by (apply T2; now left).
    assert (Sq : sorted q) by now inversion T1.
    assert (Aq : forall y, In y q -> e_time x <= e_time y) by (intros y Hy; apply (head_first _ _ _ T1); now right).
    split; [|exact Hx].
    assert (G : nonneg l -> awaited n (schedule (e_time x) l q) -> (z_fin n <> FRunning -> forallb x_ended (z_tiles n) = true) ->
      timely (MkDes (e_time x) (schedule (e_time x) l q) n)).
    { intros g1 g2 g3. constructor; cbn; auto; [now apply schedule_sorted|now apply schedule_after]. }
    destruct x as [[tx px] ex]. cbn [e_time e_ev fst snd] in *. set (m := w_node s) in *.
    destruct (paced ex) eqn:Ep.
    - assert (C := fire_calm tx ex m Ep). rewrite Hl in C. cbn in C. destruct C as (c1 & c2 & c3 & c4 & c5 & c6).
      apply G; auto; [|rewrite c2; auto]. unfold awaited in *. rewrite c2, c3, c4. destruct (z_fin m); auto.
      + destruct T3 as [T3 (p & [T5|T5])]; [injection T5 as -> -> ->; discriminate|]. split; [exact T3|]. exists p. apply schedule_in. now left.
      + destruct T3 as (t & p & T3 & [T5|T5]); [injection T5 as -> -> ->; discriminate|]. exists t, p. split; [exact T3|]. apply schedule_in. now left.
      + destruct T3 as (t & p & T3 & [T5|T5]); [injection T5 as -> -> ->; discriminate|]. exists t, p. split; [exact T3|]. apply schedule_in. now left.
    - destruct ex; try discriminate; cbn [fire] in Hl.
      + (* VMonitor *)
        unfold on_monitor in Hl. destruct (z_monitor m) eqn:Em; cbn [negb] in Hl.
        * destruct (tx =? z_next m) eqn:Et; [|discriminate]. cbn [negb] in Hl. injection Hl as <- <-. apply G; cbn; auto; [nn|].
          unfold awaited in *. cbn. destruct (z_fin m); auto.
          -- split; [reflexivity|]. exists Normal. apply schedule_in. right. exists 1, Normal, VMonitor. split; [now left|reflexivity].
          -- destruct T3 as (t & p & T3 & [T5|T5]); [discriminate|]. exists t, p. split; [lia|]. apply schedule_in. now left.
          -- destruct T3 as (t & p & T3 & [T5|T5]); [discriminate|]. exists t, p. split; [lia|]. apply schedule_in. now left.
        * injection Hl as <- <-. apply G; auto; [nn|]. unfold awaited in *. destruct (z_fin m); auto.
          -- destruct T3 as [T3 _]. congruence.
          -- destruct T3 as (t & p & T3 & [T5|T5]); [discriminate|]. exists t, p. split; [exact T3|]. apply schedule_in. now left.
          -- destruct T3 as (t & p & T3 & [T5|T5]); [discriminate|]. exists t, p. split; [exact T3|]. apply schedule_in. now left.
      + (* VMonitorInt *)
        unfold monitor_int in Hl. assert (El : z_fin m <> FRunning) by (intro E; rewrite E in Hl; discriminate).
        assert (Hl' : n = MkDNode (z_tiles m) (z_begin m) (z_next m) (z_busy m) false (z_fin m) /\ l = []).
        { destruct (z_fin m); try contradiction; now injection Hl as <- <-. }
        destruct Hl' as [-> ->]. apply G; cbn; auto; [nn|]. unfold awaited in *. cbn. destruct (z_fin m); auto; [contradiction| |].
        * destruct T3 as (t & p & T3 & [T5|T5]); [discriminate|]. exists t, p. auto.
        * destruct T3 as (t & p & T3 & [T5|T5]); [discriminate|]. exists t, p. auto.
      + (* VAllTiles *)
        unfold all_tiles in Hl. destruct (z_fin m) eqn:Ef, (forallb x_ended (z_tiles m)) eqn:Ee; try discriminate. injection Hl as <- <-.
        apply G; cbn; auto; [nn|]. unfold awaited. cbn. exists tx, Normal. split; [exact Hn|]. apply schedule_in. right.
        exists 0, Normal, VNodeEnd. split; [now (right; left)|now rewrite Z.add_0_r].
      + unfold node_end in Hl. destruct (z_fin m) eqn:Ef; try discriminate. injection Hl as <- <-.
        apply G; [nn| |cbn; intros _; apply T4; congruence]. unfold awaited. cbn. exists tx, Normal. split; [exact Hn|]. apply schedule_in. right.
        exists 0, Normal, VRunEnd. split; [now left|now rewrite Z.add_0_r].
      + unfold run_end in Hl. destruct (z_fin m) eqn:Ef; try discriminate. injection Hl as <- <-.
        apply G; [nn|exact I|cbn; intros _; apply T4; congruence].
  Qed.

  Lemma begin_timely now (tiles : list dtile) : timely (des_begin now tiles).
  Proof.
    unfold des_begin. constructor; cbn [w_queue w_now w_node z_fin z_monitor z_next].
    - apply schedule_sorted. constructor.
    - apply schedule_after; [|intros y []]. constructor; [cbn; lia|]. apply Forall_app. split.
      + apply Forall_forall. intros x Hx. apply in_map_iff in Hx as (k & <- & _). cbn. lia.
      + destruct tiles; nn.
    - unfold awaited. cbn. split; [reflexivity|]. exists Urgent. apply schedule_in. right. exists 0, Urgent, VMonitor. split; [now left|].
      now rewrite Z.add_0_r.
    - intro H. now contradiction H.
  Qed.
End Fair.
