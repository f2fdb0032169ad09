(** How many events a state of the event simulation can still lead to: tiles and the node. *)
From Verif Require Import PyBase PyLemmas CoreModel DramModel DramProofs RouterModel SystemModel DesModel DesCost.

Lemma rows_len w vec data : zlen (rows_of w vec data) = Z.max 0 vec.
Proof. unfold rows_of, zlen. rewrite map_length, length_zrange. lia. Qed.
Lemma len_upd {A} (l : list A) k y : zlen (upd l k y) = zlen l.
Proof. unfold zlen. now rewrite length_upd. Qed.
Lemma len_seq {A} (l : list A) : zlen (seq 0 (length l)) = zlen l.
Proof. unfold zlen. now rewrite seq_length. Qed.
Section Node.
  Context {K M : Type}.
  Variable P : machine K M.
  Variable c : sys_cfg.
  Notation dcore := (dcore K). Notation dctl := (dctl M). Notation dtile := (dtile K M). Notation dnode := (dnode K M).
  Notation ctl_cost := (ctl_cost P). Notation tile_cost := (tile_cost P). Notation node_cost := (node_cost P).
  Local Opaque zlen Z.mul Z.add cnt.
  Ltac ct := rewrite ?cnt_app, ?cnt_cons, ?cnt_nil, ?len_cons, ?len_nil; cbn [snd soon start later weight tick].

  Lemma op_nonneg o : 0 <= op_cost o.
  Proof. destruct o; cbn; lia. Qed.
  Lemma rest_nonneg l : 0 <= total (fun o => 1 + op_cost o) l.
  Proof. apply total_nonneg. intros o. pose proof (op_nonneg o). lia. Qed.
  Definition outside (t : dtile) : Z := ctl_cost (x_ctl t) + rt_cost (x_rt t) + total (@core_cost K) (x_cores t).
  Lemma tile_is t : is_new t = false -> tile_cost t = outside t + run_cost (x_phase t) (x_prog t).
  Proof. intros H. unfold DesCost.tile_cost, outside. unfold is_new in H. destruct (x_phase t); try discriminate; lia. Qed.
  Ltac ti := rewrite !tile_is by (unfold is_new; cbn; try reflexivity; match goal with E : x_phase _ = _ |- _ => rewrite E; reflexivity end); unfold outside; cbn [x_ctl x_rt x_cores x_phase x_prog dt_phase dt_ctl dt_rt dt_core].


  Lemma next_instr_cost b now i t : outside (fst (next_instr b now i t)) = outside t /\ is_new (fst (next_instr b now i t)) = false /\
    run_cost (x_phase (fst (next_instr b now i t))) (x_prog (fst (next_instr b now i t))) + cnt (snd (next_instr b now i t)) = 2 + total (fun o => 1 + op_cost o) (x_prog t).
  Proof. unfold next_instr. destruct (x_prog t) as [|o r] eqn:E; cbn [fst snd]; (split; [reflexivity|]); (split; [reflexivity|]); cbn; rewrite ?E; ct; cbn; lia. Qed.
  Lemma starts_cnt i l : cnt (map (fun k => start (VCore i (Z.of_nat k))) l) = zlen l.
  Proof. induction l as [|a l IH]; [reflexivity|]. cbn [map]. ct. lia. Qed.
  Lemma handler_nonneg (d : dctl) : 0 <= match c_handler d with HGot r => req_cost P (c_mem d) r - 1 | _ => 0 end.
  Proof. destruct (c_handler d); try lia. pose proof (req_nonneg P (c_mem d) r). lia. Qed.
  Lemma items_nonneg (m : M) l : 0 <= total (req_cost P m) l.
  Proof. apply total_nonneg. intros r. pose proof (req_nonneg P m r). lia. Qed.
  Lemma sender_nonneg z : 0 <= sender_cost z.
  Proof. destruct z; cbn; lia. Qed.
  Lemma tile_start_spends b now i t : spends tile_cost t (tile_start c b now i t).
  Proof.
    unfold tile_start. destruct (x_phase t) eqn:E; try exact I. destruct (negb (now =? b)); [exact I|].
    assert (HC : forall d l, ctl_run now i (x_ctl t) = (d, l) -> ctl_cost d + cnt l <= ctl_cost (x_ctl t) + 1).
    { intros d l. unfold ctl_run. destruct (c_running (x_ctl t)); intros H; injection H as <- <-; ct; [lia|]. unfold DesCost.ctl_cost. cbn. change (zlen (@nil req)) with 0.
      pose proof (items_nonneg (c_mem (x_ctl t)) (c_items (x_ctl t))). pose proof (handler_nonneg (x_ctl t)). pose proof (zlen_nonneg (c_starting (x_ctl t))). pose proof (zlen_nonneg (c_waiting (x_ctl t))). destruct (c_bus (x_ctl t)); lia. }
    assert (HU : forall u l, rt_run c i (x_rt t) = (u, l) -> rt_cost u + cnt l <= rt_cost (x_rt t) + 1).
    { intros u l. unfold rt_run. destruct (u_running (x_rt t)); intros H; injection H as <- <-; ct; [lia|]. unfold rt_cost. cbn. change (zlen (@nil packet)) with 0.
      pose proof (zlen_nonneg (u_queue (x_rt t))). pose proof (sender_nonneg (u_sender (x_rt t))). lia. }
    destruct (ctl_run now i (x_ctl t)) as [d l1]. destruct (rt_run c i (x_rt t)) as [u l2]. specialize (HC d l1 eq_refl). specialize (HU u l2 eq_refl).
    destruct (next_instr_cost b now i (dt_rt (dt_ctl t d) u)) as (H1 & H2 & H3). destruct (next_instr b now i (dt_rt (dt_ctl t d) u)) as [t1 l3]. cbn [fst snd] in *. cbn [spends]. rewrite (tile_is t1 H2), H1. ct. rewrite starts_cnt.
    rewrite len_seq. cbn [dt_rt dt_ctl x_prog] in H3. unfold outside, DesCost.tile_cost. cbn [dt_rt dt_ctl x_rt x_ctl x_cores]. rewrite E. cbn [run_cost]. lia.
  Qed.
  Lemma op_end_saves now i t : is_new t = false -> 3 + total (fun o => 1 + op_cost o) (tl (x_prog t)) <= run_cost (x_phase t) (x_prog t) -> saves tile_cost t (op_end now i t).
  Proof. intros H H2. unfold saves, op_end. cbn [fst snd]. ct. rewrite (tile_is t H). ti. unfold outside. cbn. destruct (x_prog t); cbn in *; lia. Qed.
  Lemma on_op_end_spends b now i t : spends tile_cost t (on_op_end b now i t).
  Proof.
    unfold on_op_end. destruct (x_phase t) eqn:E; try exact I. destruct (negb _); [exact I|]. apply go_spends. unfold saves. set (t1 := MkDTile _ _ _ _ _ _ _).
    destruct (next_instr_cost b now i t1) as (H1 & H2 & H3). rewrite (tile_is _ H2), H1, (tile_is t) by (unfold is_new; now rewrite E). rewrite E. change (outside t1) with (outside t). cbn [t1 x_prog] in H3.
    cbn [run_cost]. destruct (x_prog t); cbn in H3 |- *; lia.
  Qed.
  Lemma send_rows_saves now i rows t : is_new t = false -> 3 + 10 * zlen rows + total (fun o => 1 + op_cost o) (tl (x_prog t)) <= run_cost (x_phase t) (x_prog t) -> saves tile_cost t (send_rows now i rows t).
  Proof.
    intros H H2. unfold send_rows. destruct rows as [|row rest].
    - apply op_end_saves; [exact H|]. change (zlen (@nil (list Z))) with 0 in H2. lia.
    - unfold saves. cbn [fst snd]. ct. rewrite len_cons in H2. rewrite (tile_is t H). ti. unfold outside. cbn. destruct (x_prog t); cbn in *; lia.
  Qed.
  Lemma submit_tile now i a kd t p : is_new t = false -> 9 + run_cost (p 0) (x_prog t) <= run_cost (x_phase t) (x_prog t) -> (forall k, is_new (dt_phase t (p k)) = false) -> (forall k, run_cost (p k) (x_prog t) = run_cost (p 0) (x_prog t)) ->
    spends tile_cost t (dmap (fun rd => dt_phase (dt_ctl t (snd rd)) (p (q_id (fst rd)))) (submit now i (-1) a kd (x_ctl t))).
  Proof.
    intros H H2 H3 H4. pose proof (submit_spends P now i (-1) a kd (x_ctl t)) as HS. destruct (submit now i (-1) a kd (x_ctl t)) as [[r d] new| |]; try exact I. cbn [dmap spends fst snd] in *.
    rewrite (tile_is t H), tile_is by exact (H3 _). unfold outside. cbn [dt_phase dt_ctl x_ctl x_rt x_cores x_phase x_prog]. rewrite H4. lia.
  Qed.
  Lemma recv_rows_spends now i addr src w vec got t rest : is_new t = false -> x_prog t = TRecv addr src w vec :: rest ->
    12 + 3 * Z.max 0 (vec - zlen got) + total (fun o => 1 + op_cost o) rest <= run_cost (x_phase t) (x_prog t) -> spends tile_cost t (recv_rows now i addr vec got t).
  Proof.
    intros H E H2. unfold recv_rows. destruct (zlen got <? vec) eqn:EV.
    - cbn [spends]. ct. rewrite (tile_is t H). ti. rewrite E in *. cbn in *. lia.
    - apply submit_tile with (p := TRecvWrite); auto. rewrite E in *. cbn in *. lia.
  Qed.
  Lemma head_is p prog : match p with TNew | TDone => False | _ => True end -> run_cost p prog = 2 + head_cost p prog + total (fun o => 1 + op_cost o) (tl prog).
  Proof. destruct p; try contradiction; reflexivity. Qed.
  Lemma on_op_spends now i t : spends tile_cost t (on_op now i t).
  Proof.
    unfold on_op. destruct (x_phase t) eqn:E; try exact I. assert (HN : is_new t = false) by (unfold is_new; now rewrite E). destruct (x_prog t) as [|[addr target width vec|addr src width vec|] rest] eqn:EP; try exact I.
    - apply submit_tile with (p := TSendRead); auto. rewrite E, EP. cbn. lia.
    - destruct (_ || _); [exact I|]. apply (recv_rows_spends now i addr src width vec [] t rest HN EP). change (zlen (@nil (list Z))) with 0. rewrite E, EP. cbn. lia.
    - destruct (x_cores t) eqn:EC; [|rewrite <- EC; destruct (forallb core_over (x_cores t))].
      + unfold begin_stop. cbn [go spends fst snd]. ct. ti. rewrite E, EP, EC. cbn. lia.
      + cbn [spends]. ct. ti. rewrite E, EP. cbn. lia.
      + cbn [spends]. ct. ti. rewrite E, EP. cbn. lia.
  Qed.
  Lemma tile_done_spends now i id t : spends tile_cost t (tile_done now i id t).
  Proof.
    unfold tile_done. destruct (x_phase t) eqn:E; try exact I; (assert (HN : is_new t = false) by (unfold is_new; now rewrite E)); destruct (x_prog t) as [|[addr target width vec|addr src width vec|] rest] eqn:EP; try exact I; destruct (value_of _ _); try exact I; destruct (negb _); try exact I.
    - destruct (_ || _); [exact I|]. apply go_spends, send_rows_saves; auto. rewrite rows_len, E, EP. cbn. lia.
    - apply go_spends, op_end_saves; auto. rewrite E, EP. cbn. lia.
  Qed.
  Lemma on_add_spends now i t : spends tile_cost t (on_add c now i t).
  Proof.
    unfold on_add. destruct (x_phase t) eqn:E; try exact I. destruct (x_prog t) as [|[addr target width vec|addr src width vec|] ?] eqn:EP; try exact I. unfold dbind, timeout. destruct (_ <? 0); [exact I|]. cbn [spends]. ct. ti. unfold rt_cost. cbn.
    rewrite E, EP, len_snoc. cbn. lia.
  Qed.
  Lemma on_add_time_spends now i t : spends tile_cost t (on_add_time c now i t).
  Proof. unfold on_add_time. destruct (x_phase t) eqn:E; try exact I. destruct (now <? _); [exact I|]. cbn [spends]. ct. ti. unfold rt_cost. cbn. rewrite E. destruct (x_prog t); cbn; lia. Qed.
  Lemma on_added_spends now i t : spends tile_cost t (on_added now i t).
  Proof. unfold on_added. destruct (x_phase t) eqn:E; try exact I. apply go_spends, send_rows_saves; [unfold is_new; now rewrite E|]. rewrite E. destruct (x_prog t); cbn; lia. Qed.
  Lemma on_read_end_spends now i t : spends tile_cost t (on_read_end now i t).
  Proof.
    unfold on_read_end. destruct (x_phase t) eqn:E; try exact I. assert (HN : is_new t = false) by (unfold is_new; now rewrite E). destruct (x_prog t) as [|[addr target width vec|addr src0 width vec|] rest] eqn:EP; try exact I. destruct (zlen data =? width).
    - apply (recv_rows_spends now i addr src0 width vec (got ++ [data]) t rest HN EP). rewrite E, EP, len_snoc. cbn. lia.
    - apply go_spends, op_end_saves; auto. rewrite E, EP. cbn. lia.
  Qed.
  Lemma on_stop_spends now i t : spends tile_cost t (on_stop now i t).
  Proof. unfold on_stop. destruct (x_phase t) eqn:E; try exact I. destruct (u_running _); cbn [spends]; ct; ti; rewrite E; destruct (x_prog t); cbn; lia. Qed.
  Lemma on_poll_spends now i t : spends tile_cost t (on_poll now i t).
  Proof. unfold on_poll. destruct (x_phase t) eqn:E; try exact I. destruct (now <? _); [exact I|]. destruct (u_queue _); cbn [spends]; ct; ti; rewrite E; destruct (x_prog t); cbn; lia. Qed.
  Lemma on_poll_time_spends i t : spends tile_cost t (on_poll_time i t).
  Proof. unfold on_poll_time. destruct (x_phase t) eqn:E; try exact I. cbn [spends]; ct; lia. Qed.
  Lemma router_stop_spends i t : is_new t = false -> 6 + total (fun o => 1 + op_cost o) (tl (x_prog t)) <= run_cost (x_phase t) (x_prog t) -> spends tile_cost t (router_stop i t).
  Proof. intros H H2. unfold router_stop. destruct (u_sender (x_rt t)) eqn:E; try exact I. cbn [spends]. ct. rewrite (tile_is t H). ti. unfold rt_cost. cbn. rewrite E. destruct (x_prog t); cbn in *; lia. Qed.
  Lemma on_empty_spends i t : spends tile_cost t (on_empty i t).
  Proof.
    unfold on_empty. destruct (x_phase t) eqn:E; try exact I. assert (HN : is_new t = false) by (unfold is_new; now rewrite E).
    assert (R : spends tile_cost t (router_stop i t)) by (apply router_stop_spends; auto; rewrite E; destruct (x_prog t); cbn; lia).
    destruct (u_event (x_rt t)) as [[n [| |]]|]; auto; cbn [spends]; ct; ti; rewrite E; destruct (x_prog t); cbn; lia.
  Qed.
  Lemma on_sent_spends i n t : spends tile_cost t (on_sent i n t).
  Proof.
    unfold on_sent. assert (Z0 : spends tile_cost t (DGo t [])) by (cbn [spends]; ct; lia). destruct (u_event (x_rt t)) as [[n' [| |]]|]; auto. destruct (n' =? n); auto. set (t1 := dt_rt t _).
    assert (E1 : tile_cost t1 = tile_cost t) by reflexivity. assert (Z1 : spends tile_cost t (DGo t1 [])) by (cbn [spends]; ct; lia). destruct (x_phase t) eqn:E; auto. match goal with |- context [?a =? n] => destruct (a =? n); auto end.
    assert (R : spends tile_cost t1 (router_stop i t1)) by (apply router_stop_spends; [unfold is_new; cbn; now rewrite E|cbn; rewrite E; destruct (x_prog t); cbn; lia]). exact R.
  Qed.
  Lemma on_stopped_spends now i t : spends tile_cost t (on_stopped now i t).
  Proof.
    unfold on_stopped. destruct (x_phase t) eqn:E; try exact I. pose proof (ctl_stop_spends P now i (x_ctl t)) as H. destruct (ctl_stop now i (x_ctl t)) as [d new| |]; try exact I. unfold dbind, go, op_end. cbn [fst snd spends]. ct. ti. rewrite E. destruct (x_prog t); cbn; lia.
  Qed.
  Lemma on_all_cores_spends i t : spends tile_cost t (on_all_cores i t).
  Proof. unfold on_all_cores. destruct (x_phase t) eqn:E; try exact I. unfold begin_stop. cbn [go spends fst snd]. ct. ti. rewrite E. destruct (x_prog t); cbn; lia. Qed.
  Lemma core_cost_upd (l : list dcore) k x y : nth_error l k = Some x -> total (@core_cost K) (upd l k y) = total (@core_cost K) l - core_cost x + core_cost y.
  Proof. apply total_upd. Qed.
  Lemma core_end_spends i k t : is_new t = false -> spends tile_cost t (core_end i k t).
  Proof.
    intros HN. unfold core_end. destruct (nth_error (x_cores t) (Z.to_nat k)) as [x|] eqn:EX; [|exact I]. destruct (k_proc x) eqn:EK; try exact I. set (t1 := dt_core t k _).
    assert (E1 : tile_cost t1 = tile_cost t). { unfold DesCost.tile_cost. cbn. rewrite (core_cost_upd _ _ x _ EX), len_upd. unfold core_cost at 2 3. cbn. rewrite EK. destruct (x_phase t); lia. }
    assert (Z1 : spends tile_cost t (DGo t1 [])) by (cbn [spends]; ct; lia). destruct (x_phase t) eqn:E; auto. destruct (forallb core_over (x_cores t1)); auto. cbn [spends]. ct. rewrite <- E1. unfold t1 in *. ti. rewrite E. destruct (x_prog t); cbn; lia.
  Qed.

  (** *** The node *)
  Lemma node_put n i t t' : the_tile n i = Some t -> node_cost (put_tile n i t') = node_cost n - tile_cost t + tile_cost t'.
  Proof. intros H. unfold the_tile in H. destruct (i <? 0); [discriminate|]. unfold DesCost.node_cost. cbn. rewrite (total_upd _ _ _ _ t' H). lia. Qed.
  Lemma on_tile_spends n i f : (forall t, the_tile n i = Some t -> is_new t = false -> spends tile_cost t (f t)) -> spends node_cost n (on_tile n i f).
  Proof.
    intros H. unfold on_tile. destruct (the_tile n i) as [t|] eqn:E; [|exact I]. destruct (is_new t) eqn:EN; [exact I|]. specialize (H t eq_refl EN). destruct (f t); try exact I. cbn [spends dmap] in *. rewrite (node_put n i t _ E). lia.
  Qed.
  Lemma on_ctl_spends n i f : (forall d, spends ctl_cost d (f d)) -> spends node_cost n (on_ctl n i f).
  Proof. intros H. apply on_tile_spends. intros t _ _. specialize (H (x_ctl t)). destruct (f (x_ctl t)); try exact I. cbn [spends dmap] in *. unfold DesCost.tile_cost. cbn. lia. Qed.
  Lemma on_rt_spends n i f : (forall u, spends rt_cost u (f u)) -> spends node_cost n (on_rt n i f).
  Proof. intros H. apply on_tile_spends. intros t _ _. specialize (H (x_rt t)). destruct (f (x_rt t)); try exact I. cbn [spends dmap] in *. unfold DesCost.tile_cost. cbn. lia. Qed.
  Lemma on_core2_spends n i k f : (forall d x, spends (both_cost P) (d, x) (f d x)) -> spends node_cost n (on_core2 n i k f).
  Proof.
    intros H. apply on_tile_spends. intros t _ HN. destruct (k <? 0); [exact I|]. destruct (nth_error (x_cores t) (Z.to_nat k)) as [x|] eqn:EX; [|exact I]. specialize (H (x_ctl t) x). destruct (f (x_ctl t) x) as [[d x'] new| |]; try exact I.
    cbn [spends dmap fst snd] in *. unfold both_cost in H. cbn in H. unfold DesCost.tile_cost. cbn. rewrite (core_cost_upd _ _ x _ EX), len_upd. lia.
  Qed.
  Lemma on_core_spends n i k f : (forall x, spends core_cost x (f x)) -> spends node_cost n (on_core n i k f).
  Proof. intros H. apply on_core2_spends. intros d x. apply alone_spends, H. Qed.
  Lemma recv_put_spends src dst n : spends node_cost n (recv_put src dst n).
  Proof.
    unfold recv_put. assert (Z0 : spends node_cost n (DGo n [])) by (cbn [spends]; ct; lia). destruct (the_tile n src) as [t|] eqn:E; auto. destruct (u_sender (x_rt t)) eqn:EU; auto. destruct (negb _); auto. set (n1 := put_tile n src _).
    destruct (the_tile n1 dst) as [t'|] eqn:E'; [|exact I]. destruct (buffer_of (x_rt t') src); auto. destruct (is_new t'); [exact I|]. cbn [spends]. ct. rewrite (node_put n1 dst t' _ E'). unfold n1. rewrite (node_put n src t _ E).
    unfold DesCost.tile_cost. cbn. unfold rt_cost. cbn. rewrite EU. cbn. lia.
  Qed.
  Lemma recv_get_spends src dst n : spends node_cost n (recv_get src dst n).
  Proof.
    unfold recv_get. assert (Z0 : spends node_cost n (DGo n [])) by (cbn [spends]; ct; lia). destruct (the_tile n dst) as [t|] eqn:E; auto. destruct (x_phase t) eqn:EP; auto. destruct (negb _); auto. destruct (buffer_of (x_rt t) src); auto.
    cbn [spends]. ct. rewrite (node_put n dst t _ E). ti. unfold rt_cost. cbn. rewrite EP. destruct (x_prog t); cbn; lia.
  Qed.
  Lemma tile_of_put (n : dnode) i t t' k : the_tile n i = Some t -> the_tile (put_tile n i t') k = if k =? i then Some t' else the_tile n k.
  Proof.
    unfold the_tile. cbn. intros H. destruct (Z.ltb_spec i 0); [discriminate|]. destruct (Z.ltb_spec k 0).
    - destruct (Z.eqb_spec k i); [lia|reflexivity].
    - rewrite nth_error_upd. destruct (Nat.eqb_spec (Z.to_nat i) (Z.to_nat k)) as [E|E], (Z.eqb_spec k i) as [E'|E']; try lia; auto.
      rewrite <- E, H. reflexivity.
  Qed.
  Lemma bind_spends n r f : spends node_cost n r -> (forall n1 new, r = DGo n1 new -> spends node_cost n1 (f n1)) -> spends node_cost n (dbind r f).
  Proof. intros H1 H2. destruct r as [n1 new| |]; try exact I. cbn [dbind]. specialize (H2 n1 new eq_refl). destruct (f n1); try exact I. cbn [spends] in *. ct. lia. Qed.
  Lemma on_offer_spends i n : spends node_cost n (on_offer c i n).
  Proof.
    unfold on_offer. destruct (the_tile n i) as [t|] eqn:E; [|exact I]. destruct (u_sender (x_rt t)) eqn:EU; try exact I. destruct (negb _); [exact I|]. set (n1 := put_tile n i _). pose proof (recv_put_spends i (pk_dst p) n1) as H.
    destruct (recv_put i (pk_dst p) n1); try exact I. cbn [spends] in *. unfold n1 in H. rewrite (node_put n i t _ E) in H. revert H. unfold DesCost.tile_cost. cbn. unfold rt_cost. cbn. rewrite EU. cbn. lia.
  Qed.
  Lemma on_read_spends i n : spends node_cost n (on_read c i n).
  Proof.
    unfold on_read. destruct (the_tile n i) as [t|] eqn:E; [|exact I]. destruct (x_phase t) eqn:EP; try exact I. destruct (x_prog t) as [|[| |] ?] eqn:EQ; try exact I. destruct (negb _); [exact I|]. set (n1 := put_tile n i _). pose proof (recv_get_spends source i n1) as H.
    destruct (recv_get source i n1); try exact I. cbn [spends] in *. unfold n1 in H. rewrite (node_put n i t _ E) in H. revert H. ti. rewrite EP, EQ. cbn. lia.
  Qed.
  Lemma recv_get_sender src dst (n n1 : dnode) new i t : recv_get src dst n = DGo n1 new -> the_tile n i = Some t -> exists t1, the_tile n1 i = Some t1 /\ u_sender (x_rt t1) = u_sender (x_rt t).
  Proof.
    unfold recv_get. intros H HT. assert (Z0 : DGo n [] = DGo n1 new -> exists t1, the_tile n1 i = Some t1 /\ u_sender (x_rt t1) = u_sender (x_rt t)) by (intros HH; injection HH as <- _; eauto).
    destruct (the_tile n dst) as [u|] eqn:E; auto. destruct (x_phase u) eqn:EP; auto. destruct (negb _); auto. destruct (buffer_of (x_rt u) src); auto. injection H as <- _.
    rewrite (tile_of_put n dst u _ i E). destruct (i =? dst) eqn:EI; [|eauto]. assert (i = dst) as -> by lia. rewrite E in HT. injection HT as ->. eauto.
  Qed.
  Lemma recv_put_phase src dst (n n1 : dnode) new i t : recv_put src dst n = DGo n1 new -> the_tile n i = Some t -> exists t1, the_tile n1 i = Some t1 /\ x_phase t1 = x_phase t.
  Proof.
    unfold recv_put. intros H HT. assert (Z0 : DGo n [] = DGo n1 new -> exists t1, the_tile n1 i = Some t1 /\ x_phase t1 = x_phase t) by (intros HH; injection HH as <- _; eauto).
    destruct (the_tile n src) as [u|] eqn:E; auto. destruct (u_sender (x_rt u)) eqn:EP; auto. destruct (negb _); auto. set (n0 := put_tile n src _) in *.
    destruct (the_tile n0 dst) as [v|] eqn:EV; [|discriminate]. destruct (buffer_of (x_rt v) src); auto. destruct (is_new v); [discriminate|]. injection H as <- _.
    assert (S1 : exists t0, the_tile n0 i = Some t0 /\ x_phase t0 = x_phase t). { unfold n0. rewrite (tile_of_put n src u _ i E). destruct (i =? src) eqn:EI; [|eauto]. assert (i = src) as -> by lia. rewrite E in HT. injection HT as ->. eauto. }
    destruct S1 as (t0 & T0 & P0). rewrite (tile_of_put n0 dst v _ i EV). destruct (i =? dst) eqn:EI; [|eauto]. assert (i = dst) as -> by lia. rewrite EV in T0. injection T0 as ->. eauto.
  Qed.
  Lemma on_taken_spends i n : spends node_cost n (on_taken i n).
  Proof.
    unfold on_taken. destruct (the_tile n i) as [t|] eqn:E; [|exact I]. destruct (u_sender (x_rt t)) eqn:EU; try exact I. apply bind_spends; [apply recv_get_spends|]. intros n1 new1 R1. destruct (recv_get_sender _ _ _ _ _ i t R1 E) as (t1 & T1 & S1).
    unfold on_tile at 1. rewrite T1. destruct (is_new t1); [exact I|]. cbn [dmap dbind]. match goal with |- context [on_tile ?n2 ?j ?f] => set (N2 := n2); assert (H : node_cost N2 + 1 <= node_cost n1); [unfold N2; rewrite (node_put n1 i t1 _ T1); unfold DesCost.tile_cost; cbn; unfold rt_cost; cbn; rewrite S1, EU; cbn; lia|] end.
    unfold on_tile. destruct (the_tile N2 (pk_dst p)) as [t2|] eqn:E2; [|exact I]. destruct (is_new t2); [exact I|]. cbn [dmap spends]. ct. rewrite (node_put N2 _ t2 _ E2). unfold DesCost.tile_cost, rt_cost. cbn. lia.
  Qed.
  Lemma on_popped_spends i n : spends node_cost n (on_popped i n).
  Proof.
    unfold on_popped. destruct (the_tile n i) as [t|] eqn:E; [|exact I]. destruct (x_phase t) eqn:EP; try exact I. apply bind_spends; [apply recv_put_spends|]. intros n1 new1 R1. destruct (recv_put_phase _ _ _ _ _ i t R1 E) as (t1 & T1 & S1). rewrite EP in S1.
    apply on_tile_spends. intros t' T' HN. rewrite T1 in T'. injection T' as <-. cbn [spends]. ct. ti. unfold rt_cost. cbn. rewrite S1. destruct (x_prog t1); cbn; lia.
  Qed.
  Lemma tile_end_spends i n : match tile_end i n with DGo n' new => node_cost n' + cnt new <= node_cost n + 1 | _ => True end.
  Proof.
    unfold tile_end. match goal with |- context [on_tile n i ?f] => assert (H : spends node_cost n (on_tile n i f)); [apply on_tile_spends; intros t _ HN; destruct (x_phase t) eqn:E; try exact I; cbn [spends]; ct; ti; rewrite E; cbn; lia|destruct (on_tile n i f)] end; try exact I.
    cbn [dbind spends] in *. ct. destruct (forallb x_ended _); ct; lia.
  Qed.
  Lemma fire_spends now e n : keeps P -> match fire P c now e n with DGo n' new => node_cost n' + cnt new <= node_cost n + (match e with VTileEnd _ => 1 | _ => 0 end) | _ => True end.
  Proof.
    intros HK. assert (G : forall r, spends node_cost n r -> match r with DGo n' new => node_cost n' + cnt new <= node_cost n + 0 | _ => True end) by (intros r; destruct r; cbn [spends]; lia).
    destruct e; cbn [fire]; try (apply G).
    - unfold on_monitor. destruct (negb (z_monitor n)); [cbn [spends]; ct; lia|]. destruct (negb _); [exact I|]. cbn [spends]. ct. unfold DesCost.node_cost. cbn. lia.
    - unfold monitor_int. destruct (z_fin n) eqn:E; try exact I; cbn [spends]; ct; unfold DesCost.node_cost; cbn; rewrite E; lia.
    - unfold start_tile. destruct (the_tile n i) as [t|] eqn:E; [|exact I]. pose proof (tile_start_spends (z_begin n) now i t) as H. destruct (tile_start c (z_begin n) now i t); try exact I. cbn [dmap spends] in *. rewrite (node_put n i t _ E). lia.
    - apply on_core_spends. intros. apply core_start_spends.
    - apply on_core_spends. intros. apply stage_start_spends.
    - apply on_core_spends. intros. apply pipe_start_spends.
    - apply on_core_spends. intros. apply on_put_spends.
    - apply on_core2_spends. intros. apply on_got_spends.
    - apply on_core_spends. intros. apply on_time_spends.
    - apply on_core_spends. intros. apply load_new_spends.
    - apply on_core_spends. intros. apply load_time_spends.
    - apply on_core_spends. intros. apply memory_end_spends.
    - apply on_core_spends. intros. apply store_new_spends.
    - apply on_core2_spends. intros. apply store_time_spends.
    - apply on_core_spends. intros. apply memory_end_spends.
    - apply on_core_spends. intros. apply stage_done_spends.
    - apply on_core_spends. intros. apply pipe_done_spends.
    - apply on_tile_spends. intros t _ HN. destruct (k <? 0); [exact I|]. now apply core_end_spends.
    - apply on_ctl_spends. intros. apply handler_start_spends.
    - apply on_ctl_spends. intros. apply go_spends, req_get_saves.
    - apply on_ctl_spends. intros. apply on_req_spends.
    - apply on_ctl_spends. intros. apply handler_int_spends.
    - apply on_ctl_spends. intros. apply thread_start_spends.
    - apply on_ctl_spends. intros. apply on_grant_spends.
    - apply on_ctl_spends. intros. now apply thread_end_spends.
    - apply on_ctl_spends. intros. apply go_spends, bus_give_saves.
    - destruct (k =? -1); [apply on_tile_spends; intros; apply tile_done_spends|]. apply on_core2_spends. intros. apply alone_spends, load_done_spends.
    - apply on_rt_spends. intros. apply sender_start_spends.
    - apply on_rt_spends. intros. apply go_spends, send_get_saves.
    - apply on_rt_spends. intros. apply on_send_spends.
    - apply on_rt_spends. intros. apply on_travel_spends.
    - apply on_offer_spends.
    - apply on_taken_spends.
    - apply on_rt_spends. intros. apply on_arrived_spends.
    - apply on_tile_spends. intros. apply on_sent_spends.
    - apply on_rt_spends. intros. apply sender_int_spends.
    - apply on_tile_spends. intros. apply on_op_spends.
    - apply on_tile_spends. intros. apply on_op_end_spends.
    - apply tile_end_spends.
    - apply on_tile_spends. intros. apply on_add_spends.
    - apply on_tile_spends. intros. apply on_add_time_spends.
    - apply on_tile_spends. intros. apply on_added_spends.
    - apply on_read_spends.
    - apply on_popped_spends.
    - apply on_tile_spends. intros. apply on_read_end_spends.
    - apply on_tile_spends. intros. apply on_all_cores_spends.
    - apply on_tile_spends. intros. apply on_stop_spends.
    - apply on_tile_spends. intros. apply on_poll_spends.
    - apply on_tile_spends. intros. apply on_poll_time_spends.
    - apply on_tile_spends. intros. apply on_empty_spends.
    - apply on_tile_spends. intros. apply on_stopped_spends.
    - unfold all_tiles. destruct (z_fin n) eqn:E; try exact I. destruct (forallb x_ended _); [|exact I]. cbn [spends]. ct. unfold DesCost.node_cost. cbn. rewrite E. lia.
    - unfold node_end. destruct (z_fin n) eqn:E; try exact I. cbn [spends]. ct. unfold DesCost.node_cost. cbn. rewrite E. lia.
    - unfold run_end. destruct (z_fin n) eqn:E; try exact I. cbn [spends]. ct. unfold DesCost.node_cost. cbn. rewrite E. lia.
  Qed.
End Node.
