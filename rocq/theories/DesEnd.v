(** Every simulation returns, raises an exception, or comes to a state in which nothing happens any more. *)
From Coq Require Import Permutation Sorting.Sorted.
From Verif Require Import PyBase PyLemmas MemoryModel CoreModel DramModel DramProofs RouterModel SystemModel DesModel DesSpec DesQueue DesExamples DesWaitNode DesWaitQueue DesIdleSpec DesIdle DesCost DesCostNode DesEndSpec.

Lemma total_perm {A} (f : A -> Z) l l' : Permutation l l' -> total f l = total f l'.
Proof. induction 1; cbn; lia. Qed.
Lemma total_map {A B} (g : A -> B) (f : B -> Z) l : total f (map g l) = total (fun a => f (g a)) l.
Proof. induction l as [|a l IH]; cbn; lia. Qed.
Lemma total_ext {A} (f g : A -> Z) l : (forall a, f a = g a) -> total f l = total g l.
Proof. intros H. induction l as [|a l IH]; cbn; [reflexivity|]. rewrite H. lia. Qed.
Lemma real_keeps c : keeps (real c).
Proof.
  split.
  - intros m r q H. cbn in *. destruct (mem_read _ _ _ _). exact H.
  - intros m r rows q H. cbn in *. destruct (mem_write _ _ _ _). cbn. now apply ready_mono.
Qed.
Section End.
Variables (c : sys_cfg) (j : job) (t0 : Z).
Definition measure (s : sim) : Z := node_cost (real c) (w_node s) + total (fun x => weight (e_ev x)) (w_queue s).
Lemma core_nonneg {K} (x : dcore K) : 0 <= core_cost x.
Proof.
  unfold core_cost. pose proof (zlen_nonneg (k_wait x)). pose proof (zlen_nonneg (t_f (k_buf x))). pose proof (zlen_nonneg (t_d (k_buf x))). pose proof (zlen_nonneg (t_x (k_buf x))).
  pose proof (stage_nonneg SF (t_f (k_stage x))). pose proof (stage_nonneg SD (t_d (k_stage x))). pose proof (stage_nonneg SX (t_x (k_stage x))). pose proof (xp_nonneg (k_xp x)).
  assert (0 <= match k_proc x with CNew => 5 | CRunning => 1 | _ => 0 end) by (destruct (k_proc x); lia). assert (0 <= match k_mon x with MEnd => 0 | _ => 1 end) by (destruct (k_mon x); lia). lia.
Qed.
Lemma ctl_nonneg {K M} (P : machine K M) (d : dctl M) : 0 <= ctl_cost P d.
Proof.
  unfold ctl_cost. pose proof (items_nonneg P (c_mem d) (c_items d)). pose proof (handler_nonneg P d). pose proof (zlen_nonneg (c_pending d)). pose proof (zlen_nonneg (c_starting d)). pose proof (zlen_nonneg (c_waiting d)).
  assert (0 <= match c_bus d with BFree => 0 | BGranted _ => 3 | BTiming _ _ => 2 end) by (destruct (c_bus d); lia). lia.
Qed.
Lemma rt_nonneg u : 0 <= rt_cost u.
Proof. unfold rt_cost. pose proof (zlen_nonneg (u_queue u)). pose proof (sender_nonneg (u_sender u)). lia. Qed.
Lemma phase_nonneg p o : 0 <= phase_cost p o.
Proof. pose proof (op_nonneg o). destruct p; cbn -[Z.mul Z.max Z.add]; try lia; pose proof (zlen_nonneg rest); lia. Qed.
Lemma run_nonneg p prog : 0 <= run_cost p prog.
Proof.
  pose proof (rest_nonneg prog) as H1. pose proof (rest_nonneg (tl prog)) as H2. assert (H3 : 0 <= head_cost p prog) by (unfold head_cost; destruct prog; apply phase_nonneg). unfold run_cost. destruct p; lia.
Qed.
Lemma tile_nonneg {K M} (P : machine K M) t : 0 <= tile_cost P t.
Proof.
  unfold tile_cost. pose proof (ctl_nonneg P (x_ctl t)). pose proof (rt_nonneg (x_rt t)). pose proof (run_nonneg (x_phase t) (x_prog t)). pose proof (total_nonneg core_cost (x_cores t) core_nonneg). pose proof (zlen_nonneg (x_cores t)).
  destruct (x_phase t); lia.
Qed.
Lemma measure_nonneg s : 0 <= measure s.
Proof.
  unfold measure, node_cost. pose proof (total_nonneg (tile_cost (real c)) (z_tiles (w_node s)) (tile_nonneg _)).
  assert (0 <= total (fun x : entry ev => weight (e_ev x)) (w_queue s)) by (apply total_nonneg; intros x; apply weight_nonneg). destruct (z_fin (w_node s)); lia.
Qed.
Lemma step_is s s' : des_step (real c) c s = NStep s' -> exists x q n new, w_queue s = x :: q /\ fire (real c) c (e_time x) (e_ev x) (w_node s) = DGo n new /\ s' = MkDes (e_time x) (schedule (e_time x) new q) n.
Proof. unfold des_step. intros HS. destruct (z_fin (w_node s)); try discriminate; (destruct (w_queue s) as [|x q]; [discriminate|]; destruct (fire (real c) c (e_time x) (e_ev x) (w_node s)) as [n new| |] eqn:E; try discriminate; injection HS as <-; eauto 8). Qed.
Lemma step_measure s s' : des_step (real c) c s = NStep s' -> measure s' + works s <= measure s.
Proof.
  intros H. apply step_is in H as (x & q & n & new & EQ & EF & ->). pose proof (fire_spends (real c) c (e_time x) (e_ev x) (w_node s) (real_keeps c)) as HF. rewrite EF in HF.
  unfold measure, works. rewrite EQ. cbn [w_node w_queue total]. rewrite (total_perm _ _ _ (schedule_perm (e_time x) new q)), total_app, total_map. change (total (fun a => weight (e_ev (at_time (e_time x) a))) new) with (cnt new).
  destruct (e_ev x); cbn [weight tick] in *; lia.
Qed.
Theorem work_bounded n : forall s, events_of_work c n s <= measure s.
Proof.
  induction n as [|n IH]; intros s; cbn [events_of_work]; [apply measure_nonneg|]. destruct (des_step (real c) c s) as [s'| | | |] eqn:E; try apply measure_nonneg. pose proof (step_measure s s' E). specialize (IH s'). lia.
Qed.
Lemma sum_total {A} (f : A -> Z) l : sum_of f l = total f l.
Proof. induction l as [|a l IH]; [reflexivity|]. unfold sum_of, zsum in *. cbn. now rewrite IH. Qed.
Lemma first_measure : measure (des_first c t0 j) <= all_events c j.
Proof.
  unfold measure, des_first. set (tiles := map _ (zrange (w_tiles (y_net c)))). unfold des_begin. cbn [w_node w_queue]. rewrite (total_perm _ _ _ (schedule_perm _ _ _)), app_nil_r, total_map.
  cbn [total]. rewrite total_app, total_map. cbn [at_time e_ev snd start soon weight tick]. unfold node_cost. cbn [z_tiles z_fin].
  assert (H1 : total (fun _ : nat => 1) (seq 0 (length tiles)) = zlen tiles). { unfold zlen. generalize 0%nat. induction (length tiles) as [|k IH]; intros a; [reflexivity|]. cbn [seq total]. rewrite IH. lia. }
  assert (H2 : total (fun z : Z * prio * ev => weight (e_ev (at_time t0 z))) (match tiles with [] => [soon VAllTiles] | _ => [] end) <= 1) by (destruct tiles; cbn; lia).
  unfold all_events. rewrite sum_total. enough (total (tile_cost (real c)) tiles + zlen tiles <= total (tile_events j) (zrange (w_tiles (y_net c)))) by (cbn [at_time e_ev snd] in *; lia).
  unfold tiles. clear. induction (zrange (w_tiles (y_net c))) as [|i l IH]; [reflexivity|]. cbn [map total]. rewrite len_cons.
  enough (tile_cost (real c) (tile_new (cells_new c (j_activation j) i) (j_cores j i) (j_prog j i)) + 1 <= tile_events j i) by lia.
  unfold tile_new, tile_cost, tile_events. cbn [x_ctl x_rt x_cores x_phase x_prog run_cost]. rewrite !sum_total, total_map.
  assert (E1 : total (fun kp : core * list cop => core_cost (core_new kp)) (j_cores j i) + zlen (map core_new (j_cores j i)) = total (fun kp => 7 + 23 * zlen (snd kp)) (j_cores j i)).
  { induction (j_cores j i) as [|kp r IHr]; [reflexivity|]. cbn [map total]. rewrite len_cons. unfold core_cost at 1. cbn -[zlen Z.mul Z.add total]. change (zlen (@nil cop)) with 0. lia. }
  assert (E2 : total (fun o => 1 + op_cost o) (j_prog j i) = total op_events (j_prog j i)).
  { apply total_ext. intros [| |]; cbn [op_cost op_events]; lia. }
  change (ctl_cost (real c) (ctl_new (cells_new c (j_activation j) i))) with 0. change (rt_cost rt_new) with 0. lia.
Qed.
Theorem events_bounded n : events_of_work c n (des_first c t0 j) <= all_events c j.
Proof. pose proof (work_bounded n (des_first c t0 j)). pose proof first_measure. lia. Qed.

(** ** Ticks *)
Definition live (n : dnode core cells_valid) (e : ev) : Prop :=
  match e with
  | VMonitor => False
  | VPoll i | VPollTime i => exists T, the_tile n i = Some T /\ u_queue (x_rt T) = []
  | _ => True
  end.
Definition lives (s : sim) (T : Z) : Prop := exists x, In x (w_queue s) /\ e_time x = T /\ live (w_node s) (e_ev x).
(** How often the ticks of an entry can still happen before a time. *)
Definition ahead (T : Z) (x : entry ev) : Z :=
  match e_ev x with
  | VMonitor => Z.max 0 (T - e_time x + 1)
  | VPoll _ => Z.max 0 (2 * (T - e_time x) + 1)
  | VPollTime _ => Z.max 0 (2 * (T - e_time x) + 2)
  | _ => 0
  end.
Definition ticks_left (T : Z) (s : sim) : Z := total (ahead T) (w_queue s).
Lemma ahead_nonneg T x : 0 <= ahead T x.
Proof. unfold ahead. destruct (e_ev x); lia. Qed.
Lemma left_nonneg T s : 0 <= ticks_left T s.
Proof. apply total_nonneg, ahead_nonneg. Qed.
Lemma live_same (n n' : dnode core cells_valid) e : (forall i T, the_tile n i = Some T -> exists T', the_tile n' i = Some T' /\ x_rt T' = x_rt T) -> live n e -> live n' e.
Proof. intros H. destruct e; auto; cbn; intros (T & H1 & H2); destruct (H _ _ H1) as (T' & H3 & H4); exists T'; rewrite H4; auto. Qed.
Lemma in_total {A} (f : A -> Z) l x : (forall a, 0 <= f a) -> In x l -> f x <= total f l.
Proof. intros H. induction l as [|a l IH]; intros HI; [contradiction|]. cbn. pose proof (total_nonneg f l H). pose proof (H a). destruct HI as [-> |HI]; [lia|]. specialize (IH HI). lia. Qed.
Lemma tick_step s s' T : ok c s -> lives s T -> des_step (real c) c s = NStep s' -> works s = 0 -> lives s' T /\ ticks_left T s' < ticks_left T s.
Proof.
  intros [HT HQ] (y & Y1 & Y2 & Y3) HS HW. pose proof (ti_sorted _ HT) as SO. apply step_is in HS as (x & q & n & new & EQ & EF & ->). rewrite EQ in Y1, SO. pose proof (head_first x q y SO Y1) as LE. unfold works in HW. rewrite EQ in HW. unfold ticks_left. rewrite EQ. cbn [w_queue total].
  rewrite (total_perm _ _ _ (schedule_perm (e_time x) new q)), total_app, total_map.
  assert (KEEP : (forall i U, the_tile (w_node s) i = Some U -> exists U', the_tile n i = Some U' /\ x_rt U' = x_rt U) -> In y q -> lives (MkDes (e_time x) (schedule (e_time x) new q) n) T).
  { intros H HI. exists y. split; [apply schedule_in; now left|]. split; [exact Y2|]. now apply (live_same (w_node s)). }
  assert (HA : ahead T x = match e_ev x with VMonitor => Z.max 0 (T - e_time x + 1) | VPoll _ => Z.max 0 (2 * (T - e_time x) + 1) | VPollTime _ => Z.max 0 (2 * (T - e_time x) + 2) | _ => 0 end) by reflexivity.
  destruct (e_ev x) eqn:EX; try discriminate; cbn [fire] in EF.
  - (* monitor *)
    assert (NY : In y q) by (destruct Y1 as [<-|Y1]; [rewrite EX in Y3; contradiction|exact Y1]). unfold on_monitor in EF. destruct (negb (z_monitor (w_node s))).
    + injection EF as <- <-. split; [apply KEEP; eauto|]. cbn [total]. rewrite HA. lia.
    + destruct (negb _); [discriminate|]. injection EF as <- <-. split; [apply KEEP; [|exact NY]; intros i U HU; exists U; auto|]. cbn [total]. rewrite HA. unfold ahead at 1. cbn -[Z.mul Z.sub Z.add]. lia.
  - unfold on_tile in EF. destruct (the_tile (w_node s) i) as [U|] eqn:EU; [|discriminate]. destruct (is_new U); [discriminate|]. unfold on_poll in EF. destruct (x_phase U) eqn:EP; try discriminate. destruct (e_time x <? next); [discriminate|].
    assert (SAME : forall p, forall k V, the_tile (w_node s) k = Some V -> exists V', the_tile (put_tile (w_node s) i (dt_phase U p)) k = Some V' /\ x_rt V' = x_rt V).
    { intros p k V HV. rewrite (tile_put (w_node s) i U _ k EU). destruct (k =? i) eqn:EK; [|eauto]. assert (k = i) as -> by lia. rewrite EU in HV. injection HV as <-. eauto. }
    destruct (u_queue (x_rt U)) as [|pk l] eqn:EQU; cbn [dmap] in EF; injection EF as <- <-.
    + split; [|cbn [total]; rewrite HA; unfold ahead at 1; cbn -[Z.mul Z.sub Z.add]; lia]. destruct Y1 as [<-|Y1]; [|apply KEEP; [apply SAME|exact Y1]].
      exists (e_time x + 0, Normal, VEmpty i). split; [apply schedule_in; right; exists 0, Normal, (VEmpty i); split; [now left|reflexivity]|]. split; [cbn; lia|exact I].
    + split; [|cbn [total]; rewrite HA; unfold ahead at 1; cbn -[Z.mul Z.sub Z.add]; lia]. apply KEEP; [apply SAME|]. destruct Y1 as [<-|Y1]; [|exact Y1]. exfalso. rewrite EX in Y3. cbn in Y3. destruct Y3 as (V & V1 & V2). rewrite EU in V1. injection V1 as <-. rewrite EQU in V2. discriminate.
  - unfold on_tile in EF. destruct (the_tile (w_node s) i) as [U|] eqn:EU; [|discriminate]. destruct (is_new U); [discriminate|]. unfold on_poll_time in EF. destruct (x_phase U) eqn:EP; try discriminate. cbn [dmap] in EF. injection EF as <- <-.
    assert (SAME : forall k V, the_tile (w_node s) k = Some V -> exists V', the_tile (put_tile (w_node s) i U) k = Some V' /\ x_rt V' = x_rt V).
    { intros k V HV. rewrite (tile_put (w_node s) i U _ k EU). destruct (k =? i) eqn:EK; [|eauto]. assert (k = i) as -> by lia. rewrite EU in HV. injection HV as <-. eauto. }
    split; [|cbn [total]; rewrite HA; unfold ahead at 1; cbn -[Z.mul Z.sub Z.add]; lia]. destruct Y1 as [<-|Y1]; [|apply KEEP; [apply SAME|exact Y1]].
    exists (e_time x + 0, Urgent, VPoll i). split; [apply schedule_in; right; exists 0, Urgent, (VPoll i); split; [now left|reflexivity]|]. split; [cbn; lia|].
    apply (live_same (w_node s)); [exact SAME|]. rewrite EX in Y3. exact Y3.
Qed.
(** Something other than ticks is waited for, or nothing but ticks. *)
Lemma lives_or_idle s : ok c s -> z_fin (w_node s) <> FEnd -> (exists T, lives s T) \/ only_ticks s.
Proof.
  intros [HT HQ] HF. assert (D : (exists x, In x (w_queue s) /\ live (w_node s) (e_ev x)) \/ forall x, In x (w_queue s) -> ~ live (w_node s) (e_ev x)).
  { assert (DL : forall e, live (w_node s) e \/ ~ live (w_node s) e).
    { intros e. destruct e; try (left; exact I); try (right; exact (fun f => f)); cbn; (destruct (the_tile (w_node s) i) as [U|]; [|right; intros (V & H & _); discriminate]);
        (destruct (u_queue (x_rt U)) eqn:E; [left; eauto|right; intros (V & H & H2); injection H as <-; congruence]). }
    clear HT HQ HF. induction (w_queue s) as [|x q IH]; [right; intros x []|]. destruct (DL (e_ev x)) as [L|L]; [left; exists x; split; [now left|exact L]|]. destruct IH as [(y & Y1 & Y2)|IH]; [left; exists y; split; [now right|exact Y2]|].
    right. intros y [<-|HY]; auto. }
  destruct D as [(x & X1 & X2)|D]; [left; exists (e_time x), x; auto|right]. pose proof (ti_awaited _ HT) as HA. unfold awaited in HA. split.
  - destruct (z_fin (w_node s)) eqn:E; auto; [destruct HA as (t & p & _ & HI)|destruct HA as (t & p & _ & HI)|contradiction]; exfalso; apply (D _ HI); exact I.
  - intros x HI. specialize (D x HI). pose proof (q_waits _ _ _ _ HQ) as HW. rewrite Forall_forall in HW. specialize (HW x HI).
    destruct (e_ev x); try (apply D; exact I); try exact I; cbn in HW, D; destruct HW as (U & HU & _); exists U; (split; [exact HU|]); intros E; apply D; eauto.
Qed.
Definition over (s : sim) : Prop := returned c s \/ (exists e, raised c s e) \/ only_ticks s.
(** With something to wait for, an event other than a tick comes. *)
Lemma works_at_last T : forall k s, ticks_left T s < Z.of_nat k -> sim_reach c j t0 s -> lives s T ->
  exists n s', goes_on c n s s' /\ sim_reach c j t0 s' /\ (over s' \/ measure s' < measure s).
Proof.
  induction k as [|k IH]; intros s HK HR HL; [pose proof (left_nonneg T s); lia|]. destruct (sim_goes_on c j t0 s HR) as [(s' & HS)|[HE|HE]].
  - assert (HR' : sim_reach c j t0 s') by (econstructor; eauto). pose proof (step_measure s s' HS) as HM. destruct (Z.eq_dec (works s) 0) as [W|W].
    + destruct (tick_step s s' T (reach_ok c j t0 s HR) HL HS W) as [HL' HD]. destruct (IH s' ltac:(lia) HR' HL') as (n & u & G & HU & HO). exists (S n), u. split; [unfold goes_on; cbn; rewrite HS; exact G|]. split; [exact HU|].
      destruct HO as [HO|HO]; [now left|right; lia].
    + exists 1%nat, s'. split; [unfold goes_on; cbn; now rewrite HS|]. split; [exact HR'|]. right. assert (0 < works s); [|lia]. unfold works in *. destruct (w_queue s) as [|x q]; [contradiction|]. destruct (e_ev x); lia.
  - exists 0%nat, s. split; [reflexivity|]. split; [exact HR|]. left. right. left. exact HE.
  - exists 0%nat, s. split; [reflexivity|]. split; [exact HR|]. left. left. exact HE.
Qed.
Lemma ends_from : forall k s, measure s < Z.of_nat k -> sim_reach c j t0 s -> exists n s', goes_on c n s s' /\ over s'.
Proof.
  induction k as [|k IH]; intros s HK HR; [pose proof (measure_nonneg s); lia|]. destruct (sim_goes_on c j t0 s HR) as [(s1 & HS)|[HE|HE]].
  - assert (HF : z_fin (w_node s) <> FEnd) by (intros E; unfold des_step in HS; rewrite E in HS; discriminate).
    destruct (lives_or_idle s (reach_ok c j t0 s HR) HF) as [(T & HL)|HI]; [|exists 0%nat, s; split; [reflexivity|right; right; exact HI]].
    destruct (works_at_last T (Z.to_nat (ticks_left T s + 1)) s) as (n & u & G & HU & HO); auto; [pose proof (left_nonneg T s); lia|]. destruct HO as [HO|HO]; [eauto|].
    destruct (IH u ltac:(lia) HU) as (n' & v & G' & HV). exists (n + n')%nat, v. split; [|exact HV]. unfold goes_on. rewrite (run_add c n n' s u G). exact G'.
  - exists 0%nat, s. split; [reflexivity|]. right. left. exact HE.
  - exists 0%nat, s. split; [reflexivity|]. left. exact HE.
Qed.
Theorem sim_ends : exists n s, goes_on c n (des_first c t0 j) s /\ (returned c s \/ (exists e, raised c s e) \/ only_ticks s).
Proof. apply (ends_from (Z.to_nat (measure (des_first c t0 j) + 1))); [pose proof (measure_nonneg (des_first c t0 j)); lia|constructor]. Qed.
(** A simulation that never ends is one that comes to a state with nothing but ticks. *)
Theorem endless_iff : (forall s, sim_reach c j t0 s -> exists s', des_step (real c) c s = NStep s') <-> exists s, sim_reach c j t0 s /\ only_ticks s.
Proof.
  split.
  - intros H. destruct sim_ends as (n & s & G & HO). assert (HR : sim_reach c j t0 s). { pose proof (run_reach c j t0 n _ (sim_first c j t0)) as HR. unfold goes_on in G. rewrite G in HR. exact HR. }
    destruct (H s HR) as (s' & HS). destruct HO as [HO|[(e & HO)|HO]]; [unfold returned in HO; congruence|unfold raised in HO; congruence|eauto].
  - intros (s & HR & HI). apply reach_runs in HR as (N & G). exact (hangs_from c j t0 N s G HI).
Qed.
End End.
