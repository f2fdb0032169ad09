(** The simulation of all nodes ends if each node returns alone. *)
From Coq Require Import Permutation Sorting.Sorted.
From Verif Require Import PyBase PyLemmas MemoryModel CoreModel DramModel DramProofs RouterModel SystemModel SystemSpec StatsProofs NodeModel NodeSpec
  DesModel DesSpec DesRel DesQueue DesRun DesClaims DesWait DesWaitTile DesWaitNode DesWaitQueue DesHeap DesIdle DesCost DesCostNode DesEnd DesLate DesLateRel
  DesManyModel DesManySpec DesManyQueue DesMany DesManyRun DesManyClaims.

(** ** A node after its end *)
Definition is_monitor (x : entry ev) : Z := match e_ev x with VMonitor => 1 | _ => 0 end.
Definition rest (c : sys_cfg) (n : dnode core cells_valid) (q : list (entry ev)) : Z := node_cost (real c) n + total (fun x => weight (e_ev x)) q + total is_monitor q.
Lemma rest_nonneg c n q : 0 <= rest c n q.
Proof.
  unfold rest. pose proof (measure_nonneg c (MkDes 0 q n)) as H. unfold measure in H. cbn in H. assert (0 <= total is_monitor q) by (apply total_nonneg; intros x; unfold is_monitor; destruct (e_ev x); lia). lia.
Qed.
Lemma late_spends c now x q n n' new : late c now (x :: q) n -> fire (real c) c (e_time x) (e_ev x) n = DGo n' new -> rest c n' (schedule (e_time x) new q) < rest c n (x :: q).
Proof.
  intros HL HF. pose proof (lt_ok _ _ _ _ HL) as HQ. assert (W : node_waits c (e_time x) (e_ev x) n) by (pose proof (q_waits _ _ _ _ HQ) as WA; now inversion WA).
  pose proof (fire_spends (real c) c (e_time x) (e_ev x) n (real_keeps c)) as HS. rewrite HF in HS.
  assert (NP : forall i, e_ev x <> VPoll i /\ e_ev x <> VPollTime i).
  { intros i. assert (G : forall T, the_tile n i = Some T -> x_phase T = TDone).
    { intros T HT. apply the_tile_in in HT. pose proof (lt_ended _ _ _ _ HL) as E. rewrite forallb_forall in E. apply E in HT as ET. pose proof (ni_tiles _ _ (q_node _ _ _ _ HQ)) as TI. rewrite Forall_forall in TI. apply TI in HT. destruct (x_phase T) eqn:EP; try reflexivity; rewrite (DesWaitTile.ti_ended _ _ HT) in ET; congruence. }
    split; intros E; rewrite E in W; destruct W as (T & HT & _ & W); cbn in W; rewrite (G T HT) in W; exact W. }
  assert (MO : total (fun z => is_monitor (at_time (e_time x) z)) new + (if match e_ev x with VMonitor => true | _ => false end then 1 else 0) <= is_monitor x).
  { assert (EM : e_ev x = VMonitor \/ e_ev x <> VMonitor) by (destruct (e_ev x); first [now left|now right]). destruct EM as [EM|EM].
    - rewrite EM in HF. cbn [fire] in HF. unfold on_monitor in HF. rewrite (lt_monitor _ _ _ _ HL) in HF. cbn in HF. injection HF as <- <-. unfold is_monitor. rewrite EM. cbn. lia.
    - assert (Z0 : total (fun z => is_monitor (at_time (e_time x) z)) new = 0).
      { pose proof (fire_moves (real c) c _ _ _ _ _ _ HQ HF) as HM. pose proof (nm_comp _ _ _ _ _ _ HM) as [_ CN _]. rewrite Forall_forall in CN.
        assert (NM : forall z, In z new -> snd z <> VMonitor).
        { intros [[d p] e] HI HE. cbn in HE. subst e. destruct (CN _ HI) as (_ & _ & _ & G). destruct (G eq_refl) as [[G'|[]]|G']; [|apply (G' 0); cbn; left; exact (lt_monitor _ _ _ _ HL)]. cbn in G'. destruct (e_ev x); cbn in G'; congruence. }
        clear - NM. induction new as [|z new IH]; [reflexivity|]. cbn [total]. rewrite IH by (intros y HY; apply NM; now right). unfold is_monitor. change (e_ev (at_time (e_time x) z)) with (snd z). specialize (NM z (or_introl eq_refl)). destruct (snd z); try lia. contradiction. }
      rewrite Z0. unfold is_monitor. destruct (e_ev x); try contradiction; lia. }
  unfold rest. rewrite !(total_perm _ _ _ (schedule_perm (e_time x) new q)), !total_app, !total_map. cbn [total].
  change (total (fun a => weight (e_ev (at_time (e_time x) a))) new) with (cnt new).
  assert (WW : weight (e_ev x) + (if match e_ev x with VMonitor => true | _ => false end then 1 else 0) >= 1 + match e_ev x with VTileEnd _ => 1 | _ => 0 end).
  { destruct (e_ev x) eqn:E; cbn; try lia; destruct (NP i) as [N1 N2]; congruence. }
  lia.
Qed.

(** ** Nodes that have not yet ended *)
Section Left.
Variables (c : sys_cfg) (js : Z -> job) (t0 : Z).
Notation P := (real c).
(** [m] steps to the end of the process of a node. *)
Inductive to_end : nat -> sim -> Prop :=
| te_here s : process_over (w_node s) = true -> to_end O s
| te_step m s s' : process_over (w_node s) = false -> des_step P c s = NStep s' -> to_end m s' -> to_end (S m) s.
Definition to_go (x : whole) (k : Z) (m : nat) : Prop :=
  node_over x k \/
  exists n, node_of x k = Some n /\ process_over n = false /\
    ((waits_to_start k x /\ exists m', m = S m' /\ to_end m' (des_first c t0 (js k))) \/
     (~ waits_to_start k x /\ to_end m (MkDes 0 (events_of k (v_queue x)) n))).
Lemma end_now m t t' q n : to_end m (MkDes t q n) -> to_end m (MkDes t' q n).
Proof. intros H. inversion H as [s E|m' s s' E S R]; subst; [now constructor|]. econstructor; [exact E| |exact R]. exact S. Qed.
Lemma end_or_returned s fuel s' : fst (des_run P c fuel s) = s' -> returned c s' -> exists m, to_end m s.
Proof.
  revert s. induction fuel as [|f IH]; intros s E R; cbn [des_run fst] in E.
  - subst s'. exists O. constructor. unfold returned, des_step in R. unfold process_over. destruct (z_fin (w_node s)); try reflexivity; destruct (w_queue s); try discriminate; destruct (fire _ _ _ _ _); discriminate.
  - destruct (process_over (w_node s)) eqn:EP; [exists O; now constructor|]. destruct (des_step P c s) as [s1| | | |] eqn:ES; cbn [fst] in E; try (subst s'; unfold returned in R; congruence).
    + destruct (IH s1 E R) as (m & H). exists (S m). econstructor; eauto.
    + subst s'. exists O. constructor. unfold des_step in ES. unfold process_over. destruct (z_fin (w_node s)); try reflexivity; destruct (w_queue s); try discriminate; destruct (fire _ _ _ _ _); discriminate.
Qed.
Lemma reach_run j s : sim_reach c j t0 s -> exists fuel, fst (des_run P c fuel (des_first c t0 j)) = s.
Proof.
  intros H. assert (G : forall fuel s0 s1 s2, fst (des_run P c fuel s0) = s1 -> des_step P c s1 = NStep s2 -> exists f, fst (des_run P c f s0) = s2).
  { induction fuel as [|f IH]; intros s0 s1 s2 E S; cbn [des_run fst] in E.
    - subst s1. exists 1%nat. cbn [des_run]. now rewrite S.
    - destruct (des_step P c s0) as [s3| | | |] eqn:ES; cbn [fst] in E; try (subst s1; congruence). destruct (IH s3 s1 s2 E S) as (f' & F). exists (Datatypes.S f'). cbn [des_run]. now rewrite ES. }
  induction H as [|s s' H (f & IH) S]; [exists O; reflexivity|]. eauto.
Qed.
Lemma first_to_go k : in_run c k -> returns_alone c (js k) t0 -> exists m, to_go (many_first c t0 js) k m.
Proof.
  intros Hk (s & HR & R). destruct (reach_run (js k) s HR) as (f & F). destruct (end_or_returned _ f s F R) as (m & H). exists (S m). right. eexists. split; [now apply (first_node (fun _ => True) c js t0 (any_jobs c js))|]. split; [reflexivity|]. left. split; [|eauto].
  exists t0, Urgent. rewrite (first_queue (fun _ => True) c js t0 (any_jobs c js)). apply in_map_iff. exists (Z.to_nat k). unfold in_run in Hk. split; [unfold start_entry; now rewrite Z2Nat.id by lia|]. apply in_seq. lia.
Qed.
Notation any := (fun _ : cop => True).
(** What a step does to the numbers. *)
Lemma not_waiting x k : inv any c js t0 x -> in_run c k -> waits_to_start k x -> exists a b, v_queue x = a ++ (t0, Urgent, MStart k) :: b /\ not_starting k (a ++ b) /\ events_of k (v_queue x) = [] /\ node_of x k = Some (w_node (des_first c t0 (js k))).
Proof.
  intros HI Hk (t & p & HW). destruct (iv_nodes _ _ _ _ _ HI k Hk) as [a b H1 H2 H3 H4 H5|s H1 H2 H3 H4 H5 H6|n2 t' H1 H2 H3 H4 H5 H6].
  - exists a, b. auto.
  - exfalso. exact (proj1 (Forall_forall _ _) H1 _ HW eq_refl).
  - exfalso. exact (proj1 (Forall_forall _ _) H1 _ HW eq_refl).
Qed.
Definition others_kept (x x' : whole) (k : Z) : Prop := forall m r, m <> k -> in_run c m -> to_go x m r -> to_go x' m r.
Definition total_rest (x : whole) : Z := total (fun k => match node_of x k with Some n => rest c n (events_of k (v_queue x)) | None => 0 end) (zrange (w_nodes (y_net c))).
Inductive advance (x x' : whole) : Prop :=
| ad_over : v_over x' = true -> advance x x'
| ad_left k : in_run c k -> others_kept x x' k -> (forall r, to_go x k r -> exists r', to_go x' k r' /\ (r' < r)%nat) -> advance x x'
| ad_late k : in_run c k -> others_kept x x' k -> node_over x k -> node_over x' k -> total_rest x' < total_rest x -> advance x x'.
Lemma over_dec x k n : node_of x k = Some n -> node_over x k <-> process_over n = true.
Proof. intros H. split; [intros (n' & H1 & H2); congruence|intros H'; now exists n]. Qed.
(** A node that takes no part in a step. *)
Lemma kept_by x h q new l o m r : v_queue x = h :: q -> m_ordered q -> mine m h = None -> e_ev h <> MStart m -> foreign m (e_time h) new -> the_node l m = node_of x m ->
  to_go x m r -> to_go (MkMany (e_time h) (schedule (e_time h) new q) l o) m r.
Proof.
  intros EQ OQ HM HS HF HL. set (x' := MkMany _ _ _ _).
  assert (EV : events_of m (v_queue x') = events_of m (v_queue x)) by (cbn [x' v_queue]; rewrite schedule_other; [rewrite EQ, events_cons, HM; reflexivity|]; eapply Forall_impl; [|exact HF]; cbn; intros z H; apply H).
  assert (ND : node_of x' m = node_of x m) by exact HL.
  assert (WT : waits_to_start m x' <-> waits_to_start m x).
  { unfold waits_to_start. cbn [x' v_queue]. rewrite EQ. split; intros (t & p & H).
    - exists t, p. right. apply m_schedule_in in H as [H|(z & HZ & E)]; [exact H|]. exfalso. destruct (proj1 (Forall_forall _ _) HF z HZ) as (_ & G & _). apply G. now injection E as _ _ <-.
    - exists t, p. apply m_schedule_in. left. destruct H as [->|H]; [now elim HS|exact H]. }
  intros [(n & H1 & H2)|(n & H1 & H2 & H3)]; [left; exists n; now rewrite ND|right]. exists n. rewrite ND. split; [exact H1|]. split; [exact H2|]. rewrite EV, WT. exact H3.
Qed.
Lemma total_one (f g : Z -> Z) k : in_run c k -> (forall m, m <> k -> g m = f m) -> g k < f k -> total g (zrange (w_nodes (y_net c))) < total f (zrange (w_nodes (y_net c))).
Proof.
  intros Hk HO HL. unfold in_run in Hk. assert (IN : In k (zrange (w_nodes (y_net c)))) by (apply in_zrange; lia). assert (ND : NoDup (zrange (w_nodes (y_net c)))) by apply nodup_zrange.
  induction (zrange (w_nodes (y_net c))) as [|a l IH]; [destruct IN|]. inversion ND as [|? ? N1 N2]; subst. cbn [total]. destruct (Z.eq_dec a k) as [->|NE].
  - assert (total g l = total f l); [|lia]. clear - N1 HO. induction l as [|b l IH]; [reflexivity|]. cbn. rewrite IH by (intros H; apply N1; now right). rewrite HO; [reflexivity|]. intros ->. apply N1. now left.
  - destruct IN as [->|IN]; [now elim NE|]. rewrite (HO a NE). specialize (IH IN N2). lia.
Qed.
Theorem step_advances x x' : many_reach c js t0 x -> many_step P c x = YStep x' -> advance x x'.
Proof.
  intros HR HS. pose proof (many_inv c js t0 x HR) as HI. pose proof (many_inv c js t0 x' (many_reach_step _ _ _ _ _ HR HS)) as HI'.
  unfold many_step in HS. destruct (v_over x) eqn:EO; [discriminate|]. destruct (v_queue x) as [|[[t p] e] q] eqn:EQ; [discriminate|]. cbn [e_time e_ev fst snd] in HS.
  pose proof (iv_ordered _ _ _ _ _ HI) as HO. pose proof (iv_range _ _ _ _ _ HI) as RG. rewrite EQ in HO, RG. assert (OQ : m_ordered q) by now inversion HO. assert (RH : in_range c e) by now inversion RG. destruct e as [k|k e|].
  - cbn [fire_many] in HS. destruct (the_node (v_nodes x) k) as [n|] eqn:EN; [|discriminate].
    assert (x' = MkMany t (schedule t (tag k (node_events (z_tiles n))) q) (put_node (v_nodes x) k (node_start t n)) false) as -> by congruence. clear HS.
    assert (NP : forall m, the_node (put_node (v_nodes x) k (node_start t n)) m = if m =? k then Some (node_start t n) else the_node (v_nodes x) m) by (intros m; eapply (DesMany.node_put any c js (any_jobs c js)); eauto).
    destruct (not_waiting x k HI RH) as (a & b & Q1 & Q2 & Q3 & Q4); [exists t, p; rewrite EQ; now left|]. unfold node_of in Q4. rewrite EN in Q4. injection Q4 as ->.
    apply (ad_left _ _ k RH).
    + intros m r NE Hm. apply (kept_by x (t, p, MStart k)); auto; [cbn; congruence|apply tag_foreign; congruence|rewrite NP; destruct (Z.eqb_spec m k); [contradiction|reflexivity]].
    + intros r [HO'|(n & H1 & H2 & H3)]; [apply (over_dec x k _ EN) in HO'; discriminate|]. destruct H3 as [(_ & r' & -> & H3)|(H3 & _)]; [|elim H3; exists t, p; rewrite EQ; now left]. exists r'. split; [right|lia].
      exists (node_start t (w_node (des_first c t0 (js k)))). unfold node_of. cbn [v_nodes]. rewrite NP, Z.eqb_refl. split; [reflexivity|]. split; [reflexivity|]. right. split.
      * intros (t1 & p1 & H). cbn [v_queue] in H. apply m_schedule_in in H as [H|(z & HZ & E)].
        -- destruct a as [|h' a]; rewrite EQ in Q1; injection Q1 as E1 E2; [subst q; exact (proj1 (Forall_forall _ _) Q2 _ H eq_refl)|]. subst h'. exact (Forall_inv Q2 eq_refl).
        -- apply in_map_iff in HZ as (w & <- & _). discriminate.
      * cbn [v_queue]. rewrite schedule_mine by exact OQ. assert (events_of k q = []) as -> by (rewrite EQ, events_cons in Q3; exact Q3).
        assert (t = t0) as ->. { destruct a as [|h' a]; rewrite EQ in Q1; injection Q1 as E1 E2; [congruence|]. intros. subst h'. exfalso. exact (Forall_inv Q2 eq_refl). }
        exact (end_now _ _ 0 _ _ H3).
  - assert (HE : e = VNodeEnd \/ e <> VNodeEnd) by (destruct e; first [now left|now right]). 
    assert (EV : events_of k (v_queue x) = (t, p, e) :: events_of k q) by (rewrite EQ, events_cons; cbn; now rewrite Z.eqb_refl).
    assert (NW : ~ waits_to_start k x) by (intros W; destruct (not_waiting x k HI RH W) as (_ & _ & _ & _ & G & _); congruence).
    assert (NL : forall n r, node_of x k = Some n -> process_over n = false -> to_go x k r -> to_end r (MkDes 0 ((t, p, e) :: events_of k q) n)).
    { intros n r HN HP [H|(n2 & H1 & H2 & H3)]; [apply (over_dec x k n HN) in H; congruence|]. rewrite HN in H1. injection H1 as <-. destruct H3 as [(H3 & _)|(_ & H3)]; [contradiction|]. now rewrite EV in H3. }
    destruct HE as [->|HE].
    + cbn [fire_many] in HS. destruct (the_node (v_nodes x) k) as [n|] eqn:EN; [|discriminate]. destruct (z_fin n) eqn:EF; try discriminate.
      set (l := put_node (v_nodes x) k (set_fin n FCond)) in *. set (new := if forallb process_over l then [(0, Normal, MAll)] else []) in *. assert (x' = MkMany t (schedule t new q) l false) as -> by congruence.
      assert (NP : forall m, the_node l m = if m =? k then Some (set_fin n FCond) else the_node (v_nodes x) m) by (intros m; eapply (DesMany.node_put any c js (any_jobs c js)); eauto).
      assert (HN : new = [] \/ new = [(0, Normal, MAll)]) by (unfold new; destruct (forallb process_over l); auto). apply (ad_left _ _ k RH).
      * intros m r NE Hm. apply (kept_by x (t, p, MOf k VNodeEnd)); auto; [cbn; destruct (Z.eqb_spec k m); congruence|cbn; congruence| |rewrite NP; destruct (Z.eqb_spec m k); [contradiction|reflexivity]].
        destruct HN as [->| ->]; repeat constructor; try discriminate; cbn; lia.
      * intros r HT. assert (PO : process_over n = false) by (unfold process_over; now rewrite EF). specialize (NL n r EN PO HT). inversion NL as [s E|m' s s' E S R]; subst; [cbn in E; congruence|]. exists O. split; [left|lia].
        exists (set_fin n FCond). unfold node_of. cbn [v_nodes]. rewrite NP, Z.eqb_refl. split; reflexivity.
    + assert (HS' : match the_node (v_nodes x) k with None => MStuck | Some n => match fire P c t e n with DGo n' new => MGo (put_node (v_nodes x) k n') (tag k new) false | DRaise y => MRaise y | DStuck => MStuck end end = fire_many P c t (MOf k e) (v_nodes x)) by (destruct e; first [reflexivity|contradiction]).
      rewrite <- HS' in HS. clear HS'. destruct (the_node (v_nodes x) k) as [n|] eqn:EN; [|discriminate]. destruct (fire P c t e n) as [n' new| |] eqn:EF; try discriminate.
      assert (x' = MkMany t (schedule t (tag k new) q) (put_node (v_nodes x) k n') false) as -> by congruence.
      assert (NP : forall m, the_node (put_node (v_nodes x) k n') m = if m =? k then Some n' else the_node (v_nodes x) m) by (intros m; eapply (DesMany.node_put any c js (any_jobs c js)); eauto).
      destruct (state_own any c js t0 (any_jobs c js) x k t p e q n n' new (put_node (v_nodes x) k n') false HI RH EQ HE EN EF) as (SK & OV & NN); [rewrite NP, Z.eqb_refl; reflexivity|].
      assert (OK : others_kept x (MkMany t (schedule t (tag k new) q) (put_node (v_nodes x) k n') false) k).
      { intros m r NE Hm. apply (kept_by x (t, p, MOf k e)); auto; [cbn; destruct (Z.eqb_spec k m); congruence|cbn; congruence|apply tag_foreign; congruence|rewrite NP; destruct (Z.eqb_spec m k); [contradiction|reflexivity]]. }
      destruct (process_over n) eqn:PO.
      * apply (ad_late _ _ k RH OK); [exists n; auto|exists n'; unfold node_of; cbn [v_nodes]; rewrite NP, Z.eqb_refl; split; [reflexivity|congruence]|].
        unfold total_rest. apply (total_one _ _ k RH).
        -- intros m NE. unfold node_of. cbn [v_nodes v_queue]. rewrite NP. destruct (Z.eqb_spec m k); [contradiction|]. rewrite schedule_other by (apply tag_other; congruence). rewrite EQ, events_cons. cbn. destruct (Z.eqb_spec k m); [congruence|reflexivity].
        -- unfold node_of. cbn [v_nodes v_queue]. rewrite NP, Z.eqb_refl, EN, schedule_mine by exact OQ. rewrite EV.
           destruct (iv_nodes _ _ _ _ _ HI k RH) as [a b H1 H2 H3 H4 H5|s H1 H2 H3 H4 H5 H6|n2 t' H1 H2 H3 H4 H5 H6].
           ++ congruence.
           ++ unfold node_of in H3. rewrite EN in H3. injection H3 as ->. unfold process_over in PO. destruct H6 as [F|F]; rewrite F in PO; discriminate.
           ++ unfold node_of in H2. rewrite EN in H2. injection H2 as <-. rewrite EV in H4. exact (late_spends c t' (t, p, e) _ n n' new H4 EF).
      * apply (ad_left _ _ k RH OK). intros r HT. specialize (NL n r EN PO HT). inversion NL as [s E|m' s s' E S R]; subst; [cbn in E; congruence|]. exists m'. split; [right|lia].
        exists n'. unfold node_of. cbn [v_nodes]. rewrite NP, Z.eqb_refl. split; [reflexivity|]. split; [congruence|]. right. split.
        -- intros W. destruct (not_waiting _ k HI' RH W) as (a & b & Q1 & _). cbn [v_queue] in Q1. assert (IN : In (t0, Urgent, MStart k) (schedule t (tag k new) q)) by (rewrite Q1; apply in_or_app; right; now left).
           apply m_schedule_in in IN as [IN|(z & HZ & EZ)]; [apply NW; exists t0, Urgent; rewrite EQ; now right|]. apply in_map_iff in HZ as (w & <- & _). discriminate.
        -- cbn [v_queue]. rewrite schedule_mine by exact OQ. unfold des_step in S. cbn [w_node w_queue e_time e_ev fst snd] in S. rewrite EF in S.
           assert (s' = MkDes t (schedule t new (events_of k q)) n') as -> by (unfold process_over in PO; destruct (z_fin n); congruence). exact (end_now _ _ 0 _ _ R).
  - apply ad_over. cbn [fire_many] in HS. injection HS as <-. reflexivity.
Qed.

(** ** The end *)
Theorem all_end : (forall k, in_run c k -> returns_alone c (js k) t0) -> exists x, many_reach c js t0 x /\ (many_returned c x \/ exists e, many_raised c x e).
Proof.
  intros HA. assert (TN : forall (r : Z -> nat) l, 0 <= total (fun k => Z.of_nat (r k)) l) by (intros r l; apply total_nonneg; intros a; lia).
  assert (W : forall a b x, many_reach c js t0 x -> (exists r, (forall k, in_run c k -> to_go x k (r k)) /\ (total (fun k => Z.of_nat (r k)) (zrange (w_nodes (y_net c))) < Z.of_nat a)) -> total_rest x < Z.of_nat b ->
    exists x, many_reach c js t0 x /\ (many_returned c x \/ exists e, many_raised c x e)).
  { induction a as [|a IHa]; [intros b x _ (r & _ & HT); pose proof (TN r (zrange (w_nodes (y_net c)))); lia|].
    assert (TR : forall x, 0 <= total_rest x) by (intros x; apply total_nonneg; intros k; destruct (node_of x k); [apply rest_nonneg|lia]).
    induction b as [|b IHb]; intros x HR (r & H1 & H2) HB; [specialize (TR x); lia|].
    destruct (many_goes_on c js t0 x HR) as [(x' & HS)|[HE|HE]]; [|exists x; auto|exists x; auto]. assert (HR' : many_reach c js t0 x') by (econstructor; eauto).
    destruct (step_advances x x' HR HS) as [HO|k Hk HO HL|k Hk HO HV HV' HL].
    - exists x'. split; [exact HR'|left]. unfold many_returned, many_step. now rewrite HO.
    - destruct (HL (r k) (H1 k Hk)) as (r' & G1 & G2). set (r2 := fun m => if m =? k then r' else r m). apply (IHa (S (Z.to_nat (total_rest x'))) x' HR').
      + exists r2. split.
        * intros m Hm. unfold r2. destruct (Z.eqb_spec m k) as [->|NE]; [exact G1|]. apply (HO m); auto.
        * assert (total (fun k => Z.of_nat (r2 k)) (zrange (w_nodes (y_net c))) < total (fun k => Z.of_nat (r k)) (zrange (w_nodes (y_net c)))); [|lia]. apply (total_one _ _ k Hk); unfold r2; [intros m NE; destruct (Z.eqb_spec m k); [contradiction|reflexivity]|rewrite Z.eqb_refl; lia].
      + specialize (TR x'). lia.
    - apply (IHb x' HR'); [|lia]. exists r. split; [|exact H2]. intros m Hm. destruct (Z.eq_dec m k) as [->|NE]; [now left|]. apply (HO m); auto. }
  assert (EX : forall l, (forall k, In k l -> in_run c k) -> exists r : Z -> nat, forall k, In k l -> to_go (many_first c t0 js) k (r k)).
  { induction l as [|k l IH]; intros HL; [exists (fun _ => O); intros k []|]. destruct IH as (r & HR); [intros m Hm; apply HL; now right|]. destruct (first_to_go k) as (m & HM); [apply HL; now left|apply HA, HL; now left|].
    exists (fun z => if z =? k then m else r z). intros z [->|HZ]; [now rewrite Z.eqb_refl|]. destruct (Z.eqb_spec z k) as [->|]; [exact HM|auto]. }
  destruct (EX (zrange (w_nodes (y_net c)))) as (r & HR); [intros k Hk; apply in_zrange in Hk; unfold in_run; lia|].
  apply (W (S (Z.to_nat (total (fun k => Z.of_nat (r k)) (zrange (w_nodes (y_net c)))))) (S (Z.to_nat (total_rest (many_first c t0 js)))) (many_first c t0 js)); [constructor| |].
  - exists r. split; [intros k Hk; apply HR, in_zrange; exact Hk|]. pose proof (TN r (zrange (w_nodes (y_net c)))). lia.
  - assert (0 <= total_rest (many_first c t0 js)) by (apply total_nonneg; intros k; destruct (node_of _ k); [apply rest_nonneg|lia]). lia.
Qed.
Theorem all_return : (forall k, in_run c k -> delays_ok c (js k)) -> (forall k, in_run c k -> never_crashes c (js k)) ->
  (exists x, many_reach c js t0 x /\ many_returned c x) <-> (forall k, in_run c k -> returns_alone c (js k) t0).
Proof.
  intros HD HC. split.
  - intros (x & H1 & H2). now apply (many_returns c js t0 x).
  - intros HA. destruct (all_end HA) as (x & HR & [H|(e & H)]); [eauto|]. destruct (many_raises c js t0 x e HD HR H) as (k & t & N & Hk & HN & HX). elim HX. now apply (HC k Hk t).
Qed.
End Left.
