(** The simulation of all nodes: the invariant holds in all states. *)
From Coq Require Import Permutation Sorting.Sorted.
From Verif Require Import PyBase PyLemmas MemoryModel CoreModel DramModel DramProofs RouterModel SystemModel SystemSpec StatsProofs NodeModel NodeSpec
  DesModel DesSpec DesRel DesQueue DesRun DesWait DesWaitNode DesWaitQueue DesHeap DesIdle DesLate DesLateRel DesManyModel DesManySpec DesManyQueue DesMany.

Section Run.
Variable Q : cop -> Prop.
Variables (c : sys_cfg) (js : Z -> job) (t0 : Z).
Hypothesis HQ : forall k, in_run c k -> forall i, on_node c i -> Forall (fun kp => Forall Q (snd kp)) (j_cores (js k) i).
Notation P := (real c).
Notation inv := (inv Q c js t0). Notation state_of := (state_of Q c js t0).

(** ** The start *)
Definition start_entry (k : nat) : entry mev := (t0, Urgent, MStart (Z.of_nat k)).
Lemma starts (l : list nat) : forall q, Forall (fun y : entry mev => e_time y <= t0 /\ e_prio y = Urgent) q ->
  schedule t0 (map (fun k => (0, Urgent, MStart (Z.of_nat k))) l) q = q ++ map start_entry l.
Proof.
  induction l as [|k l IH]; intros q H; [now rewrite app_nil_r|]. cbn [map]. rewrite m_schedule_cons. replace (insert (m_at t0 (0, Urgent, MStart (Z.of_nat k))) q) with (q ++ [start_entry k]).
  - rewrite IH; [now rewrite <- app_assoc|]. apply Forall_app. split; [exact H|]. repeat constructor. cbn. lia.
  - unfold m_at, start_entry. cbn [fst snd]. rewrite Z.add_0_r. clear IH. induction H as [|y q [H1 H2] H IH]; [reflexivity|]. cbn [app insert]. assert (sooner (t0, Urgent, MStart (Z.of_nat k)) y = false) as ->; [|now rewrite IH].
    destruct y as [[ty py] ey]. unfold sooner. cbn in *. subst py. cbn. lia.
Qed.
Lemma first_queue : v_queue (many_first c t0 js) = map start_entry (seq 0 (Z.to_nat (w_nodes (y_net c)))).
Proof. unfold many_first, many_begin. cbn [v_queue]. rewrite starts by constructor. now rewrite map_length, length_zrange. Qed.
Lemma first_node k : in_run c k -> node_of (many_first c t0 js) k = Some (MkDNode (tiles_of_job c (js k)) t0 t0 0 true FRunning).
Proof.
  intros H. unfold in_run in H. unfold node_of, the_node, many_first, many_begin. cbn [v_nodes]. destruct (Z.ltb_spec k 0); [lia|]. rewrite !nth_error_map. unfold zrange. rewrite nth_error_map.
  rewrite (nth_error_nth' _ 0%nat) by (rewrite seq_length; lia). rewrite seq_nth by lia. cbn. now rewrite Z2Nat.id by lia.
Qed.
Lemma seq_split k n : (k < n)%nat -> seq 0 n = seq 0 k ++ k :: seq (S k) (n - k - 1).
Proof. intros H. rewrite <- (seq_app k (S (n - k - 1)) 0) at 1. f_equal. lia. Qed.
Lemma first_inv : inv (many_first c t0 js).
Proof.
  assert (NM : forall y, In y (v_queue (many_first c t0 js)) -> exists k, (k < Z.to_nat (w_nodes (y_net c)))%nat /\ y = start_entry k).
  { intros y H. rewrite first_queue in H. apply in_map_iff in H as (k & <- & H). apply in_seq in H. exists k. split; [lia|reflexivity]. }
  assert (OV : v_over (many_first c t0 js) = true -> forall k, ~ in_run c k).
  { intros H k Hk. unfold many_first, many_begin in H. cbn [v_over] in H. unfold in_run in Hk. assert (length (zrange (w_nodes (y_net c))) = Z.to_nat (w_nodes (y_net c))) as L by apply length_zrange. destruct (zrange (w_nodes (y_net c))); cbn in *; [lia|discriminate]. }
  constructor.
  - unfold many_first, many_begin. cbn [v_nodes]. now rewrite !map_length, length_zrange.
  - unfold many_first, many_begin. cbn [v_queue]. apply m_schedule_ordered. constructor.
  - apply Forall_forall. intros y H. apply NM in H as (k & _ & ->). cbn. lia.
  - apply Forall_forall. intros y H. apply NM in H as (k & H & ->). cbn. unfold in_run. lia.
  - intros k Hk. unfold in_run in Hk. rewrite <- (Z2Nat.id k) by lia. set (m := Z.to_nat k). assert (Hm : (m < Z.to_nat (w_nodes (y_net c)))%nat) by lia.
    apply (so_waiting _ _ _ _ _ _ (map start_entry (seq 0 m)) (map start_entry (seq (S m) (Z.to_nat (w_nodes (y_net c)) - m - 1)))).
    + apply first_node. unfold in_run. lia.
    + rewrite first_queue. generalize (seq 0 (Z.to_nat (w_nodes (y_net c)))). intros l. induction l; [reflexivity|]. cbn [map]. rewrite events_cons. exact IHl.
    + rewrite first_queue, (seq_split m) by exact Hm. rewrite map_app. reflexivity.
    + rewrite <- map_app. apply Forall_forall. intros y H. apply in_map_iff in H as (i & <- & H). cbn. intros E. injection E as E. apply in_app_or in H as [H|H]; apply in_seq in H; lia.
    + reflexivity.
  - intros HO H. exfalso. assert (Hk : in_run c 0).
    { unfold in_run. unfold many_first, many_begin in HO. cbn [v_over] in HO. assert (length (zrange (w_nodes (y_net c))) = Z.to_nat (w_nodes (y_net c))) as L by apply length_zrange. destruct (zrange (w_nodes (y_net c))); cbn in *; [discriminate|lia]. }
    destruct (H 0 Hk) as (n & H1 & H2). rewrite first_node in H1 by exact Hk. injection H1 as <-. discriminate.
  - intros [H|(y & H & E)] k Hk; [now apply (OV H) in Hk|]. apply NM in H as (m & _ & ->). discriminate.
  - intros H k Hk. now apply (OV H) in Hk.
Qed.

(** ** A step *)
Lemma all_over l (H : length l = Z.to_nat (w_nodes (y_net c))) : forallb process_over l = true <-> forall k, in_run c k -> exists n : dnode core cells_valid, the_node l k = Some n /\ process_over n = true.
Proof.
  rewrite forallb_forall. unfold in_run, the_node. split.
  - intros G k Hk. destruct (Z.ltb_spec k 0); [lia|]. destruct (nth_error l (Z.to_nat k)) as [n|] eqn:E; [exists n; split; [reflexivity|apply G; now apply nth_error_In in E]|]. apply nth_error_None in E. lia.
  - intros G n HN. apply In_nth_error in HN as (i & E). assert (nth_error l i <> None) as L by congruence. apply nth_error_Some in L. destruct (G (Z.of_nat i) ltac:(lia)) as (n' & E' & F). destruct (Z.ltb_spec (Z.of_nat i) 0); [lia|]. rewrite Nat2Z.id in E'. congruence.
Qed.
Lemma put_length (l : list (dnode core cells_valid)) k n : length (put_node l k n) = length l.
Proof. apply length_upd. Qed.
Lemma tag_foreign k m now new : m <> k -> foreign k now (tag m new).
Proof.
  intros H. apply Forall_forall. intros z HZ. apply in_map_iff in HZ as (w & <- & _). unfold m_at. cbn. destruct (Z.eqb_spec m k); [congruence|]. split; [reflexivity|]. split; discriminate.
Qed.
Lemma after_tag t m new q : Forall (fun y : entry mev => t <= e_time y) q -> nonneg new -> Forall (fun y => t <= e_time y) (schedule t (tag m new) q).
Proof.
  intros H1 H2. apply Forall_forall. intros y HY. apply m_schedule_in in HY as [HY|(z & HZ & ->)]; [exact (proj1 (Forall_forall _ _) H1 y HY)|]. apply in_map_iff in HZ as (w & <- & HW). pose proof (proj1 (Forall_forall _ _) H2 w HW) as G. cbn in *. lia.
Qed.
Lemma range_tag t m new q : in_run c m -> Forall (fun y => in_range c (e_ev y)) q -> Forall (fun y => in_range c (e_ev y)) (schedule t (tag m new) q).
Proof.
  intros H1 H2. apply Forall_forall. intros y HY. apply m_schedule_in in HY as [HY|(z & HZ & ->)]; [exact (proj1 (Forall_forall _ _) H2 y HY)|]. apply in_map_iff in HZ as (w & <- & HW). exact H1.
Qed.
Lemma all_tag t m new q : (exists y, In y (schedule t (tag m new) q) /\ e_ev y = MAll) <-> exists y, In y q /\ e_ev y = MAll.
Proof.
  split; intros (y & HY & E); [|exists y; split; [apply m_schedule_in; now left|exact E]]. apply m_schedule_in in HY as [HY|(z & HZ & ->)]; [eauto|]. apply in_map_iff in HZ as (w & <- & _). discriminate.
Qed.
Lemma node_events_nonneg (l : list (dtile core cells_valid)) : nonneg (node_events l).
Proof.
  unfold node_events. constructor; [cbn; lia|]. apply Forall_app. split; [apply Forall_forall; intros z HZ; apply in_map_iff in HZ as (i & <- & _); cbn; lia|]. destruct l; repeat constructor. cbn. lia.
Qed.

Theorem inv_step x x' : inv x -> many_step P c x = YStep x' -> inv x'.
Proof.
  intros HI HS. unfold many_step in HS. destruct (v_over x) eqn:EO; [discriminate|]. destruct (v_queue x) as [|[[t p] e] q] eqn:EQ; [discriminate|]. cbn [e_time e_ev fst snd] in HS.
  pose proof (iv_length _ _ _ _ _ HI) as LEN. pose proof (iv_ordered _ _ _ _ _ HI) as HO. pose proof (iv_after _ _ _ _ _ HI) as HA. pose proof (iv_range _ _ _ _ _ HI) as HR. rewrite EQ in HO, HA, HR.
  assert (OQ : m_ordered q) by now inversion HO. assert (TH : v_now x <= t) by now inversion HA. assert (RH : in_range c e) by now inversion HR. assert (RQ : Forall (fun y => in_range c (e_ev y)) q) by now inversion HR.
  assert (AQ : Forall (fun y => t <= e_time y) q) by (apply Forall_forall; intros y HY; apply (m_head_time (t, p, e) q y HO); now right).
  assert (MQ : e <> MAll -> (exists y, In y q /\ e_ev y = MAll) <-> exists y, In y (v_queue x) /\ e_ev y = MAll).
  { intros HE. rewrite EQ. split; intros (y & HY & E); [exists y; split; [now right|exact E]|]. destruct HY as [<-|HY]; [contradiction|eauto]. }
  destruct e as [k|k e|].
  - (* the start of a node *) cbn [fire_many] in HS. destruct (the_node (v_nodes x) k) as [n|] eqn:EN; [|discriminate].
    assert (x' = MkMany t (schedule t (tag k (node_events (z_tiles n))) q) (put_node (v_nodes x) k (node_start t n)) false) as -> by congruence.
    assert (NP : forall m, the_node (put_node (v_nodes x) k (node_start t n)) m = if m =? k then Some (node_start t n) else the_node (v_nodes x) m) by (intros m; eapply node_put; eauto).
    destruct (state_starts Q c js t0 HQ x k (t, p, MStart k) q (put_node (v_nodes x) k (node_start t n)) false HI RH EQ eq_refl) with (n := n) as [SK FK]; [unfold node_of; rewrite EN, NP, Z.eqb_refl; reflexivity|exact EN|]. cbn [e_time fst] in SK.
    assert (NK : forall P', (forall m, in_run c m -> node_over (MkMany t P' (put_node (v_nodes x) k (node_start t n)) false) m) -> False).
    { intros P' H. destruct (H k RH) as (n' & H1 & H2). unfold node_of in H1. cbn [v_nodes] in H1. rewrite NP, Z.eqb_refl in H1. injection H1 as <-. discriminate. }
    constructor; cbn [v_nodes v_queue v_now v_over].
    + rewrite put_length. exact LEN.
    + apply m_schedule_ordered; auto.
    + apply after_tag; [exact AQ|apply node_events_nonneg].
    + now apply range_tag.
    + intros m Hm. destruct (Z.eq_dec m k) as [->|NE]; [exact SK|]. apply (state_foreign Q c js t0 HQ x m (t, p, MStart k)); auto; [cbn; congruence|discriminate|apply tag_foreign; congruence|rewrite NP; destruct (Z.eqb_spec m k); [contradiction|reflexivity]].
    + intros _ H. now apply NK in H.
    + intros [H|H]; [discriminate|]. apply all_tag, MQ in H; [|discriminate]. intros m Hm. exfalso. destruct (iv_over _ _ _ _ _ HI (or_intror H) k RH) as (n' & H1 & H2). unfold node_of in H1. rewrite EN in H1. injection H1 as <-. unfold process_over in H2. rewrite FK in H2. discriminate.
    + discriminate.
  - (* an event of a node *) assert (HE : e = VNodeEnd \/ e <> VNodeEnd) by (destruct e; first [now left|now right]). destruct HE as [->|HE].
    + cbn [fire_many] in HS. destruct (the_node (v_nodes x) k) as [n|] eqn:EN; [|discriminate]. destruct (z_fin n) eqn:EF; try discriminate.
      set (l := put_node (v_nodes x) k (set_fin n FCond)) in *. set (new := if forallb process_over l then [(0, Normal, MAll)] else []) in *. assert (x' = MkMany t (schedule t new q) l false) as -> by congruence.
      assert (NP : forall m, the_node l m = if m =? k then Some (set_fin n FCond) else the_node (v_nodes x) m) by (intros m; eapply node_put; eauto).
      assert (HN : new = [] \/ new = [(0, Normal, MAll)]) by (unfold new; destruct (forallb process_over l); auto).
      assert (LL : length l = Z.to_nat (w_nodes (y_net c))) by (unfold l; now rewrite put_length).
      assert (NO : ~ exists y, In y (v_queue x) /\ e_ev y = MAll).
      { intros H. destruct (iv_over _ _ _ _ _ HI (or_intror H) k RH) as (n' & H1 & H2). unfold node_of in H1. rewrite EN in H1. injection H1 as <-. unfold process_over in H2. rewrite EF in H2. discriminate. }
      constructor; cbn [v_nodes v_queue v_now v_over].
      * exact LL.
      * apply m_schedule_ordered; auto.
      * apply Forall_forall. intros y HY. apply m_schedule_in in HY as [HY|(z & HZ & ->)]; [exact (proj1 (Forall_forall _ _) AQ y HY)|]. destruct HN as [HN|HN]; rewrite HN in HZ; [destruct HZ|destruct HZ as [<-|[]]]. cbn. lia.
      * apply Forall_forall. intros y HY. apply m_schedule_in in HY as [HY|(z & HZ & ->)]; [exact (proj1 (Forall_forall _ _) RQ y HY)|]. destruct HN as [HN|HN]; rewrite HN in HZ; [destruct HZ|destruct HZ as [<-|[]]]. exact I.
      * intros m Hm. destruct (Z.eq_dec m k) as [->|NE].
        -- apply (state_ends Q c js t0 HQ x k t p q n l false new HI Hm EQ); auto. rewrite NP, Z.eqb_refl. reflexivity.
        -- apply (state_foreign Q c js t0 HQ x m (t, p, MOf k VNodeEnd)); auto; [cbn; destruct (Z.eqb_spec k m); congruence|cbn; congruence|discriminate| |rewrite NP; destruct (Z.eqb_spec m k); [contradiction|reflexivity]].
           destruct HN as [->| ->]; repeat constructor; try discriminate; cbn; lia.
      * intros _ H. assert (F : forallb process_over l = true) by now apply all_over. unfold new. rewrite F. exists (m_at t (0, Normal, MAll)). split; [|reflexivity]. apply m_schedule_in. right. exists (0, Normal, MAll). split; [now left|reflexivity].
      * intros [H|(y & HY & E)]; [discriminate|]. apply m_schedule_in in HY as [HY|(z & HZ & ->)]; [elim NO; exists y; split; [rewrite EQ; now right|exact E]|]. unfold new in HZ. destruct (forallb process_over l) eqn:F; [|destruct HZ]. exact (proj1 (all_over l LL) F).
      * discriminate.
    + assert (HS' : match the_node (v_nodes x) k with None => MStuck | Some n => match fire P c t e n with DGo n' new => MGo (put_node (v_nodes x) k n') (tag k new) false | DRaise y => MRaise y | DStuck => MStuck end end = fire_many P c t (MOf k e) (v_nodes x)) by (destruct e; first [reflexivity|contradiction]).
      rewrite <- HS' in HS. clear HS'. destruct (the_node (v_nodes x) k) as [n|] eqn:EN; [|discriminate]. destruct (fire P c t e n) as [n' new| |] eqn:EF; try discriminate. assert (x' = MkMany t (schedule t (tag k new) q) (put_node (v_nodes x) k n') false) as -> by congruence.
      assert (NP : forall m, the_node (put_node (v_nodes x) k n') m = if m =? k then Some n' else the_node (v_nodes x) m) by (intros m; eapply node_put; eauto).
      destruct (state_own Q c js t0 HQ x k t p e q n n' new (put_node (v_nodes x) k n') false HI RH EQ HE EN EF) as (SK & OV & NN); [rewrite NP, Z.eqb_refl; reflexivity|].
      assert (OO : forall q', (forall m, in_run c m -> node_over (MkMany t q' (put_node (v_nodes x) k n') false) m) <-> forall m, in_run c m -> node_over x m).
      { intros q'. split; intros H m Hm; destruct (H m Hm) as (u & H1 & H2); unfold node_over, node_of in *; cbn [v_nodes] in *; rewrite NP in *; destruct (Z.eqb_spec m k) as [->|NE].
        - injection H1 as <-. exists n. split; [exact EN|congruence].
        - eauto.
        - rewrite EN in H1. injection H1 as <-. exists n'. split; [reflexivity|congruence].
        - eauto. }
      constructor; cbn [v_nodes v_queue v_now v_over].
      * rewrite put_length. exact LEN.
      * apply m_schedule_ordered; auto.
      * now apply after_tag.
      * now apply range_tag.
      * intros m Hm. destruct (Z.eq_dec m k) as [->|NE]; [exact SK|]. apply (state_foreign Q c js t0 HQ x m (t, p, MOf k e)); auto; [cbn; destruct (Z.eqb_spec k m); congruence|cbn; congruence|discriminate|apply tag_foreign; congruence|rewrite NP; destruct (Z.eqb_spec m k); [contradiction|reflexivity]].
      * intros _ H. apply all_tag, MQ; [discriminate|]. apply (iv_all _ _ _ _ _ HI EO). exact (proj1 (OO _) H).
      * intros [H|H]; [discriminate|]. apply all_tag, MQ in H; [|discriminate]. exact (proj2 (OO _) (iv_over _ _ _ _ _ HI (or_intror H))).
      * discriminate.
  - (* the condition *) cbn [fire_many] in HS. injection HS as <-. change (schedule t [] q) with q.
    assert (OV : forall k, in_run c k -> node_over x k) by (apply (iv_over _ _ _ _ _ HI); right; exists (t, p, MAll); split; [rewrite EQ; now left|reflexivity]).
    constructor; cbn [v_nodes v_queue v_now v_over]; auto.
    + intros m Hm. apply (state_foreign Q c js t0 HQ x m (t, p, MAll) q [] (v_nodes x) true); auto; try discriminate. constructor.
    + discriminate.
    + intros _ k Hk. destruct (iv_nodes _ _ _ _ _ HI k Hk) as [a b H1 H2 H3 H4 H5|s H1 H2 H3 H4 H5 H6|n2 t' H1 H2 H3 H4 H5 H6].
      * destruct (OV k Hk) as (n & N1 & N2). rewrite H1 in N1. injection N1 as <-. discriminate.
      * destruct (OV k Hk) as (n & N1 & N2). rewrite H3 in N1. injection N1 as <-. unfold process_over in N2. destruct H6 as [E|E]; rewrite E in N2; discriminate.
      * destruct H6 as [(s & te & q1 & q2 & M1 & M2 & M3 & M4 & M5 & M6)|H6]; [|exact H6]. destruct q1 as [|h' q1].
        -- apply (end_returns c (js k) t0 s te (events_of k q2) M1); [rewrite M2; apply (lt_fin _ _ _ _ H4)|exact M5].
        -- exfalso. pose proof (sp_app _ _ _ _ M4) as E. rewrite EQ in E. injection E as <- _. apply Forall_inv in M6. now apply M6.
Qed.
Theorem reach_inv x : many_reach c js t0 x -> inv x.
Proof. induction 1 as [|x x' H IH HS]; [exact first_inv|]. eapply inv_step; eauto. Qed.
End Run.
