(** Every event that the node needs is in the event queue, in all states of a simulation (continues DesNeedNode). *)
From Coq Require Import Permutation.
From Verif Require Import PyBase PyLemmas CoreModel DramModel RouterModel SystemModel DesModel DesSpec DesQueue DesWait DesWaitCtl DesWaitTile DesWaitNode DesWaitQueue DesIdle DesEnd
  DesNeed DesNeedCtl DesNeedTile DesNeedOwn DesNeedNode.

Section Queue.
  Variables (c : sys_cfg) (j : job) (t0 : Z).

  Record needs_ok (s : sim) : Prop := {
    no_fit : node_fit (w_node s);
    no_queue : forall e, node_needs e (w_node s) -> In (key e) (map key (map e_ev (w_queue s))) }.

  Lemma step_needs s s' : ok c s -> needs_ok s -> des_step (real c) c s = NStep s' -> needs_ok s'.
  Proof.
    intros [HT HO] [NF NQ] HS. apply step_is in HS as (x & q & n & new & EQ & EF & ->). rewrite EQ in HO. pose proof (queue_quiet _ _ _ _ _ HO) as QU.
    pose proof (fire_kept (real c) c (e_time x) (e_ev x) (w_node s) (q_node _ _ _ _ HO) NF QU) as FK. rewrite EF in FK. cbn in FK. destruct FK as [F1 F2]. constructor; cbn [w_node w_queue]; [exact F1|].
    intros e HE. eapply Permutation_in; [apply Permutation_map, Permutation_map, Permutation_sym, schedule_perm|]. rewrite !map_app, in_app_iff. destruct (F2 e I HE) as [H|[H1 H2]].
    - left. rewrite (map_map _ e_ev). exact H.
    - right. specialize (NQ e H1). rewrite EQ in NQ. cbn in NQ. destruct NQ as [NQ|NQ]; [congruence|exact NQ].
  Qed.
  Lemma events_of t (l : list ev) : map e_ev (map (fun e => (t, Urgent, e)) l) = l.
  Proof. rewrite map_map. apply map_id. Qed.
  Lemma first_needs : needs_ok (des_first c t0 j).
  Proof.
    set (s := des_first c t0 j). assert (AT : forall i T, the_tile (w_node s) i = Some T -> 0 <= i /\ (Z.to_nat i < length (z_tiles (w_node s)))%nat /\ exists m cs p, T = tile_new m cs p).
    { intros i T H. unfold the_tile in H. destruct (Z.ltb_spec i 0); [discriminate|]. split; [assumption|]. split; [apply nth_error_Some; congruence|]. apply nth_error_In in H. cbn in H. apply in_map_iff in H as (k & <- & _). eauto. }
    constructor.
    - constructor.
      + apply Forall_forall. intros T H. cbn in H. apply in_map_iff in H as (k & <- & _). constructor; cbn.
        * apply Forall_forall. intros x H. apply in_map_iff in H as (kp & <- & _). apply core_new_fit.
        * intros k1 k2 id H. exfalso. unfold asked in H. destruct (k1 =? -1); [exact H|]. destruct H as (_ & x & H & H1). cbn in H. rewrite nth_error_map in H. destruct (nth_error _ _); [|discriminate]. injection H as <-. exact H1.
        * intros k1 id H. exfalso. unfold asked in H. destruct (k1 =? -1); [exact H|]. destruct H as (_ & x & H & H1). cbn in H. rewrite nth_error_map in H. destruct (nth_error _ _); [|discriminate]. injection H as <-. exact H1.
        * discriminate.
      + intros d D s0 got H E. apply AT in H as (_ & _ & m & cs & p & ->). discriminate.
      + intros d D p b D' H E. apply AT in H as (_ & _ & m & cs & pp & ->). discriminate.
      + intros d D s0 got H E. apply AT in H as (_ & _ & m & cs & p & ->). discriminate.
    - intros e HE. unfold s, des_first. rewrite begin_queue, map_app, map_app, events_of. apply in_app_iff. unfold node_needs in HE. destruct (ev_tile e) as [i|] eqn:EI.
      + left. destruct HE as (T & HT & HE). apply AT in HT as (H0 & HL & m & cs & p & ->). unfold tile_needs in HE. assert (e = VTile i) as -> by (destruct e; cbn in *; try (destruct HE; discriminate); try congruence).
        apply in_map. right. apply in_map_iff. exists (Z.to_nat i). split; [now rewrite Z2Nat.id by lia|]. apply in_seq. unfold s in HL. cbn in HL. cbn. lia.
      + right. destruct e; try contradiction; try discriminate HE. destruct HE as [_ HE]. unfold s in HE. cbn in HE. destruct (map _ (zrange (w_tiles (y_net c)))) as [|T l] eqn:E; [now left|]. exfalso. assert (H : In T (T :: l)) by now left. rewrite <- E in H. apply in_map_iff in H as (k & <- & _). discriminate.
  Qed.
  Theorem reach_needs s : sim_reach c j t0 s -> needs_ok s.
  Proof. induction 1 as [|s s' H IH HS]; [exact first_needs|]. exact (step_needs s s' (reach_ok c j t0 s H) IH HS). Qed.
End Queue.
