(** The results of a node do not change any more after the end of its process, if all its tiles halt. *)
From Coq Require Import Permutation Sorting.Sorted.
From Verif Require Import PyBase PyLemmas MemoryModel CoreModel DramModel RouterModel SystemModel SystemSpec SystemInv SystemClaims NodeModel NodeSpec NodeClaims
  DesModel DesSpec DesRel DesCtl DesCore DesTile DesRefine DesQueue DesRun DesClaims DesWait DesWaitCtl DesWaitTile DesWaitNode DesWaitQueue DesHeap DesIdle
  DesLate DesLateRel DesManyModel DesManySpec DesManyQueue DesMany DesSettle DesSameSpec.

Notation any := (fun _ : cop => True).
Lemma nth_error_eq {A} (l l' : list A) : (forall i, nth_error l i = nth_error l' i) -> l = l'.
Proof.
  revert l'. induction l as [|x l IH]; intros [|y l'] H; [reflexivity|specialize (H O); discriminate|specialize (H O); discriminate|].
  pose proof (H O) as E. cbn in E. injection E as ->. f_equal. apply IH. intros i. exact (H (S i)).
Qed.
Lemma nth_error_zrange n i : (i < Z.to_nat n)%nat -> nth_error (zrange n) i = Some (Z.of_nat i).
Proof. intros H. rewrite <- (nth_zrange n i 0 H). apply nth_error_nth'. now rewrite length_zrange. Qed.
(** ** A node that has settled *)
Definition still (c : sys_cfg) (N : node) : Prop := forall now a, sstep c now a (nd_sys N) = None.
Lemma still_steps c now N N' : still c N -> nsteps c now N N' -> nd_sys N' = nd_sys N /\ nd_tile_cycles N' = nd_tile_cycles N /\ nd_core_cycles N' = nd_core_cycles N.
Proof.
  intros H S. induction S as [N|a N N1 N2 S1 S2 IH]; [auto|]. assert (G : nd_sys N1 = nd_sys N /\ nd_tile_cycles N1 = nd_tile_cycles N /\ nd_core_cycles N1 = nd_core_cycles N).
  { unfold NodeModel.node_step in S1. destruct (_ <? _); [discriminate|]. destruct a as [a|]; [rewrite H in S1; discriminate|]. destruct (negb _); [discriminate|]. injection S1 as <-. auto. }
  destruct G as (G1 & G2 & G3). destruct IH as (I1 & I2 & I3); [intros t a'; rewrite G1; apply H|]. repeat split; congruence.
Qed.
(** What the execution shows of a tile. *)
Definition shown (c : sys_cfg) (N : node) (i : Z) :=
  let t := s_tile (nd_sys N) i in let r := n_router (s_net (nd_sys N)) i in
  (d_mem (t_dram t), d_valid (t_dram t), d_pending (t_dram t), d_stat (t_dram t), map cp_core (t_cores t), map (nd_core_cycles N i) (zrange (zlen (t_cores t))),
   (r_queue r, r_stat r, map (r_buffers r) (zrange (w_nodes (y_net c) * w_tiles (y_net c)))), nd_tile_cycles N i).
Lemma shown_same c N N' i : nd_sys N' = nd_sys N -> nd_tile_cycles N' = nd_tile_cycles N -> nd_core_cycles N' = nd_core_cycles N -> shown c N' i = shown c N i.
Proof. unfold shown. intros -> -> ->. reflexivity. Qed.

Section Same.
Variables (c : sys_cfg) (j : job) (t0 : Z).
Hypotheses (SZ : 0 <= y_size c) (AH : all_halt c j) (NC : never_crashes c j).
Lemma rel_shown now n N t : nd_reach c j t N -> node_rel any c t0 now n N -> forallb x_ended (z_tiles n) = true ->
  still c N /\ forall i T, the_tile n i = Some T -> tile_result c T = shown c N i.
Proof.
  intros HR R F. pose proof (rel_ends any c j t0 (any_job c j) now (MkDes 0 [] n) N R F) as [AG CR ET EC]. destruct (nd_reach_sys c j t N HR) as (t1 & _ & RS).
  split; [intros t' a; exact (settled c j t1 (nd_sys N) SZ RS CR AH t' a)|]. intros i T HT.
  assert (ON : on_node c i) by (apply (ag_tiles _ _ _ _ AG); exists T; exact HT). destruct (ag_view _ _ _ _ AG i T HT) as [V1 V2 V3 V4 V5 V6]. destruct (ET i T HT) as (E1 & E2 & E3).
  destruct (halted_is_quiet c j t1 (nd_sys N) i SZ RS (AH i ON) (proj2 CR i ON)) as (HP & _).
  assert (B : booted_rel any c t0 now i T (view_of N i)).
  { pose proof (nr_tiles _ _ _ _ _ _ R i T HT) as B. unfold tile_rel in B. destruct (is_new T) eqn:E; [|exact B]. destruct B as [(_ & _ & _ & U & _) _]. rewrite forallb_forall in F. rewrite (F T (the_tile_in i T n HT)) in U. discriminate. }
  destruct (br_cores _ _ _ _ _ _ _ B) as [L C]. cbn [view_of v_tile v_cc] in L, C.
  assert (CC : map k_cycles (x_cores T) = map (nd_core_cycles N i) (zrange (zlen (t_cores (s_tile (nd_sys N) i))))).
  { apply nth_error_eq. intros k. rewrite !nth_error_map. unfold zlen. destruct (nth_error (x_cores T) k) as [y|] eqn:EY; cbn [option_map].
    - assert (LK : (k < length (x_cores T))%nat) by (apply nth_error_Some; congruence). destruct (nth_error (t_cores (s_tile (nd_sys N) i)) k) as [p|] eqn:EP; [|apply nth_error_None in EP; lia].
      rewrite nth_error_zrange by lia. cbn [option_map]. specialize (C k p y EP EY). destruct (over y) eqn:EO; [destruct (kr_over _ _ _ _ _ C EO) as (_ & _ & G); now rewrite G|exfalso].
      rewrite Forall_forall in HP. apply nth_error_In in EP. apply HP in EP. destruct (kr_run _ _ _ _ _ C EO) as (_ & XP & _). unfold xphase_rel in XP. rewrite EP in XP. destruct (t_x (k_stage y)); try discriminate. destruct XP as [_ XP]. destruct (k_xp y); try discriminate; try (destruct XP; fail); decompose record XP; discriminate.
    - apply nth_error_None in EY. symmetry. replace (nth_error (zrange _) k) with (@None Z); [reflexivity|]. symmetry. apply nth_error_None. rewrite length_zrange. lia. }
  unfold tile_result, shown. rewrite V1, V2, V3, V4, V5, V6, E1, E2, CC. do 3 f_equal. apply map_ext_in. intros s HS. apply in_zrange in HS. symmetry. now apply E3.
Qed.
Lemma list_result n n' N N' now now' : node_rel any c t0 now n N -> node_rel any c t0 now' n' N' -> (forall i T, the_tile n i = Some T -> tile_result c T = shown c N i) ->
  (forall i T, the_tile n' i = Some T -> tile_result c T = shown c N' i) -> (forall i, shown c N' i = shown c N i) -> map (tile_result c) (z_tiles n') = map (tile_result c) (z_tiles n).
Proof.
  intros R R' H H' E. pose proof (nr_length _ _ _ _ _ _ R) as L. pose proof (nr_length _ _ _ _ _ _ R') as L'. unfold zlen in *. apply nth_error_eq. intros k. rewrite !nth_error_map.
  assert (G : forall m : dnode core cells_valid, the_tile m (Z.of_nat k) = nth_error (z_tiles m) k) by (intros m; unfold the_tile; destruct (Z.ltb_spec (Z.of_nat k) 0); [lia|]; now rewrite Nat2Z.id).
  destruct (nth_error (z_tiles n) k) as [T|] eqn:E1, (nth_error (z_tiles n') k) as [T'|] eqn:E2; cbn [option_map]; auto.
  - rewrite <- G in E1, E2. now rewrite (H _ _ E1), (H' _ _ E2), E.
  - apply nth_error_None in E2. assert (k < length (z_tiles n))%nat by (apply nth_error_Some; congruence). lia.
  - apply nth_error_None in E1. assert (k < length (z_tiles n'))%nat by (apply nth_error_Some; congruence). lia.
Qed.
(** An event after the end of all tiles changes no result. *)
Theorem kept_result t' now e n n' new : late_related any c j t0 t' n -> t' <= now -> forallb x_ended (z_tiles n) = true -> forallb x_ended (z_tiles n') = true -> (e = VMonitor -> z_monitor n = false) ->
  fire (real c) c now e n = DGo n' new -> node_result c n' = node_result c n.
Proof.
  intros HL L F F' HM HF. assert (e = VMonitor \/ e <> VMonitor) as [->|HE] by (destruct e; first [now left|now right]).
  - cbn [fire] in HF. unfold on_monitor in HF. rewrite (HM eq_refl) in HF. cbn in HF. injection HF as <- _. reflexivity.
  - assert (ZB : z_busy n' = z_busy n).
    { pose proof (remon_fire (real c) c (z_next n) (z_busy n) now e n HE) as G. replace (remon (z_next n) (z_busy n) n) with n in G by (now destruct n). rewrite HF in G. cbn [dmap] in G. injection G as G. rewrite G. reflexivity. }
    unfold node_result. rewrite ZB. f_equal.
    destruct (late_sim any c j t0 (any_job c j) now n t' HL L) as [(t & N & H1 & H2 & H3)|(t & N & H1 & H2 & H3 & H4)]; [elim H3; now apply (NC t)|].
    specialize (H4 e HE). rewrite remon_fire, HF in H4 by exact HE. cbn in H4. destruct H4 as [(N' & S & R)|(N' & S & R)]; destruct (nsteps_reach any c j (any_job c j) _ _ _ S _ H2 H1) as (t1 & L' & R'); [|elim R; now apply (NC t1)].
    destruct (rel_shown now _ N t H2 H3 F) as (ST & SH). destruct (rel_shown now _ N' t1 R' R F') as (_ & SH'). destruct (still_steps c now N N' ST S) as (G1 & G2 & G3).
    apply (list_result _ _ N N' now now H3 R SH SH'). intros i. now apply shown_same.
Qed.
End Same.
