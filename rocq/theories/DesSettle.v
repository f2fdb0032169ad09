(** A node whose tiles have all halted does nothing any more. *)
From Verif Require Import PyBase PyLemmas MemoryModel CoreModel DramModel RouterModel RouterSpec SystemModel SystemSpec SystemBase SystemInv SystemClaims NodeModel NodeSpec NodeClaims.

Lemma settled c j t s : 0 <= y_size c -> sreach c j t s -> completed_run c s -> all_halt c j -> forall now a, sstep c now a s = None.
Proof.
  intros SZ R (CN & CP) AH now a. destruct (sstep c now a s) as [s'|] eqn:E; [exfalso|reflexivity]. apply sstep_go in E as (_ & G).
  assert (QU : forall i, on_node c i -> _) by (intros i Hi; exact (halted_is_quiet c j t s i SZ R (AH i Hi) (CP i Hi))).
  assert (CL : forall i, on_node c i -> r_client (n_router (s_net s) i) = KIdle).
  { intros i Hi. pose proof (sreach_tinv c j SZ t s R i) as [_ _ PS CS _]. unfold prog_shape in PS. rewrite (CP i Hi) in PS. unfold client_shape in CS. destruct (t_phase (s_tile s i)); try exact CS; try (destruct PS; fail); decompose record PS; discriminate. }
  destruct G as [i a0 d K O HD HC HN HT|a0 n O HS HC HN HT|i k p d p' K KK HP HS HC HN HT|i n tt K HS HC HN HT|i k p e K KK HP HS ->|i e K HS ->].
  - destruct (QU i K) as (_ & _ & _ & _ & _ & Q1 & _ & _ & Q2 & _). unfold dstep in HD. destruct (d_crash _); [discriminate|]. destruct a0; try discriminate O.
    + unfold dc_handle in HD. rewrite Q1 in HD. discriminate.
    + unfold dc_grant in HD. rewrite Q2 in HD. discriminate.
    + unfold dc_finish in HD. rewrite Q2 in HD. discriminate.
  - unfold nstep, nstep_cap in HS. destruct (n_crash _); [discriminate|]. destruct (negb (known_router (y_net c) (tile_of a0))) eqn:EK; [discriminate|].
    assert (K : on_node c (tile_of a0)) by (unfold known_router, on_node in *; lia). destruct (QU _ K) as (_ & Q1 & Q2 & Q3 & _). specialize (CL _ K).
    unfold being_sent in Q3. destruct a0; try discriminate O; cbn [tile_of] in *; unfold n_added, n_take, n_travel, n_store, n_count, n_done, n_pop, n_poll, n_stopped in HS; rewrite ?CL, ?Q1 in HS; try discriminate HS; destruct (r_sender _); discriminate.
  - destruct (QU i K) as (Q1 & _). rewrite Forall_forall in Q1. apply nth_error_In in HP. apply Q1 in HP. unfold core_step_sys in HS. rewrite HP in HS. discriminate.
  - unfold tile_step in HS. rewrite (CP i K) in HS. discriminate.
  - destruct (QU i K) as (Q1 & _). rewrite Forall_forall in Q1. apply nth_error_In in HP. apply Q1 in HP. unfold core_step_sys in HS. rewrite HP in HS. discriminate.
  - unfold tile_step in HS. rewrite (CP i K) in HS. discriminate.
Qed.
