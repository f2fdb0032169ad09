(** An execution that cannot go on is as far as any completed execution, unless a read was missed. *)
From Verif Require Import PyBase PyLemmas MemoryModel CoreModel DramModel DramSpec DramProofs DramProgress RouterModel RouterSpec RouterProofs
  SystemModel SystemSpec SystemBase SystemInv SystemOracle SystemDet LiveSpec LiveProofs.
From Coq Require Import ZifyBool ZifyNat Permutation.

Lemma completed_result h r : In r (completed h) -> result_of (q_id r) h <> None.
Proof.
  induction h as [|e h IH]; cbn; [tauto|]. destruct e as [vals|r0 g f data]; cbn; [exact IH|].
  intros [->|I]; [rewrite Z.eqb_refl; discriminate|]. destruct (_ =? _); [discriminate|]. auto.
Qed.

(** ** A state in which nothing can happen *)
Section Wedged.
Variables (c : sys_cfg) (j : job) (tb : Z) (B : sys).
Hypothesis SZ : 0 <= y_size c.
Hypothesis RB : sreach c j tb B.
Hypothesis CR : s_crash B = None.
Hypothesis W : wedged c tb B.

Lemma W_core i k p : on_node c i -> nth_error (t_cores (s_tile B i)) k = Some p ->
  core_step_sys c tb (Z.of_nat k) (t_dram (s_tile B i)) p = Blocked.
Proof.
  intros N E. destruct (core_step_sys _ _ _ _ _) as [|e|(d & p')] eqn:S; [auto| |]; exfalso.
  all: assert (X : exists s', sstep c tb (SCore i (Z.of_nat k)) B = Some s');
    [unfold sstep, sstep_cap; rewrite CR; replace (known_router (y_net c) i) with true by (unfold known_router, on_node in *; lia);
     replace (Z.of_nat k <? 0) with false by lia; cbn [negb orb]; rewrite Nat2Z.id, E, S; eauto|].
  all: destruct X as (s' & X); destruct (W _ _ _ (Z.le_refl _) X) as (i0 & Y & _); discriminate.
Qed.
Lemma W_tile i : on_node c i -> tile_step buffer_capacity c tb i (s_net B) (s_tile B i) = Blocked.
Proof.
  intros N. destruct (tile_step _ _ _ _ _ _) as [|e|(n & t)] eqn:S; [auto| |]; exfalso.
  all: assert (X : exists s', sstep c tb (STile i) B = Some s');
    [unfold sstep, sstep_cap; rewrite CR; replace (known_router (y_net c) i) with true by (unfold known_router, on_node in *; lia);
     cbn [negb orb]; rewrite S; eauto|].
  all: destruct X as (s' & X); destruct (W _ _ _ (Z.le_refl _) X) as (i0 & Y & _); discriminate.
Qed.
Lemma W_net a t' : net_own a = true -> (forall i, a = NPoll i -> r_queue (n_router (s_net B) i) = []) -> nstep (y_net c) t' a (s_net B) = None.
Proof.
  intros O P. destruct (nstep _ _ _ _) as [n|] eqn:S; [|auto]. exfalso.
  destruct (net_later _ _ (Z.max t' tb) _ _ _ S ltac:(lia)) as (n2 & S2).
  assert (X : exists s', sstep c (Z.max t' tb) (SNet a) B = Some s').
  { unfold sstep, sstep_cap. rewrite CR, O. cbn [negb]. change (nstep_cap buffer_capacity) with nstep. rewrite S2. eauto. }
  destruct X as (s' & X). destruct (W _ _ _ (Z.le_max_r t' tb) X) as (i0 & Y & Z0). injection Y as ->. auto.
Qed.
Lemma W_dram i : on_node c i -> forall r, In r (d_submitted (t_dram (s_tile B i))) ->
  In r (completed (d_history (t_dram (s_tile B i)))) \/ In r (d_pending (t_dram (s_tile B i))).
Proof.
  intros N. pose proof (sreach_dinv _ _ SZ _ _ RB i) as DI. pose proof (sreach_tinv _ _ SZ _ _ RB i) as TI.
  destruct (projections _ _ _ _ RB) as (_ & D & CF). destruct (D i) as (t0 & T0 & RD). destruct (CF CR) as (_ & DC). specialize (DC i).
  destruct (d_running (t_dram (s_tile B i))) eqn:RU.
  - assert (NE : ~ (d_queue (t_dram (s_tile B i)) <> [] \/ d_bus (t_dram (s_tile B i)) <> [])).
    { intros NE. destruct (internal_enabled _ _ _ _ SZ RD RU DC NE) as (t' & a & d' & T' & IA & S).
      assert (OA : dram_own a = true) by (destruct a; try destruct IA; reflexivity).
      destruct (own_later _ _ (Z.max t' tb) _ _ _ OA S ltac:(lia)) as (d2 & S2).
      assert (X : exists s', sstep c (Z.max t' tb) (SDram i a) B = Some s').
      { unfold sstep, sstep_cap. rewrite CR, OA. replace (known_router (y_net c) i) with true by (unfold known_router, on_node in *; lia).
        cbn [negb orb]. cbv zeta. rewrite S2. eauto. }
      destruct X as (s' & X). destruct (W _ _ _ (Z.le_max_r t' tb) X) as (i0 & Y & _). discriminate. }
    assert (Q : d_queue (t_dram (s_tile B i)) = []) by (destruct (d_queue _); [auto|exfalso; apply NE; left; discriminate]).
    assert (U : d_bus (t_dram (s_tile B i)) = []) by (destruct (d_bus _); [auto|exfalso; apply NE; right; discriminate]).
    intros r. eapply drained_places; eauto.
  - pose proof (hs_dram _ _ (ti_halt _ _ _ _ TI)) as HD. rewrite RU in HD.
    destruct (halted_done _ _ _ _ _ _ _ DI TI) as (_ & _ & _ & X); [|auto]. left. destruct (has_halted _); [auto|discriminate].
Qed.
Lemma W_write i r : on_node c i -> In r (d_submitted (t_dram (s_tile B i))) -> is_read r = false -> In r (completed (d_history (t_dram (s_tile B i)))).
Proof.
  intros N I K. destruct (W_dram i N r I) as [X|X]; [auto|]. exfalso. pose proof (i_reads _ _ _ _ (sreach_dinv _ _ SZ _ _ RB i)) as F.
  rewrite Forall_forall in F. destruct (F _ X). congruence.
Qed.
Lemma W_blocked i : on_node c i ->
    let blocked := exists p b, r_sender (n_router (s_net B) i) = SOffer p b /\ 0 <= pk_dst p < w_tiles (y_net c) /\ pk_dst p <> i /\
                     zlen (r_buffers (n_router (s_net B) (pk_dst p)) i) = 1 in
    (r_sender (n_router (s_net B) i) = SIdle /\ r_queue (n_router (s_net B) i) = [] \/ blocked) /\
    match r_client (n_router (s_net B) i) with
    | KIdle => True
    | KReading src => r_buffers (n_router (s_net B) i) src = []
    | KPolling _ => r_queue (n_router (s_net B) i) <> []
    | KDraining => blocked
    | KAdding _ | KGot _ _ => False
    end.
Proof.
  intros N. destruct (projections _ _ _ _ RB) as ((t0 & T0 & NR) & _ & CF). destruct (CF CR) as (NC & _).
  assert (ST : forall a t', t0 <= t' -> router_work a = true -> nstep (y_net c) t' a (s_net B) = None).
  { intros a t' T' RW. destruct (net_own a) eqn:O; [apply W_net; [auto|]; intros i0 ->; discriminate|].
    destruct a; try discriminate. unfold nstep, nstep_cap. rewrite NC. cbn [tile_of]. destruct (known_router (y_net c) i0) eqn:K; [|reflexivity]. cbn [negb].
    unfold n_got. cbv zeta. destruct (r_client (n_router (s_net B) i0)) eqn:KC; try reflexivity. exfalso.
    assert (N0 : on_node c i0) by (unfold known_router, on_node in *; lia). pose proof (W_tile i0 N0) as WT.
    pose proof (ti_client _ _ _ _ (sreach_tinv _ _ SZ _ _ RB i0)) as CL. unfold client_shape in CL. rewrite KC in CL.
    destruct (t_phase (s_tile B i0)) eqn:PH; try discriminate CL.
    - destruct CL as [CL|(x & CL)]; discriminate.
    - destruct CL as [CL|(a0 & s0 & w0 & v0 & r0 & P & BK & LT & CL)]; [discriminate|]. unfold tile_step in WT. rewrite P, PH, KC in WT.
      unfold with_net, nstep_cap in WT. rewrite NC in WT. cbn [tile_of] in WT. rewrite K in WT. cbn [negb] in WT. unfold n_got in WT. cbv zeta in WT. rewrite KC in WT.
      destruct (_ =? _) in WT; cbn [set_router n_crash] in WT; rewrite NC in WT; discriminate.
    - destruct CL as [(CL & _)|[(x & CL)|CL]]; discriminate. }
  pose proof (stuck_reason _ _ _ NR NC ST i N) as (X & Y). cbv zeta in *. split; [exact X|].
  destruct (r_client (n_router (s_net B) i)) eqn:KC; auto. intros Q.
  assert (E : nstep (y_net c) (Z.max next tb) (NPoll i) (s_net B) = None) by (apply W_net; [reflexivity|intros i0 [= <-]; auto]).
  unfold nstep, nstep_cap in E. rewrite NC in E. cbn [tile_of] in E. replace (known_router (y_net c) i) with true in E by (unfold known_router, on_node in *; lia).
  cbn [negb] in E. unfold n_poll in E. cbv zeta in E. rewrite KC, Q in E. replace (Z.max next tb <? next) with false in E by lia. discriminate.
Qed.
End Wedged.

(** A cell stored to in one execution is stored to in another with at least the same writes, once its writes are completed. *)
Lemma store_transfer_w j c1 c2 t1 t2 s1 s2 i e a : 0 <= y_size c1 -> y_size c1 = y_size c2 -> sreach c1 j t1 s1 -> sreach c2 j t2 s2 ->
  (forall k x, In x (agent_writes (s_tile s1 i) k) -> In x (agent_writes (s_tile s2 i) k)) ->
  (forall r, In r (d_submitted (t_dram (s_tile s2 i))) -> is_read r = false -> In r (completed (d_history (t_dram (s_tile s2 i))))) ->
  In e (d_history (t_dram (s_tile s1 i))) -> stores e a ->
  exists e', In e' (d_history (t_dram (s_tile s2 i))) /\ stores e' a.
Proof.
  intros S1 SE R1 R2 W D I S. destruct e as [vals|r g f data].
  - exists (EPreload vals). split; [|auto]. pose proof (preloads_reach _ _ _ _ R1 i) as P1. pose proof (preloads_reach _ _ _ _ R2 i) as P2.
    assert (X : In (EPreload vals) (preloads (d_history (t_dram (s_tile s1 i))))) by (apply filter_In; auto).
    rewrite P1 in X. unfold start_history in *. rewrite SE in X. rewrite <- P2 in X. now apply filter_In in X.
  - cbn in S. destruct S as (S2 & S3). unfold is_read in S2. destruct (q_kind r) as [|rows] eqn:K; [discriminate|].
    pose proof (sreach_dinv _ _ S1 _ _ R1 i) as DI. pose proof (sreach_tinv _ _ S1 _ _ R1 i) as TI.
    assert (IS : In r (d_submitted (t_dram (s_tile s1 i)))).
    { eapply dinv_comp; eauto. unfold completed. apply in_flat_map. eexists. split; [exact I|]. cbn. auto. }
    pose proof (ow_log _ _ _ _ (ti_own _ _ _ _ TI) r rows IS K) as L. apply W in L.
    assert (S1' : 0 <= y_size c2) by lia. pose proof (sreach_tinv _ _ S1' _ _ R2 i) as TI2.
    destruct (ow_write _ _ _ _ (ti_own _ _ _ _ TI2) _ _ _ L) as (r' & X1 & X2 & X3 & X4). apply D in X1; [|unfold is_read; now rewrite X4].
    unfold completed in X1. apply in_flat_map in X1 as (e' & X1 & X5). destruct e' as [|r2 g2 f2 d2]; [destruct X5|].
    destruct X5 as [->|[]]. eexists. split; [exact X1|]. cbn. unfold is_read, covers, q_length in *. rewrite X4, X3, K in *. auto.
Qed.

Lemma oprog_del c V S i p p' : oprog c V S i p = Some p' -> exists l, a_del p' = a_del p ++ l.
Proof. intros H. oprog_cases H; cbn; try (eexists; reflexivity); exists []; now rewrite app_nil_r. Qed.

(** ** An execution that is at least as far as another *)
Section Ahead.
Variables (c c' : sys_cfg) (j : job) (ta : Z) (A : sys).
Hypothesis SZ : 0 <= y_size c.
Hypothesis RA : sreach c j ta A.
Hypothesis CA : completed_run c A.
Hypothesis HA : all_halt c j.
Hypothesis WA : forall i, written_once (d_history (t_dram (s_tile A i))).
Hypothesis SH : same_shape c c'.
Hypothesis UL : usable_latencies c.
Hypothesis UL' : usable_latencies c'.
Variables (tb : Z) (B : sys).
Hypothesis RB : sreach c' j tb B.
Hypothesis W : wedged c' tb B.
Hypothesis NM : ~ missed_read c' B.

Let O := oracle_of A.
Let SB : 0 <= y_size c'. Proof. destruct SH as (_ & E & _). lia. Qed.
Let CB : s_crash B = None.
Proof. exact (proj1 (B_good _ _ _ _ _ SZ RA CA HA WA SH UL UL' _ _ RB)). Qed.
Let FB : follows c' j O B.
Proof. exact (proj2 (B_good _ _ _ _ _ SZ RA CA HA WA SH UL UL' _ _ RB)). Qed.
Let TB := sreach_tinv _ _ SB _ _ RB.
Let DB := sreach_dinv _ _ SB _ _ RB.
Let on_B i : on_node c i -> on_node c' i.
Proof. apply (same_node _ _ SH). Qed.

Record ahead (s : sys) : Prop := {
  ah_prog : forall i, on_node c i -> otrace (oprog' c' O i) (abs_prog (s_net s) i (s_tile s i)) (abs_prog (s_net B) i (s_tile B i));
  ah_core : forall i k p, on_node c i -> nth_error (t_cores (s_tile s i)) k = Some p ->
    exists q, nth_error (t_cores (s_tile B i)) k = Some q /\ otrace (ocore c' (o_cell O i)) (abs_core p) (abs_core q);
  ah_net : forall i, on_node c i -> gone (s_net s) i <= gone (s_net B) i }.

Lemma ahead_start t : ahead (sys_start c t j).
Proof.
  split.
  - intros i N. apply (proj1 (FB i)).
  - intros i k p N E. destruct (FB i) as (_ & F). cbn in E. rewrite nth_error_map in E. destruct (nth_error (j_cores j i) k) as [x|] eqn:X; [|discriminate].
    injection E as <-. clear - F X. revert k X. induction F as [|y q l1 l2 H F IH]; intros [|k] X; cbn in *; try discriminate; eauto. injection X as <-. eauto.
  - intros i N. destruct (projections _ _ _ _ RB) as ((t0 & _ & NR) & _). pose proof (gone_nonneg _ _ _ i NR). exact H.
Qed.

Section Step.
Variables (t : Z) (s : sys).
Hypothesis RS : sreach c j t s.
Hypothesis AG : agrees O s.
Hypothesis AH : ahead s.
Let TS := sreach_tinv _ _ SZ _ _ RS.
Let DS := sreach_dinv _ _ SZ _ _ RS.

Lemma ahead_writes i k x : on_node c i -> In x (agent_writes (s_tile s i) k) -> In x (agent_writes (s_tile B i) k).
Proof.
  intros N. unfold agent_writes. destruct (k =? -1).
  - pose proof (ah_prog _ AH i N) as P. destruct (otrace_mono _ a_log (oprog_log _ _ _ _) _ _ P) as (l & E). cbn in E. rewrite E, log_writes_app, in_app_iff. auto.
  - destruct (k <? 0); [auto|]. destruct (nth_error (t_cores (s_tile s i)) _) as [p|] eqn:E; [|intros []].
    destruct (ah_core _ AH _ _ _ N E) as (q & -> & T). destruct (otrace_mono _ cp_writes (ocore_writes _ _) _ _ T) as (l & X). cbn in X. rewrite X, in_app_iff. auto.
Qed.

(** A request answered in the one execution is answered in the other. *)
Lemma write_done i k id a rows : on_node c i -> agent_req (s_tile B i) k = Some (id, a, RWrite rows) -> result_of id (d_history (t_dram (s_tile B i))) <> None.
Proof.
  intros N RQ. destruct (ow_req _ _ _ _ (ti_own _ _ _ _ (TB i)) _ _ _ _ RQ) as (r & X1 & X2 & <- & X4 & X5).
  apply completed_result. eapply W_write; eauto. unfold is_read. now rewrite X5.
Qed.
Lemma read_done i k id a w v r g f data h1 h2 : on_node c i -> agent_req (s_tile B i) k = Some (id, a, RRead w v) ->
  d_history (t_dram (s_tile s i)) = h1 ++ EDone r g f data :: h2 -> q_start r = a -> q_kind r = RRead w v -> result_of id (d_history (t_dram (s_tile B i))) <> None.
Proof.
  intros N RQ HI QS QK. destruct (ow_req _ _ _ _ (ti_own _ _ _ _ (TB i)) _ _ _ _ RQ) as (r' & X1 & X2 & <- & X4 & X5).
  apply completed_result. destruct (W_dram _ _ _ _ SB RB CB W i (on_B i N) r' X1) as [X|X]; [auto|]. exfalso. apply NM. exists i, r'. split; [auto|]. split; [auto|].
  assert (PR : proper r').
  { destruct (i_hist _ _ _ _ (DS i) _ _ _ _ _ _ HI) as ((IR & _ & _ & _ & _ & E) & _). rewrite QK in E. destruct E as (E & _).
    unfold proper, in_range, q_length in *. rewrite QK in *. rewrite X5, X4, <- QS. lia. }
  split; [exact PR|]. intros x CX. destruct (i_hist _ _ _ _ (DS i) _ _ _ _ _ _ HI) as ((IR & _ & _ & _ & _ & E) & _). rewrite QK in E. destruct E as (_ & _ & E).
  assert (CX' : covers r x) by (unfold covers, q_length in *; rewrite QK, QS; rewrite X5, X4 in CX; auto).
  destruct (E x CX') as (y & Y & _). destruct (last_written_value _ _ _ Y) as (e & I1 & I2 & _). apply in_rev in I1.
  assert (I3 : In e (d_history (t_dram (s_tile s i)))) by (rewrite HI; apply in_app_iff; auto).
  destruct (store_transfer_w j c c' t tb s B i e x) as (e' & I' & S'); auto.
  - apply SH.
  - intros k0 z. now apply ahead_writes.
  - intros r0 R0 K0. eapply W_write; eauto.
  - assert (SX : 0 <= x < y_size c') by (replace (y_size c') with (y_size c) by apply SH; unfold in_range, covers in *; lia).
    pose proof (i_mem _ _ _ _ (DB i) x SX) as M. destruct (last_written (rev (d_history (t_dram (s_tile B i)))) x) as [y'|] eqn:L; [apply M|].
    exfalso. eapply no_store_last_written; [exact L| |exact S']. apply in_rev in I'. exact I'.
Qed.

Lemma core_enabled i k now p q d' p' : on_node c i -> nth_error (t_cores (s_tile s i)) k = Some p -> nth_error (t_cores (s_tile B i)) k = Some q ->
  core_step_sys c now (Z.of_nat k) (t_dram (s_tile s i)) p = Go (d', p') -> abs_core p = abs_core q -> False.
Proof.
  intros N EP EQ H E. pose proof (W_core _ _ _ CB W i k q (on_B i N) EQ) as BL.
  assert (E1 : cp_core p = cp_core q) by (change (cp_core (abs_core p) = cp_core (abs_core q)); now rewrite E).
  assert (E2 : cp_prog p = cp_prog q) by (change (cp_prog (abs_core p) = cp_prog (abs_core q)); now rewrite E).
  assert (E4 : cp_writes p = cp_writes q) by (change (cp_writes (abs_core p) = cp_writes (abs_core q)); now rewrite E).
  assert (E3 : cp_phase (abs_core p) = cp_phase (abs_core q)) by now rewrite E. cbn in E3.
  pose proof (Forall_nth_error _ _ _ _ (ti_cores _ _ _ _ (TS i)) EP) as PS. unfold core_shape in PS.
  assert (RQ : agent_req (s_tile B i) (Z.of_nat k) = core_req q) by (rewrite agent_core, EQ; auto). unfold core_req in RQ.
  assert (RP : agent_req (s_tile s i) (Z.of_nat k) = core_req p) by (rewrite agent_core, EP; auto). unfold core_req in RP.
  unfold core_step_sys in *. rewrite <- E2, <- E1 in *.
  destruct (cp_phase p) as [|id a|a rows|id|] eqn:PP; destruct (cp_phase q) as [|id' a'|a' rows'|id'|] eqn:QP; try discriminate E3.
  - destruct (cp_prog p) as [|o rest] eqn:PR; [discriminate|].
    assert (X : match exec_local (y_core c') (cp_core p) o with
                | (Ok _, k1) => Go (t_dram (s_tile B i), MkCProc k1 rest PReady (cp_writes q))
                | (Raise e, _) => Crash e
                end = Blocked -> False) by (intros X; destruct (exec_local (y_core c') (cp_core p) o) as ([u|e'] & k1); discriminate X).
    destruct o; auto; clear X.
    + destruct (load_address _ _ _) as ([a|e'] & k1) in BL; [|discriminate]. destruct (dc_submit _ _ _ _ _) as ([r|e'] & d1) in BL; discriminate.
    + destruct (store_request _ _ _ _ _ _) as ([(a & v)|e'] & k1) in BL; discriminate.
    + discriminate.
  - injection E3 as <-. destruct PS as (dest & rd & w & v & rest & PR). rewrite PR in *.
    destruct (result_of id _) as [x|] eqn:RO in H; [|discriminate].
    destruct (owner_entry _ _ _ _ _ _ _ _ _ _ _ (DS i) (ti_own _ _ _ _ (TS i)) RP RO) as (r & g & f & h1 & h2 & HI & Q1 & Q2).
    pose proof (read_done _ _ _ _ _ _ _ _ _ _ _ _ N RQ HI Q1 Q2) as RD. destruct (result_of id' _) as [y|]; [|contradiction].
    destruct (load_finish _ _ _ _) as ([u|e'] & k1) in BL; discriminate.
  - destruct (dc_submit _ _ _ _ _) as ([r|e'] & d1) in BL; discriminate.
  - destruct PS as (dest & rd & w & v & rest & l' & (xa & xr) & PR & WR). rewrite PR in *.
    rewrite E4 in WR. rewrite WR, map_app in RQ. cbn [map] in RQ. rewrite last_last in RQ.
    pose proof (write_done _ _ _ _ _ N RQ) as RD. destruct (result_of id' _); [discriminate|contradiction].
  - discriminate.
Qed.

(** The packets that have left a router here have left it there. *)
Lemma ahead_out i : on_node c i -> exists o e l, r_submitted (n_router (s_net s) i) = o ++ left_over (n_router (s_net s) i) /\
  r_submitted (n_router (s_net B) i) = (o ++ e) ++ left_over (n_router (s_net B) i) /\
  r_submitted (n_router (s_net B) i) = r_submitted (n_router (s_net s) i) ++ l /\ zlen e = gone (s_net B) i - gone (s_net s) i.
Proof.
  intros N. destruct (projections _ _ _ _ RB) as ((t0 & _ & NR) & _). destruct (projections _ _ _ _ RS) as ((t1 & _ & NR1) & _).
  destruct (split_reach _ _ _ NR i) as (ob & EB). destruct (split_reach _ _ _ NR1 i) as (o & ES).
  pose proof (ah_prog _ AH i N) as P. destruct (otrace_mono _ a_sub (oprog_sub _ _ _ _) _ _ P) as (l & E). cbn in E.
  pose proof (ah_net _ AH i N) as G. unfold gone in *. pose proof EB as EB0. pose proof ES as ES0. 
  assert (G1 : zlen (r_submitted (n_router (s_net B) i)) - zlen (left_over (n_router (s_net B) i)) = zlen ob) by (rewrite EB at 1; rewrite zlen_app; lia).
  assert (G2 : zlen (r_submitted (n_router (s_net s) i)) - zlen (left_over (n_router (s_net s) i)) = zlen o) by (rewrite ES at 1; rewrite zlen_app; lia).
  rewrite G1, G2 in *. rewrite ES0, EB0, <- app_assoc in E. symmetry in E. destruct (app_shorter _ _ _ _ E) as (e & ->); [unfold zlen in G; lia|].
  exists o, e, l. rewrite zlen_app. split; [auto|]. split; [auto|]. split; [|lia]. rewrite EB0, ES0. rewrite <- E, <- app_assoc. reflexivity.
Qed.

Lemma halted_cores i : on_node c i -> forallb halted (t_cores (s_tile s i)) = true -> forallb halted (t_cores (s_tile B i)) = true.
Proof.
  intros N H. apply forallb_forall. intros q IQ. apply In_nth_error in IQ as (k & EQ).
  assert (LN : length (t_cores (s_tile B i)) = length (t_cores (s_tile s i))).
  { destruct (FB i) as (_ & F). destruct (agrees_follows _ _ _ _ _ SZ (proj1 UL) RS AG i) as (_ & G).
    assert (L : forall (X Y : Type) (P : X -> Y -> Prop) l1 l2, Forall2 P l1 l2 -> length l1 = length l2) by (induction 1; cbn; auto).
    apply L in F. apply L in G. congruence. }
  assert (LT : (k < length (t_cores (s_tile s i)))%nat) by (rewrite <- LN; apply nth_error_Some; congruence).
  apply nth_error_Some in LT. destruct (nth_error (t_cores (s_tile s i)) k) as [p|] eqn:EP; [|contradiction].
  destruct (ah_core _ AH _ _ _ N EP) as (q' & EQ' & T). assert (q' = q) by congruence. subst q'.
  rewrite forallb_forall in H. pose proof (H _ (nth_error_In _ _ EP)) as HP. unfold halted in *.
  assert (E : abs_core p = abs_core q).
  { apply (otrace_end _ _ _ T). unfold ocore, abs_core. cbn. destruct (cp_phase p); try discriminate. destruct (cp_prog p); reflexivity. }
  assert (E3 : cp_phase (abs_core p) = cp_phase (abs_core q)) by now rewrite E. cbn in E3. destruct (cp_phase p); try discriminate. destruct (cp_phase q); auto; discriminate.
Qed.

Lemma with_net_enabled a nn now tt : nstep (y_net c') now a nn <> None -> with_net buffer_capacity c' now a nn tt <> Blocked.
Proof. unfold with_net. change (nstep_cap buffer_capacity) with nstep. destruct (nstep _ _ _ _) as [n|]; [|contradiction]. intros _. destruct (n_crash n); discriminate. Qed.

Lemma tile_enabled i now n' t' : on_node c i -> tile_go c now i (s_net s) (s_tile s i) n' t' ->
  abs_prog (s_net s) i (s_tile s i) = abs_prog (s_net B) i (s_tile B i) -> abs_prog n' i t' = abs_prog (s_net s) i (s_tile s i).
Proof.
  intros N G E. pose proof (W_tile _ _ _ CB W i (on_B i N)) as BL. pose proof (W_blocked _ _ _ _ SB RB CB W i (on_B i N)) as (BS & BC). cbv zeta in BC.
  destruct (projections _ _ _ _ RB) as ((t0 & _ & NR) & _ & CF). destruct (CF CB) as (NC & _).
  destruct (projections _ _ _ _ RS) as ((t1 & _ & NR1) & _).
  set (u := s_tile B i) in *. set (ts := s_tile s i) in *.
  assert (E1 : t_prog ts = t_prog u) by (change (a_prog (abs_prog (s_net s) i ts) = a_prog (abs_prog (s_net B) i u)); now rewrite E).
  assert (E2 : t_log ts = t_log u) by (change (a_log (abs_prog (s_net s) i ts) = a_log (abs_prog (s_net B) i u)); now rewrite E).
  assert (E3 : r_submitted (n_router (s_net s) i) = r_submitted (n_router (s_net B) i)) by (change (a_sub (abs_prog (s_net s) i ts) = a_sub (abs_prog (s_net B) i u)); now rewrite E).
  assert (E4 : r_delivered (n_router (s_net s) i) = r_delivered (n_router (s_net B) i)) by (change (a_del (abs_prog (s_net s) i ts) = a_del (abs_prog (s_net B) i u)); now rewrite E).
  assert (E5 : a_phase (abs_prog (s_net s) i ts) = a_phase (abs_prog (s_net B) i u)) by now rewrite E. cbn in E5.
  pose proof (ti_client _ _ _ _ (TB i)) as CL. fold u in CL. unfold client_shape in CL.
  pose proof (ti_client _ _ _ _ (TS i)) as CS. fold ts in CS. unfold client_shape in CS.
  pose proof (ti_prog _ _ _ _ (TS i)) as PS. fold ts in PS. unfold prog_shape in PS.
  assert (K : known_router (y_net c') i = true) by (apply on_B in N; unfold known_router, on_node in *; lia).
  assert (NS : forall a, tile_of a = i -> nstep (y_net c') tb a (s_net B) = match a with
      | NSubmit i target data => n_submit (y_net c') tb i target data (s_net B)
      | NRead i src => n_read (y_net c') i src (s_net B)
      | NHalt i => n_halt tb i (s_net B) | _ => nstep (y_net c') tb a (s_net B) end).
  { intros a TA. destruct a; auto; unfold nstep, nstep_cap; rewrite NC, TA, K; reflexivity. }
  assert (SUB : forall k a kd X (g : req -> dram -> outcome X), (forall r d, g r d <> Blocked) ->
     match dc_submit tb k a kd (t_dram u) with (Raise e, _) => Crash e | (Ok r, d) => g r d end <> Blocked).
  { intros k a kd X g H. destruct (dc_submit _ _ _ _ _) as ([r|e] & d); [auto|discriminate]. }
  assert (RDN : forall src, n_read (y_net c') i src (s_net B) <> None \/ r_client (n_router (s_net B) i) <> KIdle).
  { intros src. unfold n_read. cbv zeta. destruct (r_client (n_router (s_net B) i)); try (right; discriminate). left. destruct (buffer_key _ _ _); discriminate. }
  unfold tile_step in BL. rewrite <- E1 in BL.
  assert (RECV : forall got addr src w v rest, t_prog ts = TRecv addr src w v :: rest -> t_phase u = PRecv got ->
    zlen got < v /\ r_client (n_router (s_net B) i) = KReading src /\ r_buffers (n_router (s_net B) i) src = []).
  { intros got addr src w v rest P PH. rewrite P, PH in BL. rewrite PH in CL. 
    destruct CL as [CL|(a0 & s0 & w0 & v0 & r0 & P0 & BK & LT & [CL|(d & CL)])].
    - exfalso. rewrite CL in BL. destruct (zlen got <? v).
      + eapply with_net_enabled; [|exact BL]. change (nstep_cap buffer_capacity) with nstep. rewrite NS by reflexivity. destruct (RDN src); auto.
      + revert BL. apply SUB. discriminate.
    - rewrite <- E1, P in P0. injection P0 as <- <- <- <- <-. rewrite CL in BC. auto.
    - rewrite CL in BC. destruct BC. }
  assert (HAND : forall got addr src w v rest src' data, t_prog ts = TRecv addr src w v :: rest -> t_phase ts = PRecv got ->
    r_client (n_router (s_net s) i) = KGot src' data -> r_client (n_router (s_net B) i) = KReading src -> r_buffers (n_router (s_net B) i) src = [] -> False).
  { intros got addr src w v rest src' data P PH KG X2 X3. rewrite PH in CS.
    destruct CS as [CS|(a0 & s0 & w0 & v0 & r0 & P0 & BK & LT & [CS|(d & CS)])]; try congruence. rewrite P in P0. injection P0 as <- <- <- <- <-.
    rewrite CS in KG. injection KG as <- <-.
    assert (D : on_node c src \/ ~ on_node c src) by (unfold on_node; lia). destruct D as [N1|N1].
    - destruct (ahead_out src N1) as (o & e & l & O1 & O2 & _). pose proof (out_stream _ _ _ src i o NR1 O1) as S1. pose proof (out_stream _ _ _ src i _ NR O2) as S2.
      rewrite X3, <- E4 in S2. rewrite for_tile_app', S1 in S2. unfold in_hand in S2. rewrite X2, CS in S2.
      apply (f_equal (@length _)) in S2. rewrite !app_length in S2. unfold from_tile at 2 in S2. cbn in S2. rewrite Z.eqb_refl in S2. cbn in S2. lia.
    - pose proof (stream_reach _ _ _ NR1 src i) as ST. unfold stream, in_hand in ST. rewrite CS in ST.
      rewrite (unknown_unused _ _ _ NR1 src) in ST by (unfold known_router, on_node in *; lia). unfold from_tile at 2 in ST. cbn in ST. rewrite Z.eqb_refl in ST.
      destruct (from_tile src _); discriminate. }
  destruct G; [exfalso|exfalso|exfalso|exfalso|exfalso| |exfalso|exfalso|exfalso|exfalso|exfalso|exfalso]; rewrite ?H, ?H0 in *;
    try (destruct (t_phase u) as [|id'|rows'|got'|id'|] eqn:PU; try discriminate E5).
  - revert BL. apply SUB. discriminate.
  - assert (RQ : agent_req u (-1) = Some (id', addr, RRead w v)) by (rewrite agent_prog; unfold prog_req; rewrite PU, <- E1; auto).
    assert (RP : agent_req ts (-1) = Some (id, addr, RRead w v)) by (rewrite agent_prog; unfold prog_req; rewrite H0, H; auto).
    destruct (owner_entry _ _ _ _ _ _ _ _ _ _ _ (DS i) (ti_own _ _ _ _ (TS i)) RP H1) as (r & g & f & h1 & h2 & HI & Q1 & Q2).
    pose proof (read_done _ _ _ _ _ _ _ _ _ _ _ _ N RQ HI Q1 Q2) as RD. fold u in RD. destruct (result_of id' _) as [y|]; [|contradiction].
    destruct (_ || _); discriminate.
  - injection E5 as <-. destruct CL as [CL|(x & CL)]; rewrite CL in *; [|auto]. eapply with_net_enabled; [|exact BL]. rewrite NS by reflexivity.
    unfold n_submit. cbv zeta. rewrite CL. destruct (call_submit _ _ _ _ _ _ _ H2) as (_ & RU & _).
    destruct (r_running (n_router (s_net B) i)) eqn:RB'; [destruct (_ <? 0); discriminate|].
    pose proof (ti_halt _ _ _ _ (TB i)) as HB. pose proof (ti_halt _ _ _ _ (TS i)) as HS'. fold u in HB. fold ts in HS'.
    destruct (hs_router _ _ HB RB') as [X|X]; [|congruence]. unfold has_halted in X. rewrite <- E2 in X. apply (hs_router' _ _ HS') in X. congruence.
  - injection E5 as <-. destruct CL as [CL|(x & CL)]; rewrite CL in *; [discriminate|auto].
  - destruct (_ || _) in BL; discriminate.
  - destruct (net_log _ _ _ _ _ H3 i) as (L1 & L2). unfold abs_prog. rewrite L1, L2, !app_nil_r. reflexivity.
  - injection E5 as <-. destruct (RECV _ _ _ _ _ _ eq_refl eq_refl) as (X & _). lia.
  - injection E5 as <-. destruct (RECV _ _ _ _ _ _ eq_refl eq_refl) as (X1 & X2 & X3). eapply HAND; eauto.
  - injection E5 as <-. destruct (RECV _ _ _ _ _ _ eq_refl eq_refl) as (X1 & X2 & X3). eapply HAND; eauto.
  - destruct PS as (a0 & s0 & w0 & v0 & r0 & l & rows & P & LG). injection P as <- <- <- <- <-.
    assert (LA : last (map Some (log_writes (t_log u))) None = Some (addr, rows)).
    { rewrite <- E2, LG, log_writes_app, map_app. cbn [log_writes flat_map ev_write app map]. apply last_last. }
    assert (RQ : agent_req u (-1) = Some (id', addr, RWrite rows)) by (rewrite agent_prog; unfold prog_req; rewrite PU, <- E1, LA; auto).
    pose proof (write_done _ _ _ _ _ N RQ) as RD. fold u in RD. destruct (result_of id' _); [discriminate|contradiction].
  - pose proof (halted_cores i N H1) as HC. fold u in HC. rewrite HC in BL. eapply with_net_enabled; [|exact BL]. rewrite NS by reflexivity. unfold n_halt. cbv zeta. rewrite CL. destruct (r_running _); discriminate.
  - assert (LO : left_over (n_router (s_net B) i) = []).
    { destruct CS as [(_ & RU)|[(x & CS)|CS]]; try congruence. destruct (sent_reach _ _ _ NR1 i) as (_ & _ & _ & _ & X & _). destruct (X RU) as (Q & SI & _).
      pose proof (ah_net _ AH i N) as GO. unfold gone in GO. rewrite <- E3 in GO. unfold left_over at 1, in_flight in GO. rewrite Q, SI in GO. cbn in GO.
      destruct (left_over (n_router (s_net B) i)); [auto|]. rewrite zlen_cons in GO. pose proof (zlen_nonneg l). change (zlen (@nil packet)) with 0 in GO. lia. }
    unfold left_over in LO. apply app_eq_nil in LO as (LO1 & LO2).
    destruct CL as [(CL & _)|[(x & CL)|CL]]; rewrite CL in *.
    + destruct (_ && _) in BL; discriminate.
    + auto.
    + destruct BC as (p & b & X & _). unfold in_flight in LO1. rewrite X in LO1. discriminate.
Qed.

(** A packet that leaves its router here has left it there. *)
Lemma store_enabled i p b : on_node c i -> r_sender (n_router (s_net s) i) = SOffer p b -> zlen (r_buffers (n_router (s_net s) (pk_dst p)) (pk_src p)) < 1 ->
  gone (s_net s) i + 1 <= gone (s_net B) i.
Proof.
  intros N SO RM. pose proof (ah_net _ AH i N) as G. destruct (Z.eq_dec (gone (s_net s) i) (gone (s_net B) i)) as [EG|NG]; [exfalso|lia].
  destruct (ahead_out i N) as (o & e & l & O1 & O2 & O3 & LE). assert (e = []) by (destruct e; [auto|]; rewrite zlen_cons in LE; pose proof (zlen_nonneg e); lia). subst e.
  rewrite app_nil_r in O2. destruct (projections _ _ _ _ RB) as ((t0 & _ & NR) & _ & CF). destruct (CF CB) as (NC & _).
  destruct (projections _ _ _ _ RS) as ((t1 & _ & NR1) & _).
  assert (LO : exists l', left_over (n_router (s_net B) i) = p :: l').
  { rewrite O1, O2 in O3. rewrite <- app_assoc in O3. apply app_inv_head in O3. unfold left_over at 2, in_flight in O3. rewrite SO in O3. cbn in O3. eauto. }
  destruct LO as (l' & LO). destruct (own_reach _ _ _ NR1 i) as (_ & _ & OW). unfold being_sent in OW. rewrite SO in OW. inversion_clear OW as [|? ? PI _].
  rewrite PI in RM. set (k := pk_dst p) in *.
  pose proof (W_blocked _ _ _ _ SB RB CB W i (on_B i N)) as (BS & _). cbv zeta in BS.
  destruct BS as [(S1 & S2)|(p' & b' & S1 & S2 & S3 & S4)].
  { unfold left_over, in_flight in LO. rewrite S1, S2 in LO. discriminate. }
  unfold left_over, in_flight in LO. rewrite S1 in LO. injection LO as -> _. fold k in S2, S3, S4.
  assert (NK : on_node c k) by (apply (same_node _ _ SH); unfold on_node; lia).
  pose proof (out_stream _ _ _ i k o NR1 O1) as X1. pose proof (out_stream _ _ _ i k o NR O2) as X2.
  pose proof (W_blocked _ _ _ _ SB RB CB W k (on_B k NK)) as (_ & BC). cbv zeta in BC.
  assert (HB : in_hand (n_router (s_net B) k) = []) by (unfold in_hand; destruct (r_client (n_router (s_net B) k)); auto; destruct BC).
  rewrite HB, X1 in X2. cbn [from_tile filter map app] in X2.
  assert (BF : r_buffers (n_router (s_net s) k) i = []) by (destruct (r_buffers (n_router (s_net s) k) i) as [|x y]; [auto|]; rewrite zlen_cons in RM; pose proof (zlen_nonneg y); lia).
  rewrite BF, app_nil_r in X2. apply (f_equal (@length _)) in X2. rewrite !app_length in X2. unfold zlen in S4.
  assert (LB : length (from_tile i (@nil (Z * list Z))) = 0%nat) by reflexivity. 
  pose proof (ah_prog _ AH k NK) as P. destruct (otrace_mono _ a_del (oprog_del _ _ _ _) _ _ P) as (dl & DL). cbn in DL.
  rewrite DL, from_tile_app, app_length in X2. unfold in_hand in X2.
  destruct (r_client (n_router (s_net s) k)) as [| | |src d| |] eqn:KC; try (cbn in X2; lia).
  unfold from_tile at 2 in X2. cbn [filter fst] in X2. destruct (Z.eqb_spec src i) as [->|NE]; [|cbn in X2; lia]. cbn [map length] in X2.
  pose proof (ti_client _ _ _ _ (TS k)) as CS. unfold client_shape in CS. rewrite KC in CS.
  destruct (t_phase (s_tile s k)) as [| | |got| |] eqn:PH; try discriminate CS; try (destruct CS as [CS|(x & CS)]; discriminate).
  2:{ destruct CS as [(CS & _)|[(x & CS)|CS]]; discriminate. }
  destruct CS as [CS|(a0 & s0 & w0 & v0 & r0 & P0 & BK & LT & [CS|(d0 & CS)])]; try discriminate. injection CS as <- <-.
  destruct (otrace_head _ _ _ P) as [E|(y & E & T)].
  - pose proof (W_tile _ _ _ CB W k (on_B k NK)) as BL.
    assert (E1 : t_prog (s_tile s k) = t_prog (s_tile B k)) by (change (a_prog (abs_prog (s_net s) k (s_tile s k)) = a_prog (abs_prog (s_net B) k (s_tile B k))); now rewrite E).
    assert (E5 : a_phase (abs_prog (s_net s) k (s_tile s k)) = a_phase (abs_prog (s_net B) k (s_tile B k))) by now rewrite E. cbn in E5. rewrite PH in E5.
    destruct (t_phase (s_tile B k)) as [| | |got'| |] eqn:PB; try discriminate. injection E5 as <-.
    pose proof (ti_client _ _ _ _ (TB k)) as CL. unfold client_shape in CL. rewrite PB in CL.
    unfold tile_step in BL. rewrite <- E1, P0, PB in BL.
    destruct CL as [CL|(a1 & s1 & w1 & v1 & r1 & P1 & BK1 & LT1 & [CL|(d1 & CL)])]; rewrite CL in *.
    + replace (zlen got <? v0) with true in BL by lia. eapply with_net_enabled; [|exact BL]. unfold nstep, nstep_cap. rewrite NC. cbn [tile_of].
      replace (known_router (y_net c') k) with true by (unfold known_router; lia). cbn [negb]. unfold n_read. cbv zeta. rewrite CL. match goal with |- (if ?b then _ else _) <> None => destruct b end; discriminate.
    + rewrite <- E1, P0 in P1. injection P1 as <- <- <- <- <-. rewrite BC in S4. cbn in S4. lia.
    + destruct BC.
  - unfold oprog', oprog, abs_prog in E. cbn [a_phase a_prog a_log a_sub a_del] in E. cbv zeta in E. rewrite PH, P0 in E.
    replace (zlen got <? v0) with true in E by lia. match type of E with (if ?b then _ else _) = _ => destruct b; [|discriminate E] end. destruct (nth_error _ _) as [data|]; [|discriminate].
    assert (AD : exists z, a_del y = r_delivered (n_router (s_net s) k) ++ [(i, z)]) by (destruct (_ =? _); injection E as <-; eexists; reflexivity).
    destruct AD as (z & AD). destruct (otrace_mono _ a_del (oprog_del _ _ _ _) _ _ T) as (d2 & D2). cbn in D2. rewrite AD, DL in D2.
    rewrite <- app_assoc in D2. apply app_inv_head in D2. rewrite D2, from_tile_app, app_length in X2.
    assert (L1 : length (from_tile i [(i, z)]) = 1%nat) by (unfold from_tile; cbn; rewrite Z.eqb_refl; reflexivity). lia.
Qed.

Lemma ahead_step now a s' : sstep c now a s = Some s' -> ahead s'.
Proof.
  intros H. apply sstep_go in H as (CR & G).
  destruct G as [i0 a0 d K O0 HD HC HN HT|a0 n O0 HS HC HN HT|i0 k p d p' K KK HP HS HC HN HT|i0 n tt K HS HC HN HT|i0 k p e K KK HP HS ->|i0 e K HS ->].
  - destruct AH as [P1 P2 P3]. split; intros i; rewrite ?HN, ?HT.
    + intros N. destruct (Z.eq_dec i i0) as [->|NE]; [rewrite set_fun_eq|rewrite set_fun_neq by auto; auto]. apply (P1 i0 N).
    + intros k p N. destruct (Z.eq_dec i i0) as [->|NE]; [rewrite set_fun_eq|rewrite set_fun_neq by auto; auto]. exact (P2 i0 k p N).
    + auto.
  - destruct AH as [P1 P2 P3]. split; intros i; rewrite ?HN, ?HT.
    + intros N. destruct (net_quiet _ _ _ _ _ HS i (or_intror O0)). rewrite (abs_prog_net (s_net s) n) by auto. auto.
    + auto.
    + intros N. destruct (gone_step _ _ _ _ _ HS i) as [->|(_ & -> & _ & p & b & SO & RM)]; [auto|]. eapply store_enabled; eauto.
  - split; intros i; rewrite ?HN, ?HT.
    + intros N. destruct (Z.eq_dec i i0) as [->|NE]; [rewrite set_fun_eq|rewrite set_fun_neq by auto; apply AH; auto]. apply (ah_prog _ AH i0 N).
    + intros k0 p0 N. destruct (Z.eq_dec i i0) as [->|NE]; [rewrite set_fun_eq|rewrite set_fun_neq by auto; apply AH; auto]. cbn [t_cores].
      rewrite nth_error_upd. destruct (Nat.eqb_spec (Z.to_nat k) k0) as [<-|NK]; [|apply AH; auto]. rewrite HP. intros [= <-].
      destruct (ah_core _ AH _ _ _ N HP) as (q & EQ & T). exists q. split; [auto|].
      assert (HS' : core_step_sys c now (Z.of_nat (Z.to_nat k)) (t_dram (s_tile s i0)) p = Go (d, p')) by (rewrite Z2Nat.id by lia; exact HS).
      pose proof (core_follow _ _ _ _ _ _ _ _ _ _ _ (proj1 UL) (DS i0) (TS i0) (proj1 AG i0) HP HS') as F. rewrite (ocore_shape _ _ _ _ SH) in F.
      destruct (otrace_head _ _ _ T) as [E|(y & E & T')]; [|congruence]. exfalso. eapply core_enabled; eauto.
    + apply AH.
  - apply tile_step_go in HS. split; intros i; rewrite ?HN, ?HT.
    + intros N. destruct (Z.eq_dec i i0) as [->|NE]; [rewrite set_fun_eq|rewrite set_fun_neq by auto].
      * destruct (projections _ _ _ _ RS) as ((t1 & _ & NR) & _).
        destruct (prog_follow _ O _ _ _ _ _ _ (proj1 UL) (DS i0) (TS i0) AG (ex_intro _ _ NR) HS) as [E|E]; [rewrite E; apply AH; auto|].
        unfold oprog' in E. rewrite (oprog_shape _ _ _ _ _ _ SH) in E.
        destruct (otrace_head _ _ _ (ah_prog _ AH i0 N)) as [E'|(y & E' & T')].
        -- rewrite (tile_enabled _ _ _ _ N HS E'). apply AH; auto.
        -- unfold oprog' in E'. assert (y = abs_prog n i0 tt) by congruence. subst y. exact T'.
      * apply tile_go_net in HS as [->|(a1 & E & _ & HS & _)]; [apply AH; auto|].
        assert (NE1 : i <> tile_of a1) by congruence. destruct (net_quiet _ _ _ _ _ HS i (or_introl NE1)). rewrite (abs_prog_net (s_net s) n) by auto. apply AH; auto.
    + intros k p N. destruct (Z.eq_dec i i0) as [->|NE]; [rewrite set_fun_eq|rewrite set_fun_neq by auto; apply AH; auto].
      replace (t_cores tt) with (t_cores (s_tile s i0)); [apply AH; auto|]. destruct HS; reflexivity.
    + intros N. apply tile_go_net in HS as [->|(a1 & _ & OA & HS & _)]; [apply AH; auto|].
      destruct (gone_step _ _ _ _ _ HS i) as [->|(-> & _)]; [apply AH; auto|discriminate].
  - destruct AH as [P1 P2 P3]. split; auto.
  - destruct AH as [P1 P2 P3]. split; auto.
Qed.
End Step.

Lemma ahead_all t s : sreach c j t s -> agrees O s -> ahead s.
Proof.
  intros R. induction R as [t|t t' a s s' R IH T H]; intros AG; [apply ahead_start|].
  pose proof (agrees_before _ _ _ _ _ _ H AG) as A0. eapply ahead_step; eauto.
Qed.

Lemma wedged_completed : completed_run c' B.
Proof.
  split; [exact CB|]. intros i N'. assert (N : on_node c i) by (apply (same_node _ _ SH); auto).
  pose proof (ah_prog _ (ahead_all _ _ RA (oracle_agrees _ WA)) i N) as P.
  pose proof (otrace_end _ _ _ P (A_prog_end c c' A CA i N)) as E.
  change (a_prog (abs_prog (s_net B) i (s_tile B i)) = []). rewrite <- E. cbn. apply CA. auto.
Qed.
End Ahead.

(** ** The statement *)
Lemma missed_dec c j t s : 0 <= y_size c -> sreach c j t s -> missed_read c s \/ ~ missed_read c s.
Proof.
  intros SZ R.
  set (f := fun i => existsb (fun r => (0 <=? q_start r) && (0 <=? q_length r) && forallb (fun a => znth false (d_valid (t_dram (s_tile s i))) (q_start r + a)) (zrange (q_length r))) (d_pending (t_dram (s_tile s i)))).
  assert (X : forall r i, forallb (fun a => znth false (d_valid (t_dram (s_tile s i))) (q_start r + a)) (zrange (q_length r)) = true <->
     forall a, covers r a -> znth false (d_valid (t_dram (s_tile s i))) a = true).
  { intros r i. rewrite forallb_forall. unfold covers. split.
    - intros H a Ha. specialize (H (a - q_start r)). replace (q_start r + (a - q_start r)) with a in H by lia. apply H. apply in_zrange. lia.
    - intros H a Ha. apply in_zrange in Ha. apply H. lia. }
  destruct (existsb f (zrange (w_tiles (y_net c)))) eqn:E.
  - left. apply existsb_exists in E as (i & I & E). apply in_zrange in I. unfold f in E. apply existsb_exists in E as (r & IR & E). exists i, r.
    apply andb_prop in E as (E1 & E).
    split; [unfold on_node; lia|]. split; [auto|]. split; [unfold proper; lia|]. now apply X.
  - right. intros (i & r & N & IR & PR & V). assert (existsb f (zrange (w_tiles (y_net c))) = true); [|congruence].
    apply existsb_exists. exists i. split; [apply in_zrange; unfold on_node in N; lia|]. apply existsb_exists. exists r. split; [auto|].
    apply andb_true_intro. split; [unfold proper in PR; lia|]. now apply X.
Qed.

Lemma wedged_or_missed c c' j t A t' B : 0 <= y_size c -> usable_latencies c -> usable_latencies c' -> same_shape c c' -> all_halt c j ->
  sreach c j t A -> completed_run c A -> (forall i, on_node c i -> written_once (d_history (t_dram (s_tile A i)))) ->
  sreach c' j t' B -> wedged c' t' B -> completed_run c' B \/ missed_read c' B.
Proof.
  intros SZ UL UL' SH HA RA CA WO RB W. pose proof (written_once_all _ _ _ _ RA WO) as WA.
  assert (SB : 0 <= y_size c') by (destruct SH as (_ & E & _); lia).
  destruct (missed_dec _ _ _ _ SB RB) as [M|M]; [auto|]. left. eapply (wedged_completed c c' j t A); eauto.
Qed.
