(** The example: the claims. *)
From Verif Require Import PyBase PyLemmas ConfigModel MemoryModel VfuModel FloatModel MvmuModel MvmuSpec CoreModel CoreSpec
  DramModel DramSpec DramProofs RouterModel RouterSpec SystemModel SystemSpec LoaderModel LoaderSpec LoaderProofs LoaderClaims LoaderAct
  MvmuAccept SymMachine SymCore SymTile SymNet MlpProgram MlpRun MlpCheck MlpSpec MlpLoad MlpProofs LiveSpec LiveDet LiveBound LiveClaims SystemDet.
From Coq Require Import ZifyBool ZifyNat.
Open Scope Z_scope.

Lemma sv_eqb_ok : forall a b, sv_eqb a b = true -> a = b.
Proof.
  induction a as [z|i|t k u j|a1 IH1 a2 IH2|a1 IH1|]; intros [z'|i'|t' k' u' j'|b1 b2|b1|]; cbn [sv_eqb]; intros H; try discriminate.
  - f_equal. lia.
  - f_equal. lia.
  - f_equal; lia.
  - apply andb_prop in H as [H1 H2]. f_equal; auto.
  - f_equal; auto.
Qed.
Lemma holds_in_some p o : holds_in p o = true -> exists s, o = Some s /\ p s = true.
Proof. destruct o as [s|]; [eauto|discriminate]. Qed.

Definition tile_halts (t : Z) : bool := existsb (fun o => match o with THalt => true | _ => false end) (of_tile t mlp_list).
Lemma mlp_halts : forallb tile_halts (zrange 5) = true.
Proof. vm_compute. reflexivity. Qed.

Section Example.
Context (x : lax) (c : sys_cfg) (cfg : list bitcfg) (ww : Z) (file : list (String.string * list (list f64))) (w : Z -> list (list f64)) (a : arch).
Context (SU : mlp_setup x c cfg ww file w a).
Context (act : list Z) (LA : zlen act = 784) (IA : Forall int32 act).
Notation j := (job_of a 0 act).
Let SH := su_shape _ _ _ _ _ _ _ SU.
Lemma ex_tile i : on_node c i -> j_prog j i = of_tile i mlp_list.
Proof.
  intros N. destruct (construct_ok _ _ _ _ _ (ex_sized _ _ _ _ _ _ _ SU) (su_made _ _ _ _ _ _ _ SU)) as (_ & PP & _).
  cbn [job_of j_prog]. fold (tile_at a 0 i). assert (TT : is_tile c 0 i) by (split; [pose proof (ms_nodes _ SH); lia|exact N]).
  rewrite (PP 0 i TT), (mlp_valid x (su_lax _ _ _ _ _ _ _ SU)). apply for_tile_eq; [exact SH|]. unfold on_node in N. now rewrite (ms_tiles _ SH) in N.
Qed.
Lemma ex_halt : all_halt c j.
Proof.
  intros i N. rewrite ex_tile by exact N. unfold on_node in N. rewrite (ms_tiles _ SH) in N. pose proof mlp_halts as H. rewrite forallb_forall in H.
  specialize (H i ltac:(now apply in_zrange)). apply existsb_exists in H as (o & I & E). destruct o; try discriminate E. exact I.
Qed.
Lemma ex_completes : exists t s, sreach c j t s /\ completed_run c s /\ (forall i, on_node c i -> written_once (d_history (t_dram (s_tile s i)))) /\
  firstn 10 (cells (d_mem (t_dram (s_tile s 1)))) = mlp (y_core c) cfg w act /\ forallb (fun b => b) (firstn 10 (d_valid (t_dram (s_tile s 1)))) = true.
Proof.
  pose proof (ms_memory _ SH) as SZ. destruct (holds_in_some _ _ mlp_runs) as (s' & B & D).
  destruct (ex_run _ _ _ _ _ _ _ SU act LA IA _ _ B) as (t & f & N & R & L & T). pose proof R as (s & RE & NC & EN & EF).
  exists t, s. unfold mlp_done in D. apply andb_prop in D as [D1 D2]. rewrite forallb_forall in D1. rewrite (ms_tiles _ SH) in L.
  assert (TN : forall i, 0 <= i < 5 -> exists y, tile_no mlp_geo s' i = Some y /\ In y s').
  { intros i I5. unfold tile_no. cbn [g_t mlp_geo]. replace ((0 <=? i) && (i <? 5)) with true by lia. cbn [guard].
    destruct (nth_error s' (Z.to_nat i)) as [y|] eqn:E; [|apply nth_error_None in E; unfold zlen in L; lia]. exists y. split; [reflexivity|]. now apply nth_error_In in E. }
  split; [exact RE|]. split; [|split; [|]].
  - split; [exact NC|]. intros i ON. unfold on_node in ON. rewrite (ms_tiles _ SH) in ON. destruct (TN i ON) as (y & Y & I). specialize (T i y Y). specialize (D1 y I).
    rewrite EF, (tr_prog _ _ _ _ _ _ _ _ _ _ T). destruct (st_prog y); [reflexivity|discriminate].
  - intros i ON. unfold on_node in ON. rewrite (ms_tiles _ SH) in ON. destruct (TN i ON) as (y & Y & I). specialize (T i y Y). rewrite EF.
    apply (dr_once _ _ _ _ _ _ _ _ _ _ (tr_dram _ _ _ _ _ _ _ _ _ _ T)).
  - destruct (TN 1 ltac:(lia)) as (y & Y & I). specialize (T 1 y Y). rewrite Y in D2. pose proof (tr_dram _ _ _ _ _ _ _ _ _ _ T) as DR. rewrite <- EF in DR.
    assert (SY : 0 <= y_size c) by lia. pose proof (reaches_dinv c j t f N SY R 1) as IV. rewrite <- EF in IV.
    assert (LC : zlen (cells (d_mem (t_dram (s_tile s 1)))) = y_size c) by apply IV. assert (LV : zlen (d_valid (t_dram (s_tile s 1))) = y_size c) by apply IV.
    assert (P : forall q, 0 <= q < 10 -> znth false (d_valid (t_dram (s_tile s 1))) q = true /\ znth 0 (cells (d_mem (t_dram (s_tile s 1)))) q = znth 0 (mlp (y_core c) cfg w act) q).
    { intros q Hq. rewrite forallb_forall in D2. specialize (D2 q ltac:(now apply in_zrange)). pose proof (dr_mem _ _ _ _ _ _ _ _ _ _ DR q) as M. cbn [g_l mlp_geo] in M. specialize (M ltac:(lia)).
      destruct (znth None (st_mem y) q) as [v|]; [|discriminate]. apply sv_eqb_ok in D2. subst v. destruct M as [M1 M2]. split; [exact M1|]. apply M2. apply den_result; [apply SU|exact Hq]. }
    split.
    + apply (list_ext 0).
      * rewrite firstn_length. unfold mlp at 1, dense at 1. rewrite map_length, length_zrange. unfold zlen in LC. lia.
      * intros i Hi. rewrite firstn_length in Hi. rewrite nth_firstn by lia. destruct (P (Z.of_nat i) ltac:(lia)) as [_ P2]. unfold znth in P2. now rewrite Nat2Z.id in P2.
    + apply forallb_forall. intros b Hb. apply (In_nth _ _ false) in Hb as (i & Hi & <-). rewrite firstn_length in Hi. rewrite nth_firstn by lia.
      destruct (P (Z.of_nat i) ltac:(lia)) as [P1 _]. unfold znth in P1. now rewrite Nat2Z.id in P1.
Qed.
Lemma ex_result t s : sreach c j t s ->
  s_crash s = None /\ (completed_run c s -> firstn 10 (cells (d_mem (t_dram (s_tile s 1)))) = mlp (y_core c) cfg w act).
Proof.
  intros R. pose proof (ms_memory _ SH) as SZ. destruct ex_completes as (tA & A & RA & CA & WO & E & _).
  destruct (timing_independent c c j tA A t s) as [H1 H2]; try assumption; try apply SU; try lia; try exact ex_halt; [repeat split|].
  split; [exact H1|]. intros C. destruct (H2 C 1) as (X & _); [unfold on_node; rewrite (ms_tiles _ SH); lia|]. now rewrite X.
Qed.
Lemma ex_continues t s : sreach c j t s -> exists n t' s', sworks c t s n t' s' /\ (completed_run c s' \/ missed_read c s').
Proof.
  intros R. pose proof (ms_memory _ SH) as SZ. destruct ex_completes as (tA & A & RA & CA & WO & E & _).
  apply (completes_or_misses c c j tA A t s); try assumption; try apply SU; try lia; try exact ex_halt. repeat split.
Qed.

(** ** The run that gets stuck *)
Lemma still c0 s : s_crash s = None ->
  (forall i, on_node c0 i -> d_queue (t_dram (s_tile s i)) = [] /\ d_bus (t_dram (s_tile s i)) = [] /\
     r_queue (n_router (s_net s) i) = [] /\ r_sender (n_router (s_net s) i) = SIdle /\
     (r_client (n_router (s_net s) i) = KIdle \/ exists k, r_client (n_router (s_net s) i) = KReading k /\ r_buffers (n_router (s_net s) i) k = []) /\
     (t_prog (s_tile s i) = [] \/
      (exists b d e g l id, t_prog (s_tile s i) = TSend b d e g :: l /\ t_phase (s_tile s i) = PSendRead id /\ result_of id (d_history (t_dram (s_tile s i))) = None) \/
      (exists b d e g l got k, t_prog (s_tile s i) = TRecv b d e g :: l /\ t_phase (s_tile s i) = PRecv got /\ r_client (n_router (s_net s) i) = KReading k)) /\
     forall p, In p (t_cores (s_tile s i)) -> cp_phase p = PHalted \/ exists id b, cp_phase p = PLoad id b /\ result_of id (d_history (t_dram (s_tile s i))) = None) ->
  forall t, wedged c0 t s.
Proof.
  intros NC H t t' b s' _ E. exfalso. unfold sstep, sstep_cap in E. rewrite NC in E.
  assert (KN : forall i, known_router (y_net c0) i = true -> on_node c0 i) by (unfold known_router, on_node; lia).
  destruct b as [i b|b|i k|i].
  - destruct (dram_own b) eqn:O; [|discriminate]. destruct (known_router (y_net c0) i) eqn:KR; [|discriminate]. cbn [negb orb] in E.
    destruct (H i (KN i KR)) as (Q & B & _). unfold dstep in E. destruct (d_crash _); [discriminate|].
    destruct b; try discriminate O; unfold dc_handle, dc_grant, dc_finish in E; rewrite ?Q, ?B in E; try discriminate.
    destruct (d_running _); discriminate.
  - destruct (net_own b) eqn:O; [|discriminate]. cbn [negb] in E. unfold nstep_cap in E. destruct (n_crash _); [discriminate|].
    destruct (known_router (y_net c0) (tile_of b)) eqn:KR; [|discriminate]. cbn [negb] in E.
    destruct (H _ (KN _ KR)) as (_ & _ & Q & S & K & _).
    destruct K as [K|(k & K & BU)];
    destruct b; try discriminate O; cbn [tile_of] in Q, S, K; unfold n_added, n_take, n_travel, n_store, n_count, n_done, n_pop, n_poll, n_stopped in E;
      cbv zeta in E; rewrite ?Q, ?S, ?K in E; try discriminate; try (cbn [tile_of] in BU; rewrite BU in E; discriminate); destruct (r_running _); discriminate.
  - destruct (known_router (y_net c0) i) eqn:KR; [|discriminate]. destruct (k <? 0); [discriminate|]. cbn [negb orb] in E.
    destruct (nth_error _ _) as [p|] eqn:P; [|discriminate]. apply nth_error_In in P. destruct (H i (KN i KR)) as (_ & _ & _ & _ & _ & _ & HP).
    unfold core_step_sys in E. destruct (HP p P) as [PH|(id & b & PH & RS)]; rewrite PH, ?RS in E; discriminate.
  - destruct (known_router (y_net c0) i) eqn:KR; [|discriminate]. cbn [negb] in E. destruct (H i (KN i KR)) as (_ & _ & _ & _ & _ & HT & _).
    unfold tile_step in E. destruct HT as [P|[(b & d & e & g & l & id & P & PH & RS)|(b & d & e & g & l & got & k & P & PH & K)]]; rewrite P, ?PH, ?RS, ?K in E; discriminate.
Qed.
Lemma ex_stuck : exists t s, sreach c j t s /\ wedged c t s /\ missed_read c s /\ ~ completed_run c s.
Proof.
  pose proof (ms_memory _ SH) as SZ. destruct (holds_in_some _ _ mlp_hangs) as (s' & B & D).
  destruct (ex_run _ _ _ _ _ _ _ SU act LA IA _ _ B) as (t & f & N & R & L & T). pose proof R as (s & RE & NC & EN & EF).
  exists t, s. unfold mlp_stuck in D. apply andb_prop in D as [D1 D2]. rewrite forallb_forall in D1. rewrite (ms_tiles _ SH) in L.
  assert (TN : forall i, 0 <= i < 5 -> exists y, tile_no mlp_geo s' i = Some y /\ In y s').
  { intros i I5. unfold tile_no. cbn [g_t mlp_geo]. replace ((0 <=? i) && (i <? 5)) with true by lia. cbn [guard].
    destruct (nth_error s' (Z.to_nat i)) as [y|] eqn:E; [|apply nth_error_None in E; unfold zlen in L; lia]. exists y. split; [reflexivity|]. now apply nth_error_In in E. }
  assert (SY : 0 <= y_size c) by lia.
  assert (WT : forall i y id, tile_no mlp_geo s' i = Some y -> waits y id = true -> result_of id (d_history (t_dram (s_tile s i))) = None).
  { intros i y id Y W. pose proof (tr_dram _ _ _ _ _ _ _ _ _ _ (T i y Y)) as DR. apply existsb_exists in W as (r & I & E). rewrite <- (dr_pend _ _ _ _ _ _ _ _ _ _ DR) in I.
    apply in_map_iff in I as (r0 & <- & I). cbn [erase q_id] in E. replace id with (q_id r0) by lia. rewrite EF.
    apply (queued_no_result (y_lat c) (y_size c) t); [now apply (reaches_dinv c j t f N)|]. apply in_or_app. right. apply in_or_app. now left. }
  split; [exact RE|]. split; [|split].
  - apply still; [exact NC|]. intros i ON. unfold on_node in ON. rewrite (ms_tiles _ SH) in ON. destruct (TN i ON) as (y & Y & I). pose proof (T i y Y) as TR. specialize (D1 y I).
    unfold tile_stuck in D1. apply andb_prop in D1 as [D1 D3]. apply andb_prop in D1 as [D0 D1].
    pose proof (tr_dram _ _ _ _ _ _ _ _ _ _ TR) as DR. pose proof (tr_router _ _ _ _ _ _ _ _ _ _ TR) as RR. rewrite <- EF in DR. rewrite EN in *.
    pose proof (tr_prog _ _ _ _ _ _ _ _ _ _ TR) as TP. pose proof (tr_phase _ _ _ _ _ _ _ _ _ _ TR) as PH. rewrite <- EF in TP, PH.
    split. { pose proof (dr_queue _ _ _ _ _ _ _ _ _ _ DR) as Q. destruct (st_queue y); [|discriminate D0]. now apply map_eq_nil in Q. }
    split; [apply DR|]. split; [apply RR|]. split; [apply RR|].
    pose proof (rr_client _ _ _ RR) as CL. split; [|split].
    + destruct (st_cl y) as [k|]; [right; exists k; split; [exact CL|apply RR]|now left].
    + rewrite TP. destruct (st_prog y) as [|[b d e g|b d e g|] l] eqn:SP; [now left| | |destruct (st_ph y); discriminate D3].
      * right. left. destruct (st_ph y) as [|id| |]; try discriminate D3. destruct (t_phase (s_tile s i)) eqn:TPH; try destruct PH. subst.
        exists b, d, e, g, l. eexists. repeat split. now apply (WT i y).
      * right. right. destruct (st_ph y) as [| | |got]; try discriminate D3. destruct (st_cl y) as [k|]; [|discriminate D3].
        destruct (t_phase (s_tile s i)) as [| | |got'| |] eqn:TPH; try exact (False_ind _ PH). exists b, d, e, g, l, got', k; repeat split; exact CL.
    + intros p Hp. apply In_nth_error in Hp as (k & Hp). pose proof (tr_len _ _ _ _ _ _ _ _ _ _ TR) as LE. rewrite <- EF in LE.
      assert (KL : (k < length (st_cores y))%nat) by (rewrite <- LE; apply nth_error_Some; congruence).
      destruct (nth_error (st_cores y) k) as [sc|] eqn:SC; [|apply nth_error_None in SC; lia].
      destruct (tr_core _ _ _ _ _ _ _ _ _ _ TR (Z.of_nat k) sc) as (p' & P' & PR).
      { unfold core_of. replace (0 <=? Z.of_nat k) with true by lia. cbn [guard]. now rewrite Nat2Z.id. }
      rewrite <- EF, Nat2Z.id, Hp in P'. injection P' as <-. rewrite (pr_phase _ _ _ _ _ _ _ _ _ _ PR).
      rewrite forallb_forall in D1. apply nth_error_In in SC. specialize (D1 sc SC). destruct (sc_ph sc) as [|id b|]; [discriminate D1| |now left].
      right. exists id, b. split; [reflexivity|]. now apply (WT i y).
  - destruct (TN 3 ltac:(lia)) as (y & Y & I). rewrite Y in D2. pose proof (tr_dram _ _ _ _ _ _ _ _ _ _ (T 3 y Y)) as DR. rewrite <- EF in DR.
    apply andb_prop in D2 as [D2 _]. apply existsb_exists in D2 as (r & IR & D2). apply andb_prop in D2 as [D2 RD]. apply andb_prop in D2 as [IS IN].
    apply (inside_ok (e_in act) (e_u (y_core c) cfg w act) mlp_geo) in IN as (I1 & I2 & I3). rewrite <- (dr_pend _ _ _ _ _ _ _ _ _ _ DR) in IR. apply in_map_iff in IR as (r0 & <- & IR).
    rewrite erase_length in *. cbn [erase q_start] in *. cbn [g_l mlp_geo] in I3. exists 3, r0.
    split; [unfold on_node; rewrite (ms_tiles _ SH); lia|]. split; [exact IR|]. split; [unfold proper; lia|].
    intros b CV. unfold covers in CV. unfold sready in RD. rewrite erase_length in RD. cbn [erase q_start] in RD.
    pose proof (dr_len _ _ _ _ _ _ _ _ _ _ DR) as LM. cbn [g_l mlp_geo] in LM.
    rewrite (forallb_block None) in RD by (rewrite ?LM; lia). specialize (RD b ltac:(lia)).
    pose proof (dr_mem _ _ _ _ _ _ _ _ _ _ DR b) as M. cbn [g_l mlp_geo] in M. specialize (M ltac:(lia)). destruct (znth None (st_mem y) b); [apply M|discriminate RD].
  - intros [_ C]. destruct (TN 3 ltac:(lia)) as (y & Y & I). rewrite Y in D2. apply andb_prop in D2 as [_ D2]. specialize (C 3 ltac:(unfold on_node; rewrite (ms_tiles _ SH); lia)).
    rewrite EF, (tr_prog _ _ _ _ _ _ _ _ _ _ (T 3 y Y)) in C. rewrite C in D2. discriminate D2.
Qed.
End Example.

(** ** For activations *)
Lemma mlp_loads x c file : reasonable x -> mlp_shape c -> zlen (valid_ops x mlp_ops) = zlen mlp_ops /\ exists a, construct x c mlp_ops file = Ok a.
Proof.
  intros R SH. rewrite (mlp_valid x R). split; [vm_compute; reflexivity|]. apply construct_iff; [now apply shape_sized|]. rewrite (mlp_valid x R). now apply shape_placed.
Qed.
Lemma mlp_result x c cfg ww file w a frac v t s : mlp_setup x c cfg ww file w a -> vlen v = 784 ->
  sreach c (job_of a 0 (fixed_activation frac v)) t s ->
  s_crash s = None /\ (completed_run c s -> firstn 10 (cells (d_mem (t_dram (s_tile s 1)))) = mlp (y_core c) cfg w (fixed_activation frac v)).
Proof. intros SU L R. rewrite <- (zlen_fixed frac) in L. exact (ex_result x c cfg ww file w a SU _ L (fixed_int32 _ _) t s R). Qed.
Lemma mlp_completes x c cfg ww file w a frac v : mlp_setup x c cfg ww file w a -> vlen v = 784 ->
  exists t s, sreach c (job_of a 0 (fixed_activation frac v)) t s /\ completed_run c s.
Proof.
  intros SU L. rewrite <- (zlen_fixed frac) in L. destruct (ex_completes x c cfg ww file w a SU _ L (fixed_int32 _ _)) as (t & s & R & C & _). eauto.
Qed.
Lemma mlp_continues x c cfg ww file w a frac v t s : mlp_setup x c cfg ww file w a -> vlen v = 784 ->
  sreach c (job_of a 0 (fixed_activation frac v)) t s -> exists n t' s', sworks c t s n t' s' /\ (completed_run c s' \/ missed_read c s').
Proof. intros SU L R. rewrite <- (zlen_fixed frac) in L. exact (ex_continues x c cfg ww file w a SU _ L (fixed_int32 _ _) t s R). Qed.
Lemma mlp_wedges x c cfg ww file w a frac v : mlp_setup x c cfg ww file w a -> vlen v = 784 ->
  exists t s, sreach c (job_of a 0 (fixed_activation frac v)) t s /\ wedged c t s /\ missed_read c s /\ ~ completed_run c s.
Proof. intros SU L. rewrite <- (zlen_fixed frac) in L. exact (ex_stuck x c cfg ww file w a SU _ L (fixed_int32 _ _)). Qed.
