(** The symbolic machine and the memory controllers. *)
From Verif Require Import PyBase PyLemmas MemoryModel VfuModel CoreModel DramModel DramSpec DramProofs RouterModel SystemModel SystemSpec SystemInv SymMachine SymCore.
From Coq Require Import ZifyBool ZifyNat Permutation.
Open Scope Z_scope.

Definition erase (r : req) : req := MkReq (q_id r) (q_core r) (q_start r) 0 (q_kind r).
Lemma erase_length r : q_length (erase r) = q_length r. Proof. reflexivity. Qed.
Lemma erase_batches r : q_batches (erase r) = q_batches r. Proof. reflexivity. Qed.
Lemma erase_read r : is_read (erase r) = is_read r. Proof. reflexivity. Qed.

Lemma skip_release_map {A B} (h : A -> B) (f : A -> bool) (f' : B -> bool) l : (forall x, In x l -> f' (h x) = f x) ->
  skip_release f' (map h l) = (map h (fst (skip_release f l)), map h (snd (skip_release f l))).
Proof.
  assert (S : forall n l, (length l <= n)%nat -> (forall x, In x l -> f' (h x) = f x) ->
    skip_release f' (map h l) = (map h (fst (skip_release f l)), map h (snd (skip_release f l)))).
  2:{ intros H. apply (S (length l)); auto. }
  clear l. induction n as [|n IH]; intros [|x l] L H; try reflexivity; cbn [length] in L; [lia|].
  cbn [map skip_release]. rewrite (H x) by now left. destruct (f x).
  - destruct l as [|y l]; [reflexivity|]. cbn [map length] in *. rewrite (IH l) by (try lia; intros; apply H; right; now right).
    destruct (skip_release f l). reflexivity.
  - rewrite (IH l) by (try lia; intros; apply H; now right). destruct (skip_release f l). reflexivity.
Qed.

Lemma result_of_app id h e : result_of id h = None -> result_of id (h ++ [e]) = result_of id [e].
Proof.
  induction h as [|x h IH]; [reflexivity|]. cbn [app result_of]. destruct x as [vals|r g f data]; [apply IH|].
  destruct (q_id r =? id); [discriminate|apply IH].
Qed.
Lemma result_of_keeps id h e x : result_of id h = Some x -> result_of id (h ++ e) = Some x.
Proof.
  induction h as [|y h IH]; [discriminate|]. cbn [app result_of]. destruct y as [vals|r g f data]; [apply IH|].
  destruct (q_id r =? id); [auto|apply IH].
Qed.

(** A store to cells never stored to before. *)
Lemma written_once_app h e : written_once h -> (forall a, stores e a -> forall x, In x h -> ~ stores x a) -> written_once (h ++ [e]).
Proof.
  intros W N h1 e1 h2 e2 h3 a E S1 S2.
  replace (h1 ++ e1 :: h2 ++ e2 :: h3) with ((h1 ++ e1 :: h2) ++ e2 :: h3) in E by (now rewrite <- app_assoc).
  destruct (snoc_split _ _ _ _ _ E) as [(h3' & -> & E')|(-> & -> & E')].
  - rewrite <- app_assoc in E'. cbn [app] in E'. exact (W h1 e1 h2 e2 h3' a E' S1 S2).
  - apply (N a S2 e1); [|exact S1]. rewrite <- E'. apply in_or_app. right. now left.
Qed.

Section Memory.
Context (v : vfu_cfg) (e_in : Z -> Z) (e_u : Z -> Z -> Z -> Z -> Z) (g : geo).
Context (lat size : Z) (Hlat : 0 <= lat) (HS : g_l g <= size) (HL : 0 <= g_l g).
Notation shows := (shows v e_in e_u).
Notation is := (is v e_in e_u).

Record drel (mem : list (option sv)) (q p : list req) (cnt : Z) (run : bool) (d : dram) : Prop := {
  dr_crash : d_crash d = None;
  dr_run : d_running d = run;
  dr_queue : map erase (d_queue d) = q;
  dr_pend : map erase (d_pending d) = p;
  dr_bus : d_bus d = [];
  dr_granted : d_granted d = None;
  dr_cnt : zlen (d_submitted d) = cnt;
  dr_len : zlen mem = g_l g;
  dr_mem : forall a, 0 <= a < g_l g ->
    match znth None mem a with
    | Some x => znth false (d_valid d) a = true /\ shows x (znth 0 (cells (d_mem d)) a)
    | None => znth false (d_valid d) a = false
    end;
  dr_once : written_once (d_history d) }.

Lemma inside_ok a l : inside g a l = true -> 0 <= a /\ 0 < l /\ a + l <= g_l g.
Proof. unfold inside. lia. Qed.

Lemma forallb_block {A} (d : A) (f : A -> bool) l s n : 0 <= s -> 0 <= n -> s + n <= zlen l ->
  (forallb f (block l s n) = true <-> forall a, s <= a < s + n -> f (znth d l a) = true).
Proof.
  clear. intros H1 H2 H3. rewrite (block_map_zrange d) by assumption. rewrite forallb_forall. split.
  - intros H a Ha. apply H. apply in_map_iff. exists (a - s). split; [f_equal; lia|]. apply in_zrange. lia.
  - intros H x Hx. apply in_map_iff in Hx as (i & <- & Hi). apply in_zrange in Hi. apply H. lia.
Qed.

Lemma sready_eq mem q p cnt run d r t : dinv lat size t d -> drel mem q p cnt run d -> inside g (q_start r) (q_length r) = true ->
  sready mem (erase r) = ready (d_valid d) r.
Proof.
  intros I D H. apply inside_ok in H as (H1 & H2 & H3). apply Bool.eq_iff_eq_true. rewrite ready_spec, (i_valid _ _ _ _ I).
  unfold sready. rewrite (forallb_block None) by (rewrite ?(dr_len _ _ _ _ _ _ D), ?erase_length; cbn [erase q_start]; lia).
  rewrite !slice_exact by lia. rewrite erase_length. cbn [erase q_start]. split; intros V a A.
  - specialize (V a A). pose proof (dr_mem _ _ _ _ _ _ D a ltac:(lia)) as M. destruct (znth None mem a); [apply M|discriminate].
  - specialize (V a A). pose proof (dr_mem _ _ _ _ _ _ D a ltac:(lia)) as M. destruct (znth None mem a); [reflexivity|congruence].
Qed.

Lemma queued_no_result t d r : dinv lat size t d -> In r (d_queue d ++ d_pending d ++ d_bus d) -> result_of (q_id r) (d_history d) = None.
Proof.
  intros I H. destruct (result_of (q_id r) (d_history d)) eqn:E; [|reflexivity]. exfalso.
  destruct (result_of_completed _ _ _ E) as (r' & I' & E'). pose proof (inv_places_nodup _ _ _ _ I) as N.
  rewrite !app_assoc in N. rewrite map_app in N. revert N. rewrite <- app_assoc. intros N.
  assert (X : forall (a b : list Z) x, NoDup (a ++ b) -> In x a -> In x b -> False).
  { clear. induction a as [|y a IH]; intros b x N A B; [destruct A|]. inversion N as [|? ? N1 N2]; subst. destruct A as [->|A].
    - apply N1, in_or_app. now right.
    - eauto. }
  apply (X _ _ (q_id r) N); [now apply in_map|]. rewrite <- E'. now apply in_map.
Qed.

(** A submission. *)
Lemma drel_submit mem q p cnt d now k a kd : drel mem q p cnt true d ->
  exists d', dc_submit now k a kd d = (Ok (MkReq cnt k a now kd), d') /\
    drel mem (q ++ [MkReq cnt k a 0 kd]) p (cnt + 1) true d' /\ d_history d' = d_history d.
Proof.
  intros D. unfold dc_submit. rewrite (dr_run _ _ _ _ _ _ D), (dr_cnt _ _ _ _ _ _ D). cbn [negb].
  eexists. split; [reflexivity|]. split; [|reflexivity].
  constructor; cbn [d_crash d_running d_queue d_pending d_bus d_granted d_submitted d_valid d_mem d_history]; try apply D; try reflexivity.
  - rewrite map_app, (dr_queue _ _ _ _ _ _ D). reflexivity.
  - unfold zlen. rewrite app_length. cbn. rewrite <- (dr_cnt _ _ _ _ _ _ D). unfold zlen. lia.
Qed.

(** A waiting read. *)
Lemma drel_wait mem r q p cnt d t : dinv lat size t d -> drel mem (r :: q) p cnt true d -> inside g (q_start r) (q_length r) = true ->
  is_read r = true -> sready mem r = false ->
  exists d', dinternal lat t d 1 t d' /\ drel mem q (p ++ [r]) cnt true d' /\ d_history d' = d_history d.
Proof.
  intros I D H R S. destruct (d_queue d) as [|r0 q0] eqn:Q; [pose proof (dr_queue _ _ _ _ _ _ D) as X; rewrite Q in X; discriminate|].
  pose proof (dr_queue _ _ _ _ _ _ D) as X. rewrite Q in X. injection X as X1 X2.
  assert (H0 : inside g (q_start r0) (q_length r0) = true) by (rewrite <- X1 in H; exact H).
  pose proof (sready_eq _ _ _ _ _ _ r0 t I D H0) as SR. rewrite X1, S in SR.
  eexists. split; [eapply (int_step _ _ _ 0 t _ t _ AHandle); [apply int_refl|lia|exact Logic.I|]|split].
  - unfold dstep. rewrite (dr_crash _ _ _ _ _ _ D). unfold dc_handle. rewrite (dr_run _ _ _ _ _ _ D), Q. cbn [negb].
    rewrite <- SR. replace (is_read r0) with true by (rewrite <- R, <- X1; reflexivity). cbn [andb negb]. reflexivity.
  - constructor; cbn [d_crash d_running d_queue d_pending d_bus d_granted d_submitted d_valid d_mem d_history]; try apply D; try reflexivity; [exact X2|].
    rewrite map_app, (dr_pend _ _ _ _ _ _ D). cbn [map]. now rewrite X1.
  - reflexivity.
Qed.

(** A read of valid cells. *)
Lemma drel_read mem r q p cnt d t : dinv lat size t d -> drel mem (r :: q) p cnt true d -> inside g (q_start r) (q_length r) = true ->
  is_read r = true -> 0 <= q_batches r -> sready mem r = true ->
  exists t' d' data, dinternal lat t d 3 t' d' /\ drel mem q p cnt true d' /\
    (exists h, d_history d' = d_history d ++ h) /\
    result_of (q_id r) (d_history d') = Some data /\
    Forall2 is (contents (block mem (q_start r) (q_length r))) data.
Proof.
  intros I D H R B S. destruct (d_queue d) as [|r0 q0] eqn:Q; [pose proof (dr_queue _ _ _ _ _ _ D) as X; rewrite Q in X; discriminate|].
  pose proof (dr_queue _ _ _ _ _ _ D) as X. rewrite Q in X. injection X as X1 X2.
  assert (H0 : inside g (q_start r0) (q_length r0) = true) by (rewrite <- X1 in H; exact H).
  pose proof (sready_eq _ _ _ _ _ _ r0 t I D H0) as SR. rewrite X1, S in SR.
  pose proof (inside_ok _ _ H0) as (P1 & P2 & P3).
  assert (B0 : 0 <= q_batches r0) by (rewrite <- X1 in B; exact B).
  assert (LB : 0 <= lat * q_batches r0) by nia.
  assert (R0 : is_read r0 = true) by (rewrite <- R, <- X1; reflexivity).
  destruct (q_kind r0) as [w n|rows] eqn:K; [|unfold is_read in R0; rewrite K in R0; discriminate].
  exists (t + lat * q_batches r0). eexists. exists (block (cells (d_mem d)) (q_start r0) (q_length r0)).
  split; [eapply (int_step _ _ _ 2 t _ _ _ AFinish); [eapply (int_step _ _ _ 1 t _ t _ AGrant); [eapply (int_step _ _ _ 0 t _ t _ AHandle);
    [apply int_refl|lia|exact Logic.I|]|lia|exact Logic.I|]|lia|exact Logic.I|]|split; [|split; [|split]]].
  - unfold dstep. rewrite (dr_crash _ _ _ _ _ _ D). unfold dc_handle. rewrite (dr_run _ _ _ _ _ _ D), Q. cbn [negb].
    rewrite <- SR, R0. cbn [andb negb]. reflexivity.
  - unfold dstep. cbn [d_crash]. rewrite (dr_crash _ _ _ _ _ _ D). unfold dc_grant. cbn [d_bus d_granted].
    rewrite (dr_bus _ _ _ _ _ _ D), (dr_granted _ _ _ _ _ _ D). cbn [app]. replace (lat * q_batches r0 <? 0) with false by lia. reflexivity.
  - unfold dstep. cbn [d_crash]. unfold dc_finish. cbn [d_bus d_granted].
    replace (t + lat * q_batches r0 <? t + lat * q_batches r0) with false by lia. rewrite K. unfold mem_read. cbn [d_mem].
    rewrite (i_size _ _ _ _ I). replace ((q_start r0 <? 0) || (size <? q_start r0 + q_length r0)) with false by lia.
    replace (q_length r0 <=? 0) with false by lia. reflexivity.
  - constructor; cbn [d_crash d_running d_queue d_pending d_bus d_granted d_submitted d_valid d_mem d_history cells]; try apply D; try reflexivity.
    + exact X2.
    + apply written_once_app; [apply D|]. intros a [A _]. rewrite R0 in A. discriminate.
  - cbn [d_history]. eauto.
  - cbn [d_history]. rewrite result_of_app.
    + cbn [result_of]. rewrite <- X1. cbn [erase q_id]. now rewrite Z.eqb_refl.
    + rewrite <- X1. apply (queued_no_result t d r0 I). rewrite Q. now left.
  - rewrite <- X1, erase_length. cbn [erase q_start]. apply (forall2_znth VX 0). unfold contents. rewrite zlen_map.
    rewrite !zlen_block by (rewrite ?(dr_len _ _ _ _ _ _ D), ?(i_cells _ _ _ _ I); lia). split; [reflexivity|].
    intros i Hi. rewrite (znth_map _ None) by (rewrite zlen_block; rewrite ?(dr_len _ _ _ _ _ _ D); lia). rewrite !znth_block by lia.
    pose proof (dr_mem _ _ _ _ _ _ D (q_start r0 + i) ltac:(lia)) as M.
    pose proof (i_mem _ _ _ _ I (q_start r0 + i) ltac:(lia)) as M'. split.
    + destruct (last_written _ _); destruct M' as [-> _]; [apply wrap32_int32|unfold int32; lia].
    + destruct (znth None mem (q_start r0 + i)); [apply M|]. intros y. discriminate.
Qed.

Lemma not_stored t d a : dinv lat size t d -> 0 <= a < size -> znth false (d_valid d) a = false -> forall e, In e (d_history d) -> ~ stores e a.
Proof.
  intros I A V e He. pose proof (i_mem _ _ _ _ I a A) as M. destruct (last_written (rev (d_history d)) a) eqn:E; [destruct M; congruence|].
  apply (no_store_last_written _ _ E). now apply in_rev in He.
Qed.

(** A write to cells that are not valid, with all that it releases. *)
Lemma drel_write mem p cnt d t id k a rows vs : dinv lat size t d -> drel mem [MkReq id k a 0 (RWrite rows)] p cnt true d ->
  Forall2 is vs (concat rows) -> inside g a (zlen vs) = true ->
  forallb (fun x => negb (is_some x)) (block mem a (zlen vs)) = true ->
  forallb (fun r => inside g (q_start r) (q_length r)) p = true ->
  let mem' := blit mem a (map Some vs) in
  exists t' d', dinternal lat t d 3 t' d' /\
    drel mem' (snd (skip_release (sready mem') p)) (fst (skip_release (sready mem') p)) cnt true d' /\
    (exists h, d_history d' = d_history d ++ h) /\
    result_of id (d_history d') = Some [].
Proof.
  intros I D FV HI HN HP mem'. destruct (d_queue d) as [|r0 q0] eqn:Q; [pose proof (dr_queue _ _ _ _ _ _ D) as X; rewrite Q in X; discriminate|].
  pose proof (dr_queue _ _ _ _ _ _ D) as X. rewrite Q in X. injection X as X1 X2 X3 X4 X5.
  apply map_eq_nil in X5. subst q0.
  pose proof (inside_ok _ _ HI) as (P1 & P2 & P3).
  apply (forall2_znth VX 0) in FV as [LV FV].
  assert (QL : q_length r0 = zlen vs) by (unfold q_length; rewrite X4; lia).
  assert (LB : 0 <= lat * q_batches r0) by (unfold q_batches; rewrite X4; pose proof (zlen_nonneg rows); nia).
  assert (R0 : is_read r0 = false) by (unfold is_read; now rewrite X4).
  assert (NV : forall b, a <= b < a + zlen vs -> znth false (d_valid d) b = false).
  { intros b Hb. rewrite (forallb_block None) in HN by (rewrite ?(dr_len _ _ _ _ _ _ D); lia). specialize (HN b Hb).
    pose proof (dr_mem _ _ _ _ _ _ D b ltac:(lia)) as M. destruct (znth None mem b); [discriminate|exact M]. }
  set (valid' := set_valid (d_valid d) a (a + q_length r0)).
  assert (VV : forall b, 0 <= b < size -> znth false valid' b = if (a <=? b) && (b <? a + zlen vs) then true else znth false (d_valid d) b).
  { intros b Hb. unfold valid'. rewrite znth_set_valid by (rewrite (i_valid _ _ _ _ I); lia). rewrite (i_valid _ _ _ _ I), !slice_exact by lia.
    now rewrite QL. }
  assert (LM : zlen (map Some vs) = zlen vs) by apply zlen_map.
  assert (LM' : zlen mem' = g_l g) by (unfold mem'; rewrite zlen_blit; [apply D|lia|rewrite LM, (dr_len _ _ _ _ _ _ D); lia]).
  assert (MV : forall b, 0 <= b < g_l g -> znth None mem' b = if (a <=? b) && (b <? a + zlen vs) then Some (znth VX vs (b - a)) else znth None mem b).
  { intros b Hb. unfold mem'. rewrite (znth_blit None) by (rewrite ?LM, ?(dr_len _ _ _ _ _ _ D); lia). rewrite LM.
    destruct ((a <=? b) && (b <? a + zlen vs)) eqn:E; [|reflexivity]. now rewrite (znth_map _ VX) by lia. }
  assert (SR : forall r, In r (d_pending d) -> sready mem' (erase r) = ready valid' r).
  { intros r Hr. assert (HR : inside g (q_start r) (q_length r) = true).
    { rewrite forallb_forall in HP. apply (HP (erase r)). rewrite <- (dr_pend _ _ _ _ _ _ D). now apply in_map. }
    apply inside_ok in HR as (H1 & H2 & H3). apply Bool.eq_iff_eq_true. unfold valid' at 1. rewrite ready_spec, zlen_set_valid, (i_valid _ _ _ _ I).
    fold valid'. unfold sready. rewrite (forallb_block None) by (rewrite ?LM', ?erase_length; cbn [erase q_start]; lia).
    rewrite !slice_exact by lia. rewrite erase_length. cbn [erase q_start].
    split; intros V b Hb; specialize (V b Hb); rewrite VV, MV in * by lia || rewrite MV, VV in * by lia.
    - destruct ((a <=? b) && (b <? a + zlen vs)); [reflexivity|]. pose proof (dr_mem _ _ _ _ _ _ D b ltac:(lia)) as M.
      destruct (znth None mem b); [apply M|discriminate].
    - destruct ((a <=? b) && (b <? a + zlen vs)); [reflexivity|]. pose proof (dr_mem _ _ _ _ _ _ D b ltac:(lia)) as M.
      destruct (znth None mem b); [reflexivity|congruence]. }
  pose proof (skip_release_map erase (ready valid') (sready mem') (d_pending d) SR) as SK. rewrite (dr_pend _ _ _ _ _ _ D) in SK.
  exists (t + lat * q_batches r0). eexists.
  split; [eapply (int_step _ _ _ 2 t _ _ _ AFinish); [eapply (int_step _ _ _ 1 t _ t _ AGrant); [eapply (int_step _ _ _ 0 t _ t _ AHandle);
    [apply int_refl|lia|exact Logic.I|]|lia|exact Logic.I|]|lia|exact Logic.I|]|split; [|split]].
  - unfold dstep. rewrite (dr_crash _ _ _ _ _ _ D). unfold dc_handle. rewrite (dr_run _ _ _ _ _ _ D), Q. cbn [negb].
    rewrite R0. cbn [andb negb]. reflexivity.
  - unfold dstep. cbn [d_crash]. rewrite (dr_crash _ _ _ _ _ _ D). unfold dc_grant. cbn [d_bus d_granted].
    rewrite (dr_bus _ _ _ _ _ _ D), (dr_granted _ _ _ _ _ _ D). cbn [app]. replace (lat * q_batches r0 <? 0) with false by lia. reflexivity.
  - unfold dstep. cbn [d_crash]. unfold dc_finish. cbn [d_bus d_granted].
    replace (t + lat * q_batches r0 <? t + lat * q_batches r0) with false by lia. rewrite X4. unfold mem_write. cbn [d_mem d_valid d_pending d_queue].
    rewrite (i_size _ _ _ _ I), X3. replace ((a <? 0) || (size <? a + zlen (concat rows))) with false by lia.
    rewrite update_ready_skip by exact (inv_pending_nodup _ _ _ _ I). cbn [app]. fold valid'. reflexivity.
  - constructor; cbn [d_crash d_running d_queue d_pending d_bus d_granted d_submitted d_valid d_mem d_history cells]; try apply D; try reflexivity.
    + fold valid'. now rewrite SK.
    + fold valid'. now rewrite SK.
    + exact LM'.
    + intros b Hb. fold valid'. rewrite MV, VV by lia. rewrite (znth_blit 0) by (rewrite ?zlen_map, ?(i_cells _ _ _ _ I); lia). rewrite zlen_map, <- LV.
      destruct ((a <=? b) && (b <? a + zlen vs)) eqn:E; [|apply (dr_mem _ _ _ _ _ _ D b Hb)].
      split; [reflexivity|]. rewrite (znth_map _ 0) by lia. destruct (FV (b - a) ltac:(lia)) as [F1 F2]. rewrite (wrap32_id _ F1). exact F2.
    + apply written_once_app; [apply D|]. intros b [_ C]. unfold covers in C. rewrite QL, X3 in C.
      exact (not_stored t d b I ltac:(lia) (NV b ltac:(lia))).
  - cbn [d_history]. eauto.
  - cbn [d_history]. rewrite result_of_app.
    + cbn [result_of]. rewrite X1, Z.eqb_refl. reflexivity.
    + rewrite <- X1. apply (queued_no_result t d r0 I). rewrite Q. now left.
Qed.

(** stop. *)
Lemma drel_stop mem q p cnt run d now : drel mem q p cnt run d -> drel mem q p cnt false (dc_stop now d).
Proof.
  intros D. unfold dc_stop. destruct (negb (d_running d)) eqn:E.
  - constructor; try apply D. destruct (d_running d); [discriminate|reflexivity].
  - constructor; cbn [d_crash d_running d_queue d_pending d_bus d_granted d_submitted d_valid d_mem d_history cells]; try apply D; reflexivity.
Qed.
End Memory.
