(** Progress of the memory controller: release of waiting reads, termination. *)
From Verif Require Import PyBase PyLemmas MemoryModel MemorySpec MemoryProofs DramModel DramSpec DramProofs.
From Coq Require Import ZifyBool ZifyNat Permutation.
Open Scope Z_scope.

Ltac proj := cbn [d_mem d_valid d_running d_queue d_pending d_bus d_granted d_stat d_start_time d_crash d_submitted d_history d_waited d_failed msize cells snd].

Lemma dreach_cont ok lat size t d t' d' : dreach lat size t d -> dcont ok lat t d t' d' -> dreach lat size t' d'.
Proof. intros R C. induction C; [assumption|]. eapply reach_step; [apply IHC; assumption|eassumption|eassumption]. Qed.

(** What a step does to the waiting reads, the queue and the bus. *)
Lemma step_pending lat size t t' a d d' : 0 <= size -> dreach lat size t d -> dstep lat t' a d = Some d' ->
  (exists extra, d_pending d' = d_pending d ++ extra /\ Forall (fun r => ready (d_valid d) r = false) extra /\
     d_crash d = None /\ writes_done (d_history d') = writes_done (d_history d)) \/
  (a = AFinish /\ (exists w rest, d_bus d = w :: rest /\ is_read w = false) /\
   d_pending d' = fst (skip_release (ready (d_valid d')) (d_pending d)) /\
   d_queue d' = d_queue d ++ snd (skip_release (ready (d_valid d')) (d_pending d)) /\
   writes_done (d_history d') = writes_done (d_history d) + 1).
Proof.
  intros S R H. pose proof (dreach_inv lat size t d S R) as I. unfold dstep in H. destruct (d_crash d); [discriminate|].
  assert (SAME : forall x, d_pending x = d_pending d -> writes_done (d_history x) = writes_done (d_history d) -> Some x = Some d' ->
    exists extra, d_pending d' = d_pending d ++ extra /\ Forall (fun r => ready (d_valid d) r = false) extra /\
     None = @None exn /\ writes_done (d_history d') = writes_done (d_history d)).
  { intros x P W [= <-]. exists []. rewrite app_nil_r. auto. }
  destruct a.
  - left. unfold dc_preload in H. destruct (_ <? _); [discriminate|]. eapply SAME; [| |exact H]; proj; [reflexivity|].
    unfold writes_done. rewrite completed_app. cbn. now rewrite app_nil_r.
  - left. unfold dc_submit in H. destruct (negb _); eapply SAME; try exact H; reflexivity.
  - left. unfold dc_handle in H. destruct (negb _); [discriminate|]. destruct (d_queue d) as [|r rest]; [discriminate|].
    destruct (is_read r && negb (ready (d_valid d) r)) eqn:E.
    + injection H as <-. proj. exists [r]. repeat split; auto. constructor; [|constructor].
      destruct (is_read r), (ready (d_valid d) r); auto; discriminate.
    + eapply SAME; [| |exact H]; reflexivity.
  - left. unfold dc_grant in H. destruct (d_bus d); [discriminate|]. destruct (d_granted d); [discriminate|].
    destruct (_ <? 0); eapply SAME; try exact H; reflexivity.
  - unfold dc_finish in H. destruct (d_bus d) as [|r rest]; [discriminate|]. destruct (d_granted d) as [g|]; [|discriminate].
    destruct (t' <? _); [discriminate|]. destruct (q_kind r) as [bs nb|rows] eqn:K.
    + left. destruct (mem_read _ _ _ _) as [[data|e] m]; (eapply SAME; [| |exact H]); try reflexivity.
      proj. unfold writes_done. rewrite completed_app. cbn. rewrite filter_app. cbn. unfold is_read. rewrite K. cbn. now rewrite app_nil_r.
    + destruct (mem_write _ _ _ _) as [[[]|e] m]; [|left; eapply SAME; [| |exact H]; reflexivity].
      rewrite update_ready_skip in H by exact (inv_pending_nodup _ _ _ _ I). injection H as <-. right. proj.
      split; [reflexivity|]. split; [exists r, rest; split; [reflexivity|unfold is_read; now rewrite K]|]. repeat split.
      unfold writes_done. rewrite completed_app. cbn. rewrite filter_app. cbn. unfold is_read. rewrite K. cbn. rewrite zlen_app. reflexivity.
  - left. unfold dc_stop in H. destruct (negb _); eapply SAME; try exact H; reflexivity.
Qed.

(** Readiness is never lost. *)
Lemma step_ready lat t' a d d' r : dstep lat t' a d = Some d' -> ready (d_valid d) r = true -> ready (d_valid d') r = true.
Proof.
  intros H V. unfold dstep in H. destruct (d_crash d); [discriminate|]. destruct a.
  - unfold dc_preload in H. destruct (_ <? _); [discriminate|]. injection H as <-. now apply ready_mono.
  - unfold dc_submit in H. destruct (negb _); injection H as <-; assumption.
  - unfold dc_handle in H. destruct (negb _); [discriminate|]. destruct (d_queue d); [discriminate|].
    destruct (_ && _); injection H as <-; assumption.
  - unfold dc_grant in H. destruct (d_bus d); [discriminate|]. destruct (d_granted d); [discriminate|].
    destruct (_ <? 0); injection H as <-; assumption.
  - unfold dc_finish in H. destruct (d_bus d) as [|r0 rest]; [discriminate|]. destruct (d_granted d); [|discriminate].
    destruct (t' <? _); [discriminate|]. destruct (q_kind r0).
    + destruct (mem_read _ _ _ _) as [[|] m]; injection H as <-; assumption.
    + destruct (mem_write _ _ _ _) as [[|] m]; [|injection H as <-; assumption].
      destruct (update_ready _ _ _). injection H as <-. now apply ready_mono.
  - unfold dc_stop in H. destruct (negb _); injection H as <-; assumption.
Qed.

(** A ready element at position |l1| is released, or moves forward. *)
Lemma skip_position {A} (f : A -> bool) : forall l1 r l2, f r = true ->
  In r (snd (skip_release f (l1 ++ r :: l2))) /\ (exists k, fst (skip_release f (l1 ++ r :: l2)) = k /\
      forall NDk : NoDup (l1 ++ r :: l2), ~ In r k) \/
  exists l1' l2', fst (skip_release f (l1 ++ r :: l2)) = l1' ++ r :: l2' /\ (length l1' < length l1)%nat.
Proof.
  intros l1 r l2 F. pose proof (skip_perm f (l1 ++ r :: l2)) as P.
  assert (GEN : forall n l1, (length l1 <= n)%nat ->
    In r (snd (skip_release f (l1 ++ r :: l2))) \/
    exists l1' l2', fst (skip_release f (l1 ++ r :: l2)) = l1' ++ r :: l2' /\ (length l1' < length l1)%nat).
  { induction n as [|n IH]; intros [|x l] L; cbn [length] in L.
    - left. cbn [app]. destruct (skip_first f [] r l2 eq_refl F) as [k E]. cbn [app] in E. rewrite E. now left.
    - lia.
    - left. cbn [app]. destruct (skip_first f [] r l2 eq_refl F) as [k E]. cbn [app] in E. rewrite E. now left.
    - cbn [app]. destruct (f x) eqn:X.
      + destruct l as [|y l]; cbn [app].
        * right. rewrite skip_true by assumption. exists [], (fst (skip_release f l2)). cbn. auto.
        * rewrite skip_true by assumption. cbn [fst snd]. destruct (IH l) as [H|(a & b & E & H)]; [cbn in L; lia| |].
          -- left. now right.
          -- right. exists (y :: a), b. rewrite E. cbn. split; [reflexivity|lia].
      + rewrite skip_false by assumption. cbn [fst snd]. destruct (IH l) as [H|(a & b & E & H)]; [lia| |].
        * now left.
        * right. exists (x :: a), b. rewrite E. cbn. split; [reflexivity|lia]. }
  destruct (GEN _ l1 (le_n _)) as [H|H]; [left|now right]. split; [assumption|].
  eexists. split; [reflexivity|]. intros ND. apply (Permutation_NoDup P) in ND. intros X.
  apply in_split in H. destruct H as (a & b & E). rewrite E in ND. rewrite app_assoc in ND. apply NoDup_remove_2 in ND.
  apply ND. rewrite <- app_assoc. apply in_or_app. now left.
Qed.

Lemma pending_nodup lat size t d : 0 <= size -> dreach lat size t d -> NoDup (d_pending d).
Proof. intros S R. eapply NoDup_map_inv, inv_pending_nodup, dreach_inv; eassumption. Qed.

(** C36: a waiting read that is ready moves forward with every completed write. *)
Lemma pending_released ok lat size t d t' d' l1 r l2 : 0 <= size -> dreach lat size t d ->
  d_pending d = l1 ++ r :: l2 -> ready (d_valid d) r = true -> dcont ok lat t d t' d' ->
  (~ In r (d_pending d') \/ exists l1' l2', d_pending d' = l1' ++ r :: l2' /\
     Z.of_nat (length l1') + (writes_done (d_history d') - writes_done (d_history d)) <= Z.of_nat (length l1)).
Proof.
  intros S R P V C.
  enough (G : ready (d_valid d') r = true /\ (~ In r (d_pending d') \/ exists l1' l2', d_pending d' = l1' ++ r :: l2' /\
     Z.of_nat (length l1') + (writes_done (d_history d') - writes_done (d_history d)) <= Z.of_nat (length l1))) by tauto.
  induction C as [t d|t d t1 d1 t2 d2 a C IH T O H].
  { split; [assumption|]. right. exists l1, l2. split; [assumption|lia]. }
  specialize (IH R P V). destruct IH as [V1 IH]. pose proof (step_ready _ _ _ _ _ _ H V1) as V2. split; [assumption|].
  pose proof (dreach_cont _ _ _ _ _ _ _ R C) as R1.
  destruct (step_pending lat size t1 t2 a d1 d2 S R1 H) as [(extra & E & X & _ & W)|(-> & _ & E & _ & W)].
  - destruct IH as [IH|(a1 & a2 & IH & LE)].
    + left. rewrite E. intros J. apply in_app_or in J. destruct J as [J|J]; [now apply IH|].
      rewrite Forall_forall in X. specialize (X r J). congruence.
    + right. exists a1, (a2 ++ extra). rewrite E, IH, W, <- app_assoc. split; [reflexivity|lia].
  - destruct IH as [IH|(a1 & a2 & IH & LE)].
    + left. rewrite E. intros J. apply IH. pose proof (skip_perm (ready (d_valid d2)) (d_pending d1)) as Q.
      eapply Permutation_in; [symmetry; exact Q|]. apply in_or_app. now left.
    + rewrite E, IH, W. destruct (skip_position (ready (d_valid d2)) a1 r a2 V2) as [[_ (k & K & N)]|(b1 & b2 & K & L)].
      * left. rewrite K. apply N. rewrite <- IH. exact (pending_nodup lat size t1 d1 S R1).
      * right. exists b1, b2. split; [assumption|lia].
Qed.

Lemma released_within ok lat size t d t' d' l1 r l2 : 0 <= size -> dreach lat size t d ->
  d_pending d = l1 ++ r :: l2 -> ready (d_valid d) r = true -> dcont ok lat t d t' d' ->
  writes_done (d_history d') >= writes_done (d_history d) + zlen l1 + 1 -> ~ In r (d_pending d').
Proof.
  intros S R P V C W. destruct (pending_released ok lat size t d t' d' l1 r l2 S R P V C) as [H|(a & b & _ & H)]; [assumption|].
  unfold zlen in W. lia.
Qed.

(** C35: without further writes a waiting read stays. *)
Definition no_writes_inside (d : dram) : Prop := Forall (fun r => is_read r = true) (d_queue d ++ d_bus d).

Lemma stays_waiting lat size t d t' d' r : 0 <= size -> dreach lat size t d -> no_writes_inside d ->
  In r (d_pending d) -> dcont no_write lat t d t' d' -> no_writes_inside d' /\ In r (d_pending d').
Proof.
  intros S R N P C. induction C as [t d|t d t1 d1 t2 d2 a C IH T O H]; [auto|].
  specialize (IH R N P). destruct IH as [N1 P1]. pose proof (dreach_cont _ _ _ _ _ _ _ R C) as R1.
  split.
  - unfold no_writes_inside in *. apply Forall_app in N1. destruct N1 as [NQ NB].
    unfold dstep in H. destruct (d_crash d1); [discriminate|]. destruct a.
    + unfold dc_preload in H. destruct (_ <? _); [discriminate|]. injection H as <-. proj. apply Forall_app. auto.
    + unfold dc_submit in H. destruct (negb _); injection H as <-; proj; apply Forall_app; auto. split; [|assumption].
      apply Forall_app. split; [assumption|]. repeat constructor. destruct k; [reflexivity|destruct O].
    + unfold dc_handle in H. destruct (negb _); [discriminate|]. destruct (d_queue d1) as [|x rest] eqn:Q; [discriminate|].
      inversion NQ; subst.
      destruct (_ && _); injection H as <-; proj; apply Forall_app; auto. split; [assumption|]. apply Forall_app. auto.
    + unfold dc_grant in H. destruct (d_bus d1) eqn:B; [discriminate|]. destruct (d_granted d1); [discriminate|].
      destruct (_ <? 0); injection H as <-; unfold set_crash; proj; rewrite ?B; apply Forall_app; auto.
    + unfold dc_finish in H. destruct (d_bus d1) as [|r0 rest] eqn:B; [discriminate|]. destruct (d_granted d1); [|discriminate].
      inversion NB as [|? ? NR NT]; subst. unfold is_read in NR.
      destruct (t2 <? _); [discriminate|]. destruct (q_kind r0); [|discriminate].
      destruct (mem_read _ _ _ _) as [[|] m]; injection H as <-; unfold set_crash; proj; rewrite ?B; apply Forall_app; auto.
    + unfold dc_stop in H. destruct (negb _); injection H as <-; proj; apply Forall_app; auto.
  - destruct (step_pending lat size t1 t2 a d1 d2 S R1 H) as [(extra & E & _)|(-> & (w & rest & B & W) & _)].
    + rewrite E. apply in_or_app. now left.
    + exfalso. unfold no_writes_inside in N1. rewrite B in N1. apply Forall_app in N1. destruct N1 as [_ N1]. inversion N1; congruence.
Qed.

(** ** Termination of the controller's own steps *)
Definition requeued_ready (d : dram) : Prop := Forall (fun r => never_waited d r = false -> ready (d_valid d) r = true) (d_queue d).

Lemma reach_requeued lat size t d : 0 <= size -> dreach lat size t d -> requeued_ready d.
Proof.
  intros S R. induction R as [t|t t' a d d' R IH T H]; [constructor|].
  pose proof (dreach_inv lat size t d S R) as I. unfold requeued_ready in *.
  assert (MONO : forall l v', (forall r, ready (d_valid d) r = true -> ready v' r = true) ->
     Forall (fun r => never_waited d r = false -> ready (d_valid d) r = true) l ->
     Forall (fun r => never_waited d r = false -> ready v' r = true) l).
  { intros l v' M F. eapply Forall_impl; [|exact F]. cbn. auto. }
  pose proof (fun r => step_ready _ _ _ _ _ r H) as M.
  unfold dstep in H. destruct (d_crash d); [discriminate|]. destruct a.
  - unfold dc_preload in H. destruct (_ <? _); [discriminate|]. injection H as <-. proj. unfold never_waited in *. exact (MONO _ _ M IH).
  - unfold dc_submit in H. destruct (negb _); injection H as <-; proj; [assumption|]. apply Forall_app. split; [exact IH|].
    constructor; [|constructor]. intros N. exfalso. unfold never_waited in N. cbn in N. apply negb_false_iff in N.
    apply existsb_exists in N. destruct N as (i & I1 & I2). pose proof (i_waited _ _ _ _ I) as W. rewrite Forall_forall in W.
    specialize (W i I1). cbn in W. lia.
  - unfold dc_handle in H. destruct (negb _); [discriminate|]. pose proof (inv_places_nodup _ _ _ _ I) as ND.
    destruct (d_queue d) as [|x rest] eqn:Q; [discriminate|]. inversion IH as [|? ? IH1 IH2]; subst.
    destruct (_ && _); injection H as <-; proj; [|exact IH2].
    rewrite Forall_forall in *. intros y Y N. apply IH2; [assumption|]. unfold never_waited in *. cbn [d_waited] in N.
    rewrite existsb_app in N. cbn in N. rewrite orb_false_r, negb_orb in N. apply andb_false_iff in N. destruct N as [N|N]; [assumption|].
    exfalso. cbn in ND. inversion ND as [|? ? N1 N2]; subst. apply N1. rewrite map_app. apply in_or_app. left.
    replace (q_id x) with (q_id y) by lia. now apply in_map.
  - unfold dc_grant in H. destruct (d_bus d); [discriminate|]. destruct (d_granted d); [discriminate|].
    destruct (_ <? 0); injection H as <-; exact IH.
  - unfold dc_finish in H. destruct (d_bus d) as [|r0 rest]; [discriminate|]. destruct (d_granted d) as [g|]; [|discriminate].
    destruct (t' <? _); [discriminate|]. destruct (q_kind r0).
    + destruct (mem_read _ _ _ _) as [[|] m]; injection H as <-; exact IH.
    + destruct (mem_write _ _ _ _) as [[|] m]; [|injection H as <-; exact IH].
      rewrite update_ready_skip in H by exact (inv_pending_nodup _ _ _ _ I). injection H as <-. proj.
      apply Forall_app. split; [exact (MONO _ _ M IH)|].
      eapply Forall_impl; [|apply skip_released]. cbn. auto.
  - unfold dc_stop in H. destruct (negb _); injection H as <-; exact IH.
Qed.

(** Steps still to be made for a request: up to four. *)
Definition queue_weight (d : dram) (r : req) : Z := if never_waited d r then 4 else 3.
Definition weight (d : dram) : Z :=
  zsum (map (queue_weight d) (d_queue d)) + 3 * zlen (d_pending d) + 2 * zlen (d_bus d)
  + match d_granted d with Some _ => -1 | None => 0 end.

Lemma zlen_cons {A} (x : A) l : zlen (x :: l) = zlen l + 1.
Proof. unfold zlen. cbn [length]. lia. Qed.

Lemma weight_le d d' l : d_waited d' = d_waited d -> zsum (map (queue_weight d') l) = zsum (map (queue_weight d) l).
Proof. intros E. unfold queue_weight, never_waited. now rewrite E. Qed.

Lemma zsum_map_le {A} (f g : A -> Z) l : (forall x, f x <= g x) -> zsum (map f l) <= zsum (map g l).
Proof. intros H. unfold zsum. induction l as [|x l IH]; cbn; [lia|]. specialize (H x). lia. Qed.

Lemma internal_decreases lat size t t' a d d' : 0 <= size -> dreach lat size t d -> internal a ->
  dstep lat t' a d = Some d' -> d_crash d' <> None \/ weight d' <= weight d - 1.
Proof.
  intros S R IN H. pose proof (dreach_inv lat size t d S R) as I. pose proof (reach_requeued lat size t d S R) as RR.
  unfold dstep in H. destruct (d_crash d) eqn:CR; [discriminate|]. destruct a; try (destruct IN; fail).
  - right. unfold dc_handle in H. destruct (negb _); [discriminate|]. unfold requeued_ready in RR.
    destruct (d_queue d) as [|x rest] eqn:Q; [discriminate|]. inversion RR as [|? ? R1 R2]; subst.
    destruct (is_read x && negb (ready (d_valid d) x)) eqn:E; injection H as <-; unfold weight; proj; rewrite Q; cbn [map].
    + assert (NW : never_waited d x = true).
      { destruct (never_waited d x); [reflexivity|]. rewrite R1 in E by reflexivity. now rewrite andb_false_r in E. }
      change (zsum (queue_weight d x :: map (queue_weight d) rest)) with (queue_weight d x + zsum (map (queue_weight d) rest)).
      rewrite zlen_app. change (zlen [x]) with 1. unfold queue_weight at 2. rewrite NW.
      match goal with |- zsum (map ?f rest) + _ + _ + _ <= _ => assert (LE : zsum (map f rest) <= zsum (map (queue_weight d) rest)) end.
      { apply zsum_map_le. intros y. unfold queue_weight, never_waited. cbn [d_waited]. rewrite existsb_app.
        destruct (existsb (Z.eqb (q_id y)) (d_waited d)); cbn [orb negb]; [lia|]. destruct (existsb _ [_]); cbn [negb]; lia. }
      lia.
    + change (zsum (queue_weight d x :: map (queue_weight d) rest)) with (queue_weight d x + zsum (map (queue_weight d) rest)).
      rewrite zlen_app. change (zlen [x]) with 1. rewrite (weight_le d) by reflexivity.
      unfold queue_weight at 2. destruct (never_waited d x); lia.
  - unfold dc_grant in H. destruct (d_bus d) eqn:B; [discriminate|]. destruct (d_granted d) eqn:G; [discriminate|].
    destruct (_ <? 0); injection H as <-; [left; cbn; discriminate|]. right. unfold weight; proj. rewrite G, B.
    rewrite (weight_le d) by reflexivity. lia.
  - unfold dc_finish in H. destruct (d_bus d) as [|r0 rest] eqn:B; [discriminate|]. destruct (d_granted d) as [g|] eqn:G; [|discriminate].
    destruct (t' <? _); [discriminate|]. destruct (q_kind r0).
    + destruct (mem_read _ _ _ _) as [[|] m]; injection H as <-; [right|left; cbn; discriminate].
      unfold weight; proj. rewrite G, B, zlen_cons. rewrite (weight_le d) by reflexivity. lia.
    + destruct (mem_write _ _ _ _) as [[|] m]; [|injection H as <-; left; cbn; discriminate]. right.
      rewrite update_ready_skip in H by exact (inv_pending_nodup _ _ _ _ I). injection H as <-.
      set (valid := set_valid _ _ _). set (kept := fst _). set (rel := snd _).
      assert (P : Permutation (d_pending d) (kept ++ rel)) by apply skip_perm.
      assert (L : zlen (d_pending d) = zlen kept + zlen rel).
      { unfold zlen. rewrite (Permutation_length P), app_length. lia. }
      unfold weight; proj. rewrite G, B, zlen_cons, (weight_le d) by reflexivity. rewrite map_app, zsum_app.
      assert (W : zsum (map (queue_weight d) rel) = 3 * zlen rel).
      { pose proof (i_reads _ _ _ _ I) as F. rewrite Forall_forall in F.
        assert (G0 : forall l, (forall x, In x l -> In x (d_pending d)) -> zsum (map (queue_weight d) l) = 3 * zlen l).
        { induction l as [|x l IH]; intros X; [reflexivity|]. rewrite zlen_cons. cbn [map].
          change (zsum (queue_weight d x :: map (queue_weight d) l)) with (queue_weight d x + zsum (map (queue_weight d) l)).
          rewrite IH by (intros; apply X; now right). destruct (F x (X x (or_introl eq_refl))) as [_ J].
          unfold queue_weight. replace (never_waited d x) with false; [lia|]. symmetry. unfold never_waited. apply negb_false_iff, existsb_exists.
          exists (q_id x). split; [assumption|apply Z.eqb_refl]. }
        apply G0. intros x X. eapply Permutation_in; [symmetry; exact P|]. apply in_or_app. now right. }
      lia.
Qed.

Lemma weight_nonneg lat size t d : 0 <= size -> dreach lat size t d ->
  0 <= weight d <= 4 * (zlen (d_queue d) + zlen (d_pending d) + zlen (d_bus d)).
Proof.
  intros S R. pose proof (dreach_inv lat size t d S R) as I. unfold weight.
  assert (Q : 0 <= zsum (map (queue_weight d) (d_queue d)) <= 4 * zlen (d_queue d)).
  { induction (d_queue d) as [|x l IH]; [cbn; lia|]. rewrite zlen_cons. cbn [map].
    change (zsum (queue_weight d x :: map (queue_weight d) l)) with (queue_weight d x + zsum (map (queue_weight d) l)).
    unfold queue_weight at 1 3. destruct (never_waited d x); lia. }
  pose proof (zlen_nonneg (d_pending d)). pose proof (zlen_nonneg (d_bus d)).
  destruct (d_granted d) as [g|] eqn:G; [|lia].
  destruct (i_granted _ _ _ _ I g G) as (_ & _ & r & rest & B & _). rewrite B, zlen_cons in *. pose proof (zlen_nonneg rest). lia.
Qed.

Lemma dinternal_reach lat size t d n t' d' : dreach lat size t d -> dinternal lat t d n t' d' -> dreach lat size t' d'.
Proof. intros R C. induction C; [assumption|]. eapply reach_step; [apply IHC; assumption|eassumption|eassumption]. Qed.

Lemma internal_bound lat size t d n t' d' : 0 <= size -> dreach lat size t d -> dinternal lat t d n t' d' ->
  Z.of_nat n <= 4 * (zlen (d_queue d) + zlen (d_pending d) + zlen (d_bus d)) + 1.
Proof.
  intros S R C. pose proof (weight_nonneg lat size t d S R) as W.
  enough (G : Z.of_nat n + weight d' <= weight d \/ (d_crash d' <> None /\ Z.of_nat n <= weight d + 1)).
  { pose proof (weight_nonneg lat size t' d' S (dinternal_reach _ _ _ _ _ _ _ R C)) as W'. lia. }
  induction C as [t d|t d n t1 d1 t2 d2 a C IH T IN H]; [lia|].
  specialize (IH R W). pose proof (dinternal_reach _ _ _ _ _ _ _ R C) as R1.
  assert (C1 : d_crash d1 = None) by (unfold dstep in H; now destruct (d_crash d1)).
  destruct IH as [IH|[IH _]]; [|congruence]. pose proof (weight_nonneg lat size t1 d1 S R1) as W1.
  destruct (internal_decreases lat size t1 t2 a d1 d2 S R1 IN H) as [D|D]; [right; split; [assumption|lia]|left; lia].
Qed.

Lemma internal_enabled lat size t d : 0 <= size -> dreach lat size t d -> d_running d = true -> d_crash d = None ->
  d_queue d <> [] \/ d_bus d <> [] -> exists t' a d', t <= t' /\ internal a /\ dstep lat t' a d = Some d'.
Proof.
  intros S R RUN CR NE. unfold dstep. rewrite CR. destruct (d_bus d) as [|r rest] eqn:B.
  - destruct NE as [NE|NE]; [|congruence]. exists t, AHandle. unfold dc_handle. rewrite RUN. cbn [negb].
    destruct (d_queue d) as [|x q]; [congruence|]. destruct (_ && _); eexists; (split; [lia|]); split; reflexivity || exact I.
  - destruct (d_granted d) as [g|] eqn:G.
    + exists (Z.max t (g + lat * q_batches r)), AFinish. unfold dc_finish. rewrite B, G.
      replace (Z.max t (g + lat * q_batches r) <? g + lat * q_batches r) with false by lia.
      destruct (q_kind r).
      * destruct (mem_read _ _ _ _) as [[|] m]; eexists; (split; [lia|]); split; reflexivity || exact I.
      * destruct (mem_write _ _ _ _) as [[|] m]; [destruct (update_ready _ _ _)|]; eexists; (split; [lia|]); split; reflexivity || exact I.
    + exists t, AGrant. unfold dc_grant. rewrite B, G. destruct (_ <? 0); eexists; (split; [lia|]); split; reflexivity || exact I.
Qed.

(** ** C36 in terms of addresses *)
Lemma ready_all_valid valid r : proper r -> (ready valid r = true <-> all_valid valid r).
Proof.
  intros [P1 P2]. rewrite ready_spec. unfold all_valid, covers, slice_bound.
  destruct (q_start r <? 0) eqn:E1, (q_start r + q_length r <? 0) eqn:E2; try lia.
  split; intros V a A; [intros B|]; apply V; lia.
Qed.

Lemma write_releases lat size t t' d d' w rest : 0 <= size -> dreach lat size t d -> d_bus d = w :: rest -> is_read w = false ->
  dstep lat t' AFinish d = Some d' -> d_crash d' = None ->
  exists released,
    d_queue d' = d_queue d ++ released /\ Permutation (d_pending d) (d_pending d' ++ released) /\
    sublist (d_pending d') (d_pending d) /\ sublist released (d_pending d) /\
    Forall (fun x => proper x -> all_valid (d_valid d') x) released /\
    (forall l1 x l2, d_pending d = l1 ++ x :: l2 -> Forall (fun y => proper y /\ ~ all_valid (d_valid d') y) l1 ->
       proper x -> all_valid (d_valid d') x -> exists more, released = x :: more) /\
    (forall x, In x (d_pending d') -> proper x -> all_valid (d_valid d') x ->
       exists a y b, d_pending d = a ++ y :: x :: b /\ In y released).
Proof.
  intros S R B W H C.
  destruct (step_pending lat size t t' AFinish d d' S R H) as [(extra & E & _ & _ & X)|(_ & _ & E & Q & _)].
  - exfalso. unfold dstep in H. destruct (d_crash d); [discriminate|]. unfold dc_finish in H. rewrite B in H.
    destruct (d_granted d); [|discriminate]. destruct (t' <? _); [discriminate|]. unfold is_read in W.
    destruct (q_kind w) eqn:K; [discriminate|]. destruct (mem_write _ _ _ _) as [[|] m]; [|injection H as <-; discriminate C].
    destruct (update_ready _ _ _). injection H as <-. cbn [d_history] in X. unfold writes_done in X.
    rewrite completed_app in X. cbn in X. rewrite filter_app in X. cbn in X. unfold is_read in X at 2. rewrite K in X. cbn in X.
    rewrite zlen_app in X. change (zlen [w]) with 1 in X. lia.
  - exists (snd (skip_release (ready (d_valid d')) (d_pending d))). rewrite E. split; [exact Q|]. split; [apply skip_perm|].
    split; [apply skip_kept_order|]. split; [apply skip_released_order|]. split.
    { eapply Forall_impl; [|apply skip_released]. cbn. intros x X P. now apply ready_all_valid. }
    split.
    + intros l1 x l2 P F PX VX. rewrite P. apply skip_first; [|now apply ready_all_valid].
      apply forallb_forall. intros y Y. rewrite Forall_forall in F. destruct (F y Y) as [PY NY].
      destruct (ready (d_valid d') y) eqn:RY; [|reflexivity]. exfalso. apply NY. now apply ready_all_valid.
    + intros x X PX VX. apply skip_only_after; [exact X|now apply ready_all_valid].
Qed.

Lemma released_within_spec ok lat size t d t' d' l1 r l2 : 0 <= size -> dreach lat size t d ->
  d_pending d = l1 ++ r :: l2 -> proper r -> all_valid (d_valid d) r -> dcont ok lat t d t' d' ->
  writes_done (d_history d') >= writes_done (d_history d) + zlen l1 + 1 -> ~ In r (d_pending d').
Proof. intros S R P PR V. apply ready_all_valid in V; [|assumption]. now apply (released_within ok lat size t d t' d' l1 r l2). Qed.

Lemma drun_reach lat size : forall l t d d', dreach lat size t d -> ascending t l = true -> drun lat l d = Some d' ->
  exists t', t <= t' /\ dreach lat size t' d'.
Proof.
  induction l as [|[t1 a] l IH]; cbn [drun ascending]; intros t d d' R A H.
  - injection H as <-. exists t. split; [lia|assumption].
  - apply andb_true_iff in A. destruct A as [A1 A2]. destruct (dstep lat t1 a d) as [d1|] eqn:E; [|discriminate].
    destruct (IH t1 d1 d') as (t' & T & R'); auto.
    + eapply reach_step; [exact R|lia|exact E].
    + exists t'. split; [lia|assumption].
Qed.

Lemma drun_reach0 lat size l d' : ascending 0 l = true -> drun lat l (dc_run 0 (dram_init size)) = Some d' ->
  exists t', 0 <= t' /\ dreach lat size t' d'.
Proof. intros A H. eapply drun_reach; [constructor|eassumption|eassumption]. Qed.

(** ** C35 *)
Definition lost_wakeup : list (Z * dact) :=
  [(0, ASubmit 0 0 (RRead 1 1)); (0, ASubmit 1 0 (RRead 1 1)); (0, AHandle); (0, AHandle);
   (1, ASubmit 2 0 (RWrite [[7]])); (1, AHandle); (1, AGrant); (2, AFinish); (2, AHandle); (2, AGrant); (3, AFinish)].

Definition lost_end : dram := Eval vm_compute in
  match drun 1 lost_wakeup (dc_run 0 (dram_init 4)) with Some d => d | None => dram_init 0 end.

Lemma lost_run : drun 1 lost_wakeup (dc_run 0 (dram_init 4)) = Some lost_end.
Proof. vm_compute. reflexivity. Qed.

Lemma ready_read_waits_forever : exists lat size t d r,
  0 <= size /\ dreach lat size t d /\ In r (d_pending d) /\ in_range size r /\ all_valid (d_valid d) r /\
  d_queue d = [] /\ d_bus d = [] /\
  forall t' d', dcont no_write lat t d t' d' -> In r (d_pending d').
Proof.
  destruct (drun_reach0 1 4 lost_wakeup lost_end eq_refl lost_run) as (t & T & R).
  exists 1, 4, t, lost_end, (MkReq 1 1 0 0 (RRead 1 1)).
  assert (P : In (MkReq 1 1 0 0 (RRead 1 1)) (d_pending lost_end)) by (now left).
  split; [lia|]. split; [assumption|]. split; [assumption|]. split; [unfold in_range; cbn; lia|]. split.
  { intros a A L. unfold covers in A. cbn in A. assert (a = 0) by lia. subst a. reflexivity. }
  split; [reflexivity|]. split; [reflexivity|]. intros t' d' C.
  apply (stays_waiting 1 4 t lost_end t' d' (MkReq 1 1 0 0 (RRead 1 1)) ltac:(lia) R) in C; [tauto| |assumption]. constructor.
Qed.

(** ** Drained *)
Lemma drained_places lat size t d : 0 <= size -> dreach lat size t d -> d_queue d = [] -> d_bus d = [] ->
  forall r, In r (d_submitted d) -> In r (completed (d_history d)) \/ In r (d_pending d).
Proof.
  intros S R Q B r H. pose proof (proj1 (places lat size S t d R)) as P. rewrite Q, B in P. cbn in P.
  apply (Permutation_in r P) in H. apply in_app_or in H. tauto.
Qed.

Lemma pending_not_stored lat size t t' d d' r : 0 <= size -> dreach lat size t d -> dstep lat t' AHandle d = Some d' ->
  hd_error (d_queue d) = Some r -> proper r -> is_read r = true ->
  (In r (d_pending d') <-> exists a, covers r a /\ 0 <= a < size /\ forall e, In e (d_history d) -> ~ stores e a).
Proof.
  intros S R H Q PR RD. pose proof (dreach_inv lat size t d S R) as I. pose proof (inv_places_nodup _ _ _ _ I) as ND.
  unfold dstep in H. destruct (d_crash d); [discriminate|]. unfold dc_handle in H. destruct (negb _); [discriminate|].
  destruct (d_queue d) as [|x rest]; [discriminate|]. injection Q as ->. rewrite RD in H. cbn [andb] in H.
  assert (NP : ~ In r (d_pending d)).
  { intros J. cbn in ND. inversion ND as [|? ? N _]; subst. apply N. rewrite map_app. apply in_or_app. right.
    rewrite map_app. apply in_or_app. left. now apply in_map. }
  destruct (ready (d_valid d) r) eqn:V; injection H as <-; proj.
  - split; [tauto|]. intros (a & A & L & N). exfalso. apply ready_all_valid in V; [|assumption].
    specialize (V a A). rewrite (i_valid _ _ _ _ I) in V. specialize (V L).
    apply (flag_iff_stored lat size S t d a R L) in V. destruct V as (e & E1 & E2). exact (N e E1 E2).
  - split; [|intros _; apply in_or_app; right; now left]. intros _.
    assert (NV : ~ all_valid (d_valid d) r) by (intros X; apply ready_all_valid in X; congruence).
    destruct PR as [P1 P2].
    assert (D : forall n : nat, (forall a, covers r a -> 0 <= a < size -> a < q_start r + Z.of_nat n -> znth false (d_valid d) a = true) \/
       exists a, covers r a /\ 0 <= a < size /\ znth false (d_valid d) a = false).
    { induction n as [|n [IH|IH]]; [left; unfold covers; lia| |now right].
      destruct (znth false (d_valid d) (q_start r + Z.of_nat n)) eqn:Z.
      - left. intros a A1 A2 A3. destruct (Z.eq_dec a (q_start r + Z.of_nat n)) as [->|]; [assumption|]. apply IH; auto. lia.
      - destruct ((q_start r + Z.of_nat n <? size) && (Z.of_nat n <? q_length r)) eqn:L.
        + right. exists (q_start r + Z.of_nat n). unfold covers. repeat split; try lia; assumption.
        + left. intros a A1 A2 A3. apply IH; auto. unfold covers in *. lia. }
    destruct (D (Z.to_nat (q_length r))) as [X|(a & A1 & A2 & A3)].
    + exfalso. apply NV. intros a A L. rewrite (i_valid _ _ _ _ I) in L. apply X; auto. unfold covers in A. lia.
    + exists a. split; [assumption|]. split; [assumption|]. intros e E1 E2.
      assert (znth false (d_valid d) a = true) by (apply (flag_iff_stored lat size S t d a R A2); eauto). congruence.
Qed.

(** ** Runs for the examples *)

(** A read of four cells waits, is released by the write of two rows, and reads the preloaded cell
    as well; a second write follows. *)
Definition demo : list (Z * dact) :=
  [(0, APreload [5; 6]); (0, ASubmit 0 1 (RRead 2 2)); (0, AHandle); (1, ASubmit 1 2 (RWrite [[10; 4294967297]; [30; 40]]));
   (1, AHandle); (1, AGrant); (3, ASubmit 1 2 (RWrite [[11]])); (7, AFinish); (7, AHandle); (8, AGrant); (8, AHandle);
   (11, AFinish); (12, AGrant); (20, AFinish)].
Definition demo_end : dram :=
  match drun 3 demo (dc_run 0 (dram_init 8)) with Some d => d | None => dram_init 0 end.

(** ** C37 *)
Lemma beyond_goes_to_the_bus lat size t t' d r rest d' : 0 <= size -> dreach lat size t d -> d_queue d = r :: rest -> is_read r = true ->
  size <= q_start r -> 0 <= q_length r -> dstep lat t' AHandle d = Some d' -> d_bus d' = d_bus d ++ [r].
Proof.
  intros S R Q RD B L H. unfold dstep in H. destruct (d_crash d); [discriminate|]. unfold dc_handle in H.
  destruct (negb _); [discriminate|]. rewrite Q, RD, (beyond_ready lat size S t d r R B L) in H. injection H as <-. reflexivity.
Qed.

Lemma partly_beyond_waits lat size t t' d r rest d' : 0 <= size -> dreach lat size t d -> d_queue d = r :: rest -> is_read r = true ->
  0 <= q_start r < size -> size < q_start r + q_length r -> dstep lat t' AHandle d = Some d' ->
  (d_bus d' = d_bus d ++ [r] <-> forall a, q_start r <= a < size -> exists e, In e (d_history d) /\ stores e a).
Proof.
  intros S R Q RD B L H. pose proof (dreach_inv lat size t d S R) as I.
  unfold dstep in H. destruct (d_crash d); [discriminate|]. unfold dc_handle in H.
  destruct (negb _); [discriminate|]. rewrite Q, RD in H. cbn [andb] in H.
  pose proof (partly_beyond_ready lat size S t d r R ltac:(lia) ltac:(lia)) as P.
  assert (E : all_valid (d_valid d) r <-> forall a, q_start r <= a < size -> exists e, In e (d_history d) /\ stores e a).
  { unfold all_valid, covers. rewrite (i_valid _ _ _ _ I). split; intros V a A.
    - apply (flag_iff_stored lat size S t d a R ltac:(lia)). apply V; lia.
    - intros A2. apply (flag_iff_stored lat size S t d a R ltac:(lia)). apply V. lia. }
  rewrite <- E, <- P. destruct (ready (d_valid d) r); injection H as <-; proj; split; auto; [|discriminate].
  intros X. exfalso. apply (f_equal (@length req)) in X. rewrite app_length in X. cbn in X. lia.
Qed.

(** ** C38: active cycles *)
Definition keeps_running (d d' : dram) : Prop := d_running d' = d_running d /\ active_cycles (d_stat d') = active_cycles (d_stat d) /\ d_start_time d' = d_start_time d.
Lemma other_step lat t a d d' : dstep lat t a d = Some d' -> a <> AStop -> keeps_running d d'.
Proof.
  unfold dstep, keeps_running. destruct (d_crash d); [discriminate|]. destruct a; intros H N.
  - unfold dc_preload in H. destruct (_ <? _); [discriminate|]. injection H as <-. repeat split.
  - injection H as <-. unfold dc_submit. destruct (negb _); [repeat split|]. proj. destruct (is_read _); repeat split.
  - unfold dc_handle in H. destruct (negb _); [discriminate|]. destruct (d_queue d) as [|r rest]; [discriminate|]. destruct (is_read r && _); injection H as <-; repeat split.
  - unfold dc_grant in H. destruct (d_bus d) as [|r rest]; [discriminate|]. destruct (d_granted d); [discriminate|]. destruct (_ <? _); injection H as <-; repeat split.
  - unfold dc_finish in H. destruct (d_bus d) as [|r rest]; [discriminate|]. destruct (d_granted d) as [g|]; [|discriminate]. destruct (_ <? _); [discriminate|].
    destruct (q_kind r).
    + destruct (mem_read _ _ _ _) as [[|] ?]; injection H as <-; repeat split.
    + destruct (mem_write _ _ _ _) as [[|] ?]; [|injection H as <-; repeat split]. destruct (update_ready _ _ _) as [p q]. injection H as <-. repeat split.
  - contradiction.
Qed.
Lemma stopped_run lat l : forall d d', d_running d = false -> drun lat l d = Some d' -> d_running d' = false /\ active_cycles (d_stat d') = active_cycles (d_stat d).
Proof.
  induction l as [|[t a] l IH]; intros d d' R H; [injection H as <-; auto|]. cbn [drun] in H. destruct (dstep lat t a d) as [d1|] eqn:E; [|discriminate].
  assert (K : d_running d1 = false /\ active_cycles (d_stat d1) = active_cycles (d_stat d)).
  { assert (S : a = AStop \/ a <> AStop) by (destruct a; first [now left|right; discriminate]). destruct S as [->|S].
    - unfold dstep in E. destruct (d_crash d); [discriminate|]. injection E as <-. unfold dc_stop. rewrite R. auto.
    - destruct (other_step _ _ _ _ _ E S) as (K1 & K2 & _). split; congruence. }
  destruct K as (K1 & K2). destruct (IH d1 d' K1 H) as (A & B). split; [exact A|congruence].
Qed.
Theorem active_time lat size t0 l d : drun lat l (dc_run t0 (dram_init size)) = Some d ->
  active_cycles (d_stat d) = match first_stop l with Some t => t - t0 | None => 0 end /\ (d_running d = true <-> first_stop l = None).
Proof.
  assert (G : forall l d0 d, d_running d0 = true -> active_cycles (d_stat d0) = 0 -> d_start_time d0 = t0 -> drun lat l d0 = Some d ->
    active_cycles (d_stat d) = match first_stop l with Some t => t - t0 | None => 0 end /\ (d_running d = true <-> first_stop l = None)).
  { clear l d. induction l as [|[t a] l IH]; intros d0 d R A T H.
    - injection H as <-. cbn. split; [exact A|]. split; auto.
    - cbn [drun] in H. destruct (dstep lat t a d0) as [d1|] eqn:E; [|discriminate].
      assert (S : a = AStop \/ a <> AStop) by (destruct a; first [now left|right; discriminate]). destruct S as [->|S].
      + cbn [first_stop]. unfold dstep in E. destruct (d_crash d0); [discriminate|]. injection E as <-. unfold dc_stop in H. rewrite R in H. cbn [negb] in H.
        apply stopped_run in H; [|reflexivity]. destruct H as (B & C). rewrite C. cbn [d_stat active_cycles]. rewrite A, T. split; [lia|]. rewrite B. split; discriminate.
      + destruct (other_step _ _ _ _ _ E S) as (K1 & K2 & K3).
        replace (first_stop ((t, a) :: l)) with (first_stop l) by (destruct a; try reflexivity; contradiction). apply (IH d1); congruence. }
  intros H. refine (G l _ d _ _ _ H); reflexivity.
Qed.
