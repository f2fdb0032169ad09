(** Proofs about simulations of several nodes. *)
From Verif Require Import PyBase PyLemmas MemoryModel CoreModel DramModel RouterModel SystemModel SystemSpec SystemClaims
  RouterProofs SystemBase NodeModel NodeSpec NodeReset NodeClaims SimModel SimSpec.
From Coq Require Import ZifyBool ZifyNat.

(** ** Small facts *)
Lemma numbers_of c m : In m (node_numbers c) <-> in_sim c m.
Proof. unfold node_numbers, in_sim. rewrite in_zrange. reflexivity. Qed.
Lemma raised_none c x : sim_raised c x = None <-> forall m, in_sim c m -> s_crash (nd_sys (x m)) = None.
Proof.
  unfold sim_raised. split.
  - intros H m I. apply numbers_of in I. revert H I. induction (node_numbers c) as [|k l IH]; cbn; intros H I; [contradiction|].
    destruct (s_crash (nd_sys (x k))) eqn:E; [discriminate|]. destruct I as [->|I]; auto.
  - intros H. assert (G : forall m, In m (node_numbers c) -> s_crash (nd_sys (x m)) = None) by (intros m I; apply H; now apply numbers_of).
    clear H. induction (node_numbers c) as [|k l IH]; cbn; [reflexivity|]. rewrite (G k) by (now left). apply IH. intros m I. apply G. now right.
Qed.
Lemma raised_some c x : some_raised c x <-> exists e, sim_raised c x = Some e.
Proof.
  split.
  - intros (m & e & I & H). destruct (sim_raised c x) eqn:E; [now eexists|]. rewrite raised_none in E. rewrite (E m I) in H. discriminate.
  - intros (e & H). unfold sim_raised in H. assert (G : exists m, In m (node_numbers c) /\ s_crash (nd_sys (x m)) = Some e).
    { revert H. induction (node_numbers c) as [|k l IH]; cbn; intros H; [discriminate|]. destruct (s_crash (nd_sys (x k))) eqn:E.
      - injection H as <-. exists k. auto. - destruct (IH H) as (m & I & J). exists m. auto. }
    destruct G as (m & I & J). exists m, e. split; [now apply numbers_of|exact J].
Qed.
Lemma done_all c n : node_done c n = true <-> forall i, on_node c i -> t_prog (s_tile (nd_sys n) i) = [].
Proof.
  unfold node_done. rewrite forallb_forall. split; intros H i I.
  - specialize (H i (proj2 (tiles_of c i) I)). now destruct (t_prog (s_tile (nd_sys n) i)).
  - apply tiles_of in I. now rewrite (H i I).
Qed.
Lemma sim_done_all c x : sim_done c x = true /\ sim_raised c x = None <-> completed_sim c x.
Proof.
  unfold sim_done, completed_sim, completed_run. rewrite forallb_forall, raised_none. split.
  - intros (H & N) m I. split; [now apply N|]. apply done_all. apply H. now apply numbers_of.
  - intros H. split; intros m I; [apply done_all|]; apply H; auto. now apply numbers_of.
Qed.
Lemma sim_step_inv c now a x x' : sim_step c now a x = Some x' ->
  sim_raised c x = None /\ in_sim c (fst a) /\ exists n, sim_node_step c now (snd a) (x (fst a)) = Some n /\ x' = set_fun x (fst a) n.
Proof.
  unfold sim_step. destruct (sim_raised c x); [discriminate|]. destruct (_ && _) eqn:K; [|discriminate]. destruct (sim_node_step _ _ _ _) as [n|] eqn:E; [|discriminate].
  intros [= <-]. split; [reflexivity|]. split; [unfold in_sim; lia|]. exists n. auto.
Qed.

(** ** Projection to a node *)
Lemma node_step_time c now a n n' : node_step c now a n = Some n' -> now <= nd_next n /\ nd_next n <= nd_next n'.
Proof.
  unfold node_step. destruct (nd_next n <? now) eqn:T; [discriminate|]. destruct a as [a|].
  - destruct (sstep _ _ _ _); [|discriminate]. intros [= <-]. cbn. lia.
  - destruct (negb _); [discriminate|]. intros [= <-]. cbn. lia.
Qed.
Lemma node_from_next c j t0 t n : node_from c j t0 t n -> t <= nd_next n /\ t0 <= t.
Proof.
  induction 1 as [|t t' a n n' _ IH T S]; [cbn; lia|]. destruct (node_step_time _ _ _ _ _ S). lia.
Qed.
Lemma node_from_reach c j t0 t n : node_from c j t0 t n -> nd_reach c j t n.
Proof. induction 1; [constructor|econstructor; eauto]. Qed.

(** Let the monitor sample until time [T]. *)
Lemma catch_up c j t0 T : forall k t n, Z.to_nat (T - nd_next n) = k -> node_from c j t0 t n -> t <= T ->
  exists t' n', node_from c j t0 t' n' /\ t' <= T /\ T <= nd_next n' /\ same_but_monitor n n' /\ nd_busy n <= nd_busy n' /\
    (queue_busy c (nd_sys n) = false -> nd_busy n' = nd_busy n).
Proof.
  induction k as [|k IH]; intros t n E F L.
  - exists t, n. repeat split; auto; try lia.
  - destruct (node_from_next _ _ _ _ _ F) as (N & _).
    set (n1 := MkNode (nd_sys n) (nd_start n) (nd_next n + 1) (if queue_busy c (nd_sys n) then nd_busy n + 1 else nd_busy n) (nd_tile_cycles n) (nd_core_cycles n)).
    assert (S : node_step c (nd_next n) NdMonitor n = Some n1).
    { unfold node_step. replace (nd_next n <? nd_next n) with false by lia. replace (negb (nd_next n =? nd_next n)) with false by lia. reflexivity. }
    destruct (IH (nd_next n) n1) as (t' & n' & F' & T1 & T2 & (A1 & A2 & A3 & A4) & B & Q); [cbn; lia|econstructor; [exact F|exact N|exact S]|lia|].
    exists t', n'. cbn [n1 nd_sys nd_start nd_busy nd_tile_cycles nd_core_cycles] in *. repeat split; auto.
    + destruct (queue_busy _ _); lia.
    + intros QB. rewrite QB in *. rewrite Q; auto.
Qed.

Lemma node_step_monitor c now a n n' m : node_step c now (NdSys a) n = Some n' -> same_but_monitor n m -> now <= nd_next m ->
  exists m', node_step c now (NdSys a) m = Some m' /\ same_but_monitor n' m' /\ nd_next n' = nd_next n /\ nd_next m' = nd_next m /\ nd_busy n' = nd_busy n /\ nd_busy m' = nd_busy m.
Proof.
  intros S (E1 & E2 & E3 & E4) L. unfold node_step in *. destruct (nd_next n <? now); [discriminate|]. replace (nd_next m <? now) with false by lia.
  rewrite E1, E2, E3, E4 in S. destruct (sstep c now a (nd_sys m)) as [s|]; [|discriminate]. injection S as <-. eexists. split; [reflexivity|]. cbn. repeat split.
Qed.
Lemma sstep_done c now a s s' : sstep c now a s = Some s' -> (forall i, on_node c i -> t_prog (s_tile s i) = []) ->
  forall i, on_node c i -> t_prog (s_tile s' i) = [].
Proof.
  intros S D i I. destruct (match a with STile k => k =? i | _ => false end) eqn:A.
  - destruct a as [| | |k]; try discriminate A. apply Z.eqb_eq in A. subst k. unfold sstep, sstep_cap in S. destruct (s_crash s); [discriminate|].
    destruct (negb _); [discriminate|]. unfold tile_step in S. rewrite (D i I) in S. discriminate.
  - rewrite (prog_kept _ _ _ _ _ i S); [now apply D|]. intros ->. lia.
Qed.

Record follows_node (c : sys_cfg) (j : job) (t0 t : Z) (n : node) : Prop := {
  fn_ex : exists t' m, node_from c j t0 t' m /\ t' <= t /\ same_but_monitor n m /\ nd_busy n <= nd_busy m /\
            (node_done c n = false -> n = m) /\ (0 <= y_size c -> all_halt c j -> nd_busy n = nd_busy m) }.

Lemma quiet_done c j t n : 0 <= y_size c -> all_halt c j -> nd_reach c j t n -> node_done c n = true -> queue_busy c (nd_sys n) = false.
Proof.
  intros SZ AH R D. destruct (nd_reach_sys _ _ _ _ R) as (t1 & _ & RS). rewrite done_all in D. apply not_true_iff_false. unfold queue_busy. rewrite existsb_exists.
  intros (i & I & Q). apply tiles_of in I. destruct (halted_is_quiet c j t1 _ i SZ RS (AH i I) (D i I)) as (_ & X & _). rewrite X in Q. discriminate.
Qed.
Lemma late_follows c j t0 t t' a n n' : follows_node c j t0 t n -> t <= t' -> sim_node_step c t' a n = Some n' -> follows_node c j t0 t' n'.
Proof.
  intros [(t1 & m & F & T1 & SM & B & X & Y)] T S. split. unfold sim_node_step in S. destruct (node_done c n) eqn:D.
  - unfold late_step in S. destruct a as [a|]; [|discriminate]. destruct (node_step _ _ _ _) as [n1|] eqn:N; [|discriminate]. injection S as <-.
    destruct (catch_up c j t0 t' _ t1 m eq_refl F) as (t2 & m2 & F2 & T2 & T3 & SM2 & B2 & Q2); [lia|].
    assert (SM3 : same_but_monitor (MkNode (nd_sys n) (nd_start n) t' (nd_busy n) (nd_tile_cycles n) (nd_core_cycles n)) m2).
    { destruct SM as (-> & -> & -> & ->). exact SM2. }
    destruct (node_step_monitor _ _ _ _ _ m2 N SM3 T3) as (m3 & N3 & SM4 & E1 & E2 & E3 & E4). cbn [nd_next nd_busy] in *.
    assert (DN : node_done c n1 = true).
    { apply done_all. unfold node_step in N. cbn [nd_next nd_sys] in N. destruct (t' <? t'); [discriminate|]. destruct (sstep c t' a (nd_sys n)) as [s|] eqn:SS; [|discriminate].
      injection N as <-. cbn [nd_sys]. eapply sstep_done; [exact SS|]. now apply done_all. }
    exists t', m3. split; [econstructor; eauto|]. split; [lia|]. split; [exact SM4|]. cbn [nd_busy]. split; [lia|]. split.
    + intros Z. change (node_done c n1 = false) in Z. congruence.
    + intros SZ AH. rewrite E3, E4, (Y SZ AH), Q2; [reflexivity|].
      apply (quiet_done c j t1 m SZ AH (node_from_reach _ _ _ _ _ F)). destruct SM as (E & _). unfold node_done in *. now rewrite <- E.
  - specialize (X eq_refl). subst m. destruct (node_from_next _ _ _ _ _ F) as (_ & _).
    exists t', n'. split; [econstructor; [exact F|lia|exact S]|]. repeat split; auto; lia.
Qed.
Lemma sim_follows c js t0 t x : sim_reach c js t0 t x -> forall m, follows_node c (js m) t0 t (x m).
Proof.
  induction 1 as [|t t' a x x' _ IH T S]; intros m.
  - split. unfold sim_first. exists t0, (node_first c t0 (js m)). split; [constructor|]. repeat split; auto; lia.
  - destruct (sim_step_inv _ _ _ _ _ S) as (_ & _ & n & E & ->). destruct (Z.eq_dec m (fst a)) as [->|N].
    + rewrite set_fun_eq. eapply late_follows; [apply IH|exact T|exact E].
    + rewrite set_fun_neq by auto. destruct (IH m) as [(t1 & y & F & T1 & R)]. split. exists t1, y. split; [exact F|]. split; [lia|exact R].
Qed.
Lemma sim_node_sys c js t0 t x m : sim_reach c js t0 t x -> exists t', t' <= t /\ sreach c (js m) t' (nd_sys (x m)).
Proof.
  intros R. destruct (sim_follows _ _ _ _ _ R m) as [(t1 & n & F & T & (E & _) & _)]. destruct (nd_reach_sys _ _ _ _ (node_from_reach _ _ _ _ _ F)) as (t2 & T2 & S).
  exists t2. rewrite E. split; [lia|exact S].
Qed.

(** ** Putting executions of nodes together *)
Fixpoint one_run (c : sys_cfg) (l : list (Z * ndact)) (n : node) : option node :=
  match l with
  | [] => Some n
  | (t, a) :: l' => match sim_node_step c t a n with Some n' => one_run c l' n' | None => None end
  end.
Definition part {A} (m : Z) (l : list (Z * (Z * A))) : list (Z * A) :=
  flat_map (fun x => if fst (snd x) =? m then [(fst x, snd (snd x))] else []) l.
Definition until {A} (t : Z) (l : list (Z * A)) : Prop := Forall (fun x => fst x <= t) l.

Lemma one_run_snoc c l t a : forall n, one_run c (l ++ [(t, a)]) n = match one_run c l n with Some n' => sim_node_step c t a n' | None => None end.
Proof.
  induction l as [|(t1 & a1) l IH]; intros n; cbn.
  - destruct (sim_node_step c t a n); reflexivity.
  - destruct (sim_node_step c t1 a1 n); [apply IH|reflexivity].
Qed.
Lemma in_order_snoc {A} (l : list (Z * A)) t a : forall t0, in_order t0 l = true -> until t l -> t0 <= t -> in_order t0 (l ++ [(t, a)]) = true.
Proof.
  induction l as [|(t1 & a1) l IH]; intros t0 O U L; cbn in *; [lia|]. inversion U as [|? ? U1 U2]; subst. cbn in U1.
  apply andb_prop in O as (O1 & O2). rewrite O1. cbn. now apply IH.
Qed.
Lemma until_le {A} t t' (l : list (Z * A)) : until t l -> t <= t' -> until t' l.
Proof. intros U L. eapply Forall_impl; [|exact U]. cbn. lia. Qed.

Lemma node_crash_kept c now a n n' e : sim_node_step c now a n = Some n' -> s_crash (nd_sys n) = Some e -> s_crash (nd_sys n') = Some e.
Proof.
  intros S E. unfold sim_node_step, late_step, node_step in S. destruct (node_done c n); destruct a as [a|]; try discriminate; cbn [nd_next nd_sys] in S.
  - destruct (_ <? _); [discriminate|]. unfold sstep, sstep_cap in S. rewrite E in S. discriminate.
  - destruct (_ <? _); [discriminate|]. unfold sstep, sstep_cap in S. rewrite E in S. discriminate.
  - destruct (_ <? _); [discriminate|]. destruct (negb _); [discriminate|]. injection S as <-. exact E.
Qed.
Lemma one_run_crash c l : forall n n', one_run c l n = Some n' -> s_crash (nd_sys n') = None -> s_crash (nd_sys n) = None.
Proof.
  induction l as [|(t & a) l IH]; cbn; intros n n' R E; [congruence|]. destruct (sim_node_step c t a n) as [n1|] eqn:S; [|discriminate].
  destruct (s_crash (nd_sys n)) eqn:C; [|reflexivity]. apply (node_crash_kept _ _ _ _ _ _ S) in C. rewrite (IH _ _ R E) in C. discriminate.
Qed.

Lemma run_parts c M : forall x, Forall (fun y => in_sim c (fst (snd y))) M ->
  (forall m, in_sim c m -> exists n, one_run c (part m M) (x m) = Some n /\ s_crash (nd_sys n) = None) ->
  exists x', sim_run c M x = Some x' /\ forall m, in_sim c m -> one_run c (part m M) (x m) = Some (x' m).
Proof.
  induction M as [|(t & (k & a)) M IH]; intros x L H.
  - exists x. split; [reflexivity|]. intros m I. reflexivity.
  - inversion L as [|? ? K L']; subst. cbn in K.
    assert (NC : sim_raised c x = None). { apply raised_none. intros m I. destruct (H m I) as (n & R & C). exact (one_run_crash _ _ _ _ R C). }
    destruct (H k K) as (n & R & C). cbn [part flat_map fst snd] in R. rewrite Z.eqb_refl in R. cbn [app one_run] in R.
    destruct (sim_node_step c t a (x k)) as [n1|] eqn:S; [|discriminate].
    destruct (IH (set_fun x k n1) L') as (x' & R' & P).
    { intros m I. destruct (Z.eq_dec m k) as [->|N].
      - rewrite set_fun_eq. exists n. split; [exact R|exact C].
      - rewrite set_fun_neq by auto. destruct (H m I) as (n2 & R2 & C2). cbn [part flat_map fst snd] in R2. replace (k =? m) with false in R2 by lia. exists n2. split; [exact R2|exact C2]. }
    exists x'. split.
    + cbn [sim_run]. unfold sim_step. rewrite NC. cbn [fst snd]. replace ((0 <=? k) && (k <? w_nodes (y_net c))) with true by (unfold in_sim in K; lia). rewrite S. exact R'.
    + intros m I. specialize (P m I). cbn [part flat_map fst snd]. destruct (Z.eqb_spec k m) as [->|N].
      * cbn [app one_run]. rewrite S. rewrite set_fun_eq in P. exact P.
      * rewrite set_fun_neq in P by auto. exact P.
Qed.

Lemma merge {A} (p : A -> bool) : forall (l1 l2 : list (Z * A)) t0, in_order t0 l1 = true -> in_order t0 l2 = true ->
  Forall (fun x => p (snd x) = true) l1 -> Forall (fun x => p (snd x) = false) l2 ->
  exists M, in_order t0 M = true /\ filter (fun x => p (snd x)) M = l1 /\ filter (fun x => negb (p (snd x))) M = l2.
Proof.
  induction l1 as [|(t1 & a1) l1 IH1].
  - intros l2 t0 _ O _ F. exists l2. split; [exact O|]. clear O. induction F as [|x l H F IHF]; cbn; [auto|]. rewrite H. cbn. destruct IHF as (-> & ->). auto.
  - induction l2 as [|(t2 & a2) l2 IH2]; intros t0 O1 O2 F1 F2.
    + exists ((t1, a1) :: l1). split; [exact O1|]. clear - F1. induction F1 as [|x l H F IHF]; cbn; [auto|]. rewrite H. cbn. destruct IHF as (-> & ->). auto.
    + inversion F1 as [|? ? P1 F1']; subst. inversion F2 as [|? ? P2 F2']; subst. cbn in P1, P2. cbn [in_order] in O1, O2.
      apply andb_prop in O1 as (O1 & O1'). apply andb_prop in O2 as (O2 & O2'). destruct (Z_le_gt_dec t1 t2) as [L|L].
      * destruct (IH1 ((t2, a2) :: l2) t1) as (M & OM & E1 & E2); auto. { cbn. rewrite O2'. lia. }
        exists ((t1, a1) :: M). cbn. rewrite P1, OM. cbn. rewrite E1, E2. repeat split. lia.
      * destruct (IH2 t2) as (M & OM & E1 & E2); auto. { cbn. rewrite O1'. lia. }
        exists ((t2, a2) :: M). cbn. rewrite P2, OM. cbn. rewrite E1, E2. repeat split. lia.
Qed.
Lemma part_filter {A} m (p : Z * A -> bool) (l : list (Z * (Z * A))) : (forall a, p (m, a) = true) -> part m (filter (fun x => p (snd x)) l) = part m l.
Proof.
  intros H. induction l as [|(t & (k & a)) l IH]; [reflexivity|]. cbn [filter snd]. destruct (Z.eqb_spec k m) as [->|N].
  - rewrite H. cbn. rewrite Z.eqb_refl. cbn. f_equal. exact IH.
  - destruct (p (k, a)); cbn; replace (k =? m) with false by lia; exact IH.
Qed.
Lemma part_tag {A} m k (l : list (Z * A)) : part m (map (fun x => (fst x, (k, snd x))) l) = if k =? m then l else [].
Proof.
  induction l as [|(t & a) l IH]; cbn; [now destruct (k =? m)|]. fold (part m (map (fun x => (fst x, (k, snd x))) l)). rewrite IH. now destruct (k =? m).
Qed.
Lemma in_order_tag {A B} (f : A -> B) (l : list (Z * A)) : forall t, in_order t (map (fun x => (fst x, f (snd x))) l) = in_order t l.
Proof. induction l as [|(t1 & a) l IH]; intros t; cbn; [reflexivity|]. now rewrite IH. Qed.
Lemma merge_all {A} (l : Z -> list (Z * A)) t0 : forall k : nat, (forall m, 0 <= m < Z.of_nat k -> in_order t0 (l m) = true) ->
  exists M, in_order t0 M = true /\ Forall (fun x => 0 <= fst (snd x) < Z.of_nat k) M /\ forall m, 0 <= m < Z.of_nat k -> part m M = l m.
Proof.
  induction k as [|k IH]; intros H.
  - exists []. split; [reflexivity|]. split; [constructor|]. intros m I. lia.
  - destruct IH as (M & O & F & P); [intros m I; apply H; lia|].
    set (K := Z.of_nat k) in *. set (N := map (fun x => (fst x, (K, snd x))) (l K)).
    destruct (merge (fun y => negb (fst y =? K)) M N t0) as (Q & OQ & E1 & E2); auto.
    + unfold N. rewrite in_order_tag with (f := fun a => (K, a)). apply H. lia.
    + eapply Forall_impl; [|exact F]. cbn. intros y Y. lia.
    + unfold N. apply Forall_forall. intros y Y. apply in_map_iff in Y as (z & <- & _). cbn. lia.
    + exists Q. split; [exact OQ|]. split.
      * apply Forall_forall. intros y Y. destruct (fst (snd y) =? K) eqn:E.
        -- lia.
        -- assert (Y' : In y M). { rewrite <- E1. apply filter_In. split; [exact Y|]. now rewrite E. } rewrite Forall_forall in F. specialize (F y Y'). lia.
      * intros m I. destruct (Z.eq_dec m K) as [->|NE].
        -- rewrite <- (part_filter K (fun y => negb (negb (fst y =? K))) Q) by (intros; cbn; lia). rewrite E2. unfold N. rewrite part_tag, Z.eqb_refl. reflexivity.
        -- rewrite <- (part_filter m (fun y => negb (fst y =? K)) Q) by (intros; cbn; lia). rewrite E1. apply P. lia.
Qed.

(** An execution of a node, without what the monitor does after the end. *)
Lemma node_one c j t0 t n : node_from c j t0 t n -> exists l n0,
  in_order t0 l = true /\ until t l /\ t0 <= t /\ one_run c l (node_first c t0 j) = Some n0 /\ same_but_monitor n0 n /\ (node_done c n = false -> n0 = n).
Proof.
  induction 1 as [|t t' a n n' F IH T S].
  - exists [], (node_first c t0 j). repeat split; auto; try lia. constructor.
  - destruct IH as (l & n0 & O & U & T0 & R & SM & X).
    assert (DE : node_done c n0 = node_done c n) by (destruct SM as (E & _); unfold node_done; now rewrite E).
    destruct (node_done c n) eqn:D.
    + destruct a as [a|].
      * assert (SM' : same_but_monitor n (MkNode (nd_sys n0) (nd_start n0) t' (nd_busy n0) (nd_tile_cycles n0) (nd_core_cycles n0))).
        { destruct SM as (-> & -> & -> & ->). repeat split. }
        destruct (node_step_monitor _ _ _ _ _ _ S SM') as (m & N & SM2 & _); [cbn; lia|].
        exists (l ++ [(t', NdSys a)]), (MkNode (nd_sys m) (nd_start m) (nd_next n0) (nd_busy m) (nd_tile_cycles m) (nd_core_cycles m)). split; [|split; [|split; [|split; [|split]]]].
        -- apply in_order_snoc; [exact O|eapply until_le; [exact U|lia]|lia].
        -- apply Forall_app. split; [eapply until_le; [exact U|lia]|]. repeat constructor. cbn. lia.
        -- lia.
        -- rewrite one_run_snoc, R. unfold sim_node_step. rewrite DE. unfold late_step. rewrite N. reflexivity.
        -- destruct SM2 as (E1 & E2 & E3 & E4). unfold same_but_monitor. cbn. auto.
        -- intros DD. exfalso. unfold node_step in S. destruct (nd_next n <? t'); [discriminate|]. destruct (sstep c t' a (nd_sys n)) as [s|] eqn:SS; [|discriminate]. injection S as <-.
           apply not_true_iff_false in DD. apply DD. apply done_all. cbn [nd_sys]. rewrite done_all in D. eapply sstep_done; [exact SS|exact D].
      * exists l, n0. split; [exact O|]. split; [eapply until_le; [exact U|lia]|]. split; [lia|]. split; [exact R|].
        assert (E : same_but_monitor n n' /\ node_done c n' = true).
        { unfold node_step in S. destruct (nd_next n <? t'); [discriminate|]. destruct (negb _); [discriminate|]. injection S as <-. split; [repeat split|exact D]. }
        destruct E as ((E1 & E2 & E3 & E4) & E5). split; [|congruence]. destruct SM as (S1 & S2 & S3 & S4). unfold same_but_monitor. rewrite S1, S2, S3, S4. auto.
    + specialize (X eq_refl). subst n0. exists (l ++ [(t', a)]), n'. split; [|split; [|split; [|split; [|split]]]].
      * apply in_order_snoc; [exact O|eapply until_le; [exact U|lia]|lia].
      * apply Forall_app. split; [eapply until_le; [exact U|lia]|]. repeat constructor. cbn. lia.
      * lia.
      * rewrite one_run_snoc, R. unfold sim_node_step. rewrite D. exact S.
      * repeat split.
      * reflexivity.
Qed.

Lemma sim_run_reach c js t0 M : forall t x x', sim_reach c js t0 t x -> in_order t M = true -> sim_run c M x = Some x' -> exists t', t <= t' /\ sim_reach c js t0 t' x'.
Proof.
  induction M as [|(t1 & a) M IH]; cbn; intros t x x' R O S.
  - injection S as <-. exists t. split; [lia|exact R].
  - apply andb_prop in O as (L & O). destruct (sim_step c t1 a x) as [x1|] eqn:E; [|discriminate].
    destruct (IH t1 x1 x') as (t' & T & R'); auto. { econstructor; [exact R|lia|exact E]. } exists t'. split; [lia|exact R'].
Qed.

Lemma choice {A} (P : Z -> A -> Prop) (d : A) : forall k : nat, (forall m, 0 <= m < Z.of_nat k -> exists a, P m a) ->
  exists f, forall m, 0 <= m < Z.of_nat k -> P m (f m).
Proof.
  induction k as [|k IH]; intros H; [exists (fun _ => d); intros m I; lia|].
  destruct IH as (f & F); [intros m I; apply H; lia|]. destruct (H (Z.of_nat k)) as (a & Q); [lia|].
  exists (set_fun f (Z.of_nat k) a). intros m I. destruct (Z.eq_dec m (Z.of_nat k)) as [->|N]; [now rewrite set_fun_eq|]. rewrite set_fun_neq by auto. apply F. lia.
Qed.

Lemma together c js t0 ns : (forall m, in_sim c m -> exists t, node_from c (js m) t0 t (ns m) /\ s_crash (nd_sys (ns m)) = None) ->
  exists t x, sim_reach c js t0 t x /\ forall m, in_sim c m -> same_but_monitor (x m) (ns m) /\ (node_done c (ns m) = false -> x m = ns m).
Proof.
  intros H. set (k := Z.to_nat (w_nodes (y_net c))).
  assert (K : forall m, 0 <= m < Z.of_nat k <-> in_sim c m) by (intros m; unfold in_sim, k; lia).
  destruct (choice (fun m y => in_order t0 (fst y) = true /\ one_run c (fst y) (node_first c t0 (js m)) = Some (snd y) /\ same_but_monitor (snd y) (ns m) /\ (node_done c (ns m) = false -> snd y = ns m) /\ s_crash (nd_sys (ns m)) = None)
    ([], ns 0) k) as (f & F).
  { intros m I. apply K in I. destruct (H m I) as (t & R & C). destruct (node_one _ _ _ _ _ R) as (l & n0 & O & _ & _ & R1 & SM & X). exists (l, n0). cbn. auto. }
  destruct (merge_all (fun m => fst (f m)) t0 k) as (M & O & L & P). { intros m I. apply F. exact I. }
  destruct (run_parts c M (sim_first c t0 js)) as (x & R & Q).
  - eapply Forall_impl; [|exact L]. cbn. intros y Y. now apply K.
  - intros m I. apply K in I. rewrite (P m I). destruct (F m I) as (_ & R1 & (E & _) & _ & C). exists (snd (f m)). split; [exact R1|]. now rewrite E.
  - destruct (sim_run_reach c js t0 M t0 _ x (sim_start_ c js t0) O R) as (t & _ & RR). exists t, x. split; [exact RR|].
    intros m I. specialize (Q m I). apply K in I. rewrite (P m I) in Q. destruct (F m I) as (_ & R1 & SM & X & _). unfold sim_first in Q. rewrite Q in R1. injection R1 as E. rewrite E. auto.
Qed.
