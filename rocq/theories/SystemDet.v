(** A completed execution in which no cell is written twice determines every other execution. *)
From Verif Require Import PyBase PyLemmas MemoryModel CoreModel DramModel DramSpec DramProofs RouterModel RouterSpec RouterProofs
  SystemModel SystemSpec SystemBase SystemInv SystemOracle.
From Coq Require Import ZifyBool ZifyNat Permutation.

(** ** What halting implies *)
Definition all_done (d : dram) : Prop := d_queue d = [] /\ d_pending d = [] /\ d_bus d = [] /\
  forall r, In r (d_submitted d) -> In r (completed (d_history d)).

Lemma nodup_apart (a b : list req) x : NoDup (map q_id (a ++ b)) -> In x a -> In x b -> False.
Proof.
  induction a as [|y a IH]; cbn; [tauto|]. intros N. inversion N as [|? ? N1 N2]; subst. intros [->|X] Y; [|auto].
  apply N1. apply in_map, in_app_iff. auto.
Qed.

Lemma halted_req c i n t : tinv c i n t -> has_halted t = true \/ t_phase t = PHalting -> forall k, agent_req t k = None.
Proof.
  intros T H k. unfold agent_req. pose proof (hs_cores _ _ (ti_halt _ _ _ _ T) H) as HC. destruct (k =? -1).
  - unfold prog_req. destruct H as [H|H]; [|now rewrite H]. pose proof (hs_reads _ _ (ti_halt _ _ _ _ T) H) as HR.
    destruct (t_phase t) as [|id|rows|got|id|]; auto; exfalso; destruct (HR id); congruence.
  - destruct (k <? 0); [auto|]. destruct (nth_error _ _) as [p|] eqn:E; [|auto]. apply nth_error_In in E.
    rewrite forallb_forall in HC. apply HC in E. unfold halted, core_req in *. destruct (cp_phase p); auto; discriminate.
Qed.

Lemma halted_done c i n t lat size t0 : dinv lat size t0 (t_dram t) -> tinv c i n t -> has_halted t = true \/ t_phase t = PHalting -> all_done (t_dram t).
Proof.
  intros I T H. pose proof (halted_req _ _ _ _ T H) as N. set (d := t_dram t) in *.
  assert (C : forall r, In r (d_submitted d) -> In r (completed (d_history d))).
  { intros r R. destruct (ow_wait _ _ _ _ (ti_own _ _ _ _ T) r R) as [X|X]; [auto|]. rewrite N in X. discriminate. }
  assert (S : forall r, In r (d_queue d ++ d_pending d ++ d_bus d ++ completed (d_history d)) -> In r (d_submitted d)).
  { intros r R. eapply Permutation_in; [symmetry; exact (i_place _ _ _ _ I)|auto]. }
  pose proof (inv_places_nodup _ _ _ _ I) as ND.
  assert (X : d_queue d ++ d_pending d ++ d_bus d = []).
  { rewrite !app_assoc in ND, S. rewrite app_assoc. destruct ((d_queue d ++ d_pending d) ++ d_bus d) as [|r l]; [auto|]. exfalso.
    apply (nodup_apart _ _ r ND); [now left|]. apply C, S. now left. }
  apply app_eq_nil in X as (X1 & X). apply app_eq_nil in X as (X2 & X3). repeat split; auto.
Qed.

(** ** Growth *)
Lemma step_grows c now a s s' : sstep c now a s = Some s' -> forall i,
  (exists h, d_history (t_dram (s_tile s' i)) = d_history (t_dram (s_tile s i)) ++ h) /\
  (exists l, r_submitted (n_router (s_net s') i) = r_submitted (n_router (s_net s) i) ++ l).
Proof.
  intros H i. apply sstep_go in H as (CR & G).
  assert (Z1 : forall A (x : list A), exists l, x = x ++ l) by (intros; exists []; now rewrite app_nil_r).
  destruct G as [i0 a0 d K O0 HD HC HN HT|a0 n O0 HS HC HN HT|i0 k p d p' K KK HP HS HC HN HT|i0 n tt K HS HC HN HT|i0 k p e K KK HP HS ->|i0 e K HS ->].
  - rewrite HN, HT. split; [|auto]. destruct (Z.eq_dec i i0) as [->|NE]; [rewrite set_fun_eq|rewrite set_fun_neq by auto; auto].
    cbn. destruct (dram_own_log _ _ _ _ _ O0 HD) as (_ & _ & h & E). eauto.
  - rewrite HT, HN. split; [auto|]. destruct (net_log _ _ _ _ _ HS i) as (E & _). eauto.
  - rewrite HN, HT. split; [|auto]. destruct (Z.eq_dec i i0) as [->|NE]; [rewrite set_fun_eq|rewrite set_fun_neq by auto; auto].
    cbn. apply core_step_dram in HS as [->|(a1 & kd & r & E)]; [auto|]. apply dc_submit_log in E as (_ & _ & _ & E & _). rewrite E. auto.
  - apply tile_step_go in HS. rewrite HN, HT. split.
    + destruct (Z.eq_dec i i0) as [->|NE]; [rewrite set_fun_eq|rewrite set_fun_neq by auto; auto].
      apply tile_go_dram in HS as [->|[(a1 & kd & r & E)| ->]]; [auto| |].
      * apply dc_submit_log in E as (_ & _ & _ & E & _). rewrite E. auto.
      * destruct (dc_stop_log now (t_dram (s_tile s i0))) as (_ & _ & E). rewrite E. auto.
    + apply tile_go_net in HS as [->|(a1 & E & _ & HS & _)]; [auto|]. destruct (net_log _ _ _ _ _ HS i) as (E1 & _). eauto.
  - cbn. auto.
  - cbn. auto.
Qed.

(** ** What was in memory at the start *)
Definition is_preload (e : entry) : bool := match e with EPreload _ => true | _ => false end.
Definition preloads (h : list entry) : list entry := filter is_preload h.
Definition start_history (c : sys_cfg) (j : job) (i : Z) : list entry :=
  if (i =? 0) && (zlen (j_activation j) <=? y_size c) then [EPreload (j_activation j)] else [].

Lemma start_dram_history c t j i : d_history (start_dram c t (j_activation j) i) = start_history c j i /\
  d_submitted (start_dram c t (j_activation j) i) = [].
Proof.
  unfold start_dram, start_history, dc_run, dc_preload. cbn. destruct (i =? 0); cbn; [|auto].
  destruct (y_size c <? zlen (j_activation j)) eqn:E; cbn.
  - replace (zlen (j_activation j) <=? y_size c) with false by lia. auto.
  - replace (zlen (j_activation j) <=? y_size c) with true by lia. auto.
Qed.

Lemma own_no_preload lat now a d d' : dram_own a = true -> dstep lat now a d = Some d' -> preloads (d_history d') = preloads (d_history d).
Proof.
  unfold dstep. destruct (d_crash d); [discriminate|]. destruct a; try discriminate; intros _ H.
  - unfold dc_handle in H. destruct (negb _); [discriminate|]. destruct (d_queue d); [discriminate|].
    destruct (_ && _); injection H as <-; reflexivity.
  - unfold dc_grant in H. destruct (d_bus d); [discriminate|]. destruct (d_granted d); [discriminate|].
    destruct (_ <? _); injection H as <-; reflexivity.
  - unfold dc_finish in H. destruct (d_bus d) as [|r rest]; [discriminate|]. destruct (d_granted d); [|discriminate].
    destruct (_ <? _); [discriminate|]. unfold preloads. destruct (q_kind r).
    + destruct (mem_read _ _ _ _) as ([x|e] & m); injection H as <-; cbn; rewrite ?filter_app; cbn; rewrite ?app_nil_r; reflexivity.
    + destruct (mem_write _ _ _ _) as ([x|e] & m); [destruct (update_ready _ _ _)|]; injection H as <-; cbn; rewrite ?filter_app; cbn; rewrite ?app_nil_r; reflexivity.
Qed.

Lemma preloads_reach c j t s : sreach c j t s -> forall i, preloads (d_history (t_dram (s_tile s i))) = start_history c j i.
Proof.
  induction 1 as [t|t t' a s s' R IH T H]; intros i.
  - cbn. rewrite (proj1 (start_dram_history c t j i)). unfold start_history. destruct (_ && _); reflexivity.
  - apply sstep_go in H as (CR & G).
    destruct G as [i0 a0 d K O0 HD HC HN HT|a0 n O0 HS HC HN HT|i0 k p d p' K KK HP HS HC HN HT|i0 n tt K HS HC HN HT|i0 k p e K KK HP HS ->|i0 e K HS ->].
    + rewrite HT. destruct (Z.eq_dec i i0) as [->|NE]; [rewrite set_fun_eq|rewrite set_fun_neq by auto; auto].
      cbn [t_dram]. rewrite (own_no_preload _ _ _ _ _ O0 HD). auto.
    + rewrite HT. auto.
    + rewrite HT. destruct (Z.eq_dec i i0) as [->|NE]; [rewrite set_fun_eq|rewrite set_fun_neq by auto; auto].
      cbn. apply core_step_dram in HS as [->|(a1 & kd & r & E)]; [auto|]. apply dc_submit_log in E as (_ & _ & _ & E & _). rewrite E. auto.
    + apply tile_step_go in HS. rewrite HT. destruct (Z.eq_dec i i0) as [->|NE]; [rewrite set_fun_eq|rewrite set_fun_neq by auto; auto].
      apply tile_go_dram in HS as [->|[(a1 & kd & r & E)| ->]]; [auto| |].
      * apply dc_submit_log in E as (_ & _ & _ & E & _). rewrite E. auto.
      * destruct (dc_stop_log t' (t_dram (s_tile s i0))) as (_ & _ & E). rewrite E. auto.
    + apply IH.
    + apply IH.
Qed.

(** Tiles that do not exist do nothing. *)
Lemma off_node c j t s i : sreach c j t s -> ~ on_node c i -> exists t0,
  s_tile s i = s_tile (sys_start c t0 j) i /\ r_submitted (n_router (s_net s) i) = [].
Proof.
  intros R N. enough (E : exists t0, s_tile s i = s_tile (sys_start c t0 j) i).
  { destruct E as (t0 & E). exists t0. split; [auto|]. destruct (projections _ _ _ _ R) as ((t1 & _ & NR) & _).
    eapply unknown_unused; eauto. unfold known_router, on_node in *. lia. }
  induction R as [t|t t' a s s' R IH T H]; [eauto|]. destruct IH as (t0 & IH). exists t0. apply sstep_go in H as (CR & G).
  destruct G as [i0 a0 d K O0 HD HC HN HT|a0 n O0 HS HC HN HT|i0 k p d p' K KK HP HS HC HN HT|i0 n tt K HS HC HN HT|i0 k p e K KK HP HS ->|i0 e K HS ->];
    try rewrite HT; auto; destruct (Z.eq_dec i i0) as [->|NE]; try contradiction; rewrite set_fun_neq; auto.
Qed.

(** ** The oracle of an execution *)
Definition oracle_of (s : sys) : oracle :=
  MkOracle (fun i a => match last_written (rev (d_history (t_dram (s_tile s i)))) a with Some v => wrap32 v | None => 0 end)
    (fun i k => for_tile k (r_submitted (n_router (s_net s) i))).

Lemma in_two {A} (x y : A) l : In x l -> In y l -> x = y \/
  (exists l1 l2 l3, l = l1 ++ x :: l2 ++ y :: l3) \/ (exists l1 l2 l3, l = l1 ++ y :: l2 ++ x :: l3).
Proof.
  induction l as [|z l IH]; cbn; [tauto|]. intros [->|X] [->|Y].
  - auto.
  - right. left. apply in_split in Y as (l2 & l3 & ->). exists [], l2, l3. auto.
  - right. right. apply in_split in X as (l2 & l3 & ->). exists [], l2, l3. auto.
  - destruct (IH X Y) as [E|[(l1 & l2 & l3 & ->)|(l1 & l2 & l3 & ->)]]; [auto| |].
    + right. left. exists (z :: l1), l2, l3. auto.
    + right. right. exists (z :: l1), l2, l3. auto.
Qed.
Lemma written_once_last h e a : written_once h -> In e h -> stores e a -> last_written (rev h) a = Some (stored e a).
Proof.
  intros W I S. destruct (last_written (rev h) a) as [v|] eqn:L.
  - destruct (last_written_value _ _ _ L) as (e' & I' & S' & ->). apply in_rev in I'.
    destruct (in_two e e' h I I') as [->|[(l1 & l2 & l3 & E)|(l1 & l2 & l3 & E)]]; [auto| |]; exfalso; eapply W; eauto.
  - exfalso. eapply no_store_last_written; eauto. now apply in_rev in I.
Qed.
Lemma oracle_agrees s : (forall i, written_once (d_history (t_dram (s_tile s i)))) -> agrees (oracle_of s) s.
Proof.
  intros W. split.
  - intros i e a I S. cbn. rewrite (written_once_last _ _ _ (W i) I S). auto.
  - intros i k. exists []. cbn. now rewrite app_nil_r.
Qed.

Lemma for_tile_app' k l1 l2 : for_tile k (l1 ++ l2) = for_tile k l1 ++ for_tile k l2.
Proof. unfold for_tile. now rewrite filter_app, map_app. Qed.

Lemma agrees_before c now a O s s' : sstep c now a s = Some s' -> agrees O s' -> agrees O s.
Proof.
  intros H (A & B). split.
  - intros i e x I S. apply A; [|auto]. destruct (step_grows _ _ _ _ _ H i) as ((h & ->) & _). apply in_app_iff. auto.
  - intros i k. destruct (B i k) as (l & E). destruct (step_grows _ _ _ _ _ H i) as (_ & (m & E2)). rewrite E2, for_tile_app', <- app_assoc in E. eauto.
Qed.

Lemma agrees_follows c j O t s : 0 <= y_size c -> 0 < y_lat c -> sreach c j t s -> agrees O s -> follows c j O s.
Proof.
  intros SZ L R. induction R as [t|t t' a s s' R IH T H]; intros A; [apply follow_start|].
  pose proof (agrees_before _ _ _ _ _ _ H A) as A0. eapply follow_step; eauto.
Qed.

(** ** Packets of a stopped router had a proper target *)
Definition sent_target (c : net_cfg) (r : router) : Prop := forall p, In p (r_submitted r) -> In p (r_queue r) \/
  (known_router c (pk_dst p) = true /\ (buffer_key c (pk_dst p) (pk_src p) = true \/ exists since b, r_sender r = STravel p since b)).
Lemma sent_target_reach c t s : nreach c t s -> n_crash s = None -> forall i, sent_target c (n_router s i).
Proof.
  induction 1 as [|t t' a s s' R IH T H]; intros CR i; [intros p []|].
  assert (C0 : n_crash s = None) by (unfold nstep, nstep_cap in H; destruct (n_crash s); [discriminate|reflexivity]).
  specialize (IH C0). intros p. pose proof (IH i p) as Ii.
  step_cases H; look; try exact Ii.
  all: repeat match goal with |- context [?x =? ?y] => is_var x; is_var y; destruct (Z.eqb_spec x y); subst; look end; try exact Ii; try congruence.
  all: repeat match goal with |- context [?x =? ?y] => destruct (Z.eqb_spec x y); subst; look end; try exact Ii; try congruence.
  all: rewrite ?in_app_iff; intros P.
  all: repeat match goal with E : r_queue _ = _ |- _ => rewrite E in Ii end.
  all: repeat match goal with E : r_sender _ = _ |- _ => rewrite E in Ii end.
  all: try (destruct P as [P|P]; [|tauto]); specialize (Ii P); cbn [In] in *.
  all: intuition (try discriminate; subst; eauto 6).
  all: try (match goal with X : exists _ _, _ = _ |- _ => destruct X as (? & ? & X); try discriminate X; try (injection X as <- <- <-) end; eauto 6).
  all: try (match goal with X : negb ?b = false |- _ => destruct b; try discriminate end; eauto 7).

Qed.

Lemma queue_submitted c t s : nreach c t s -> forall i p, In p (r_queue (n_router s i)) \/ In p (being_sent (n_router s i)) -> In p (r_submitted (n_router s i)).
Proof.
  induction 1 as [|t t' a s s' R IH T H]; intros i p; [cbn; tauto|].
  pose proof (IH i p) as Ii. unfold being_sent in *.
  step_cases H; look; try exact Ii.
  all: repeat match goal with |- context [?x =? ?y] => destruct (Z.eqb_spec x y); subst; look end; try exact Ii; try congruence.
  all: repeat match goal with E : r_queue _ = _ |- _ => rewrite E in Ii end.
  all: repeat match goal with E : r_sender _ = _ |- _ => rewrite E in * end.
  all: rewrite ?in_app_iff; cbn [In] in *; tauto.
Qed.

(** ** Comparing an execution with a completed one *)
Lemma oprog_shape c c' V S i p : same_shape c c' -> oprog c V S i p = oprog c' V S i p.
Proof.
  intros (E1 & E2 & E3 & E4). unfold oprog. rewrite E2.
  replace (buffer_key (y_net c)) with (buffer_key (y_net c')); [reflexivity|].
  unfold buffer_key. rewrite E3, E4. reflexivity.
Qed.
Lemma ocore_shape c c' V p : same_shape c c' -> ocore c V p = ocore c' V p.
Proof. intros (E1 & E2 & E3 & E4). unfold ocore. rewrite E1, E2. reflexivity. Qed.
Lemma otrace_ext {A} (f g : A -> option A) x y : (forall z, f z = g z) -> otrace f x y -> otrace g x y.
Proof. intros E T. induction T; [apply ot_refl|]. eapply ot_step; eauto. rewrite <- E. auto. Qed.

Lemma oprog_halts c V S i p p' : oprog c V S i p = Some p' ->
  In THalt (a_prog p) \/ existsb is_halt (a_log p) = true -> In THalt (a_prog p') \/ existsb is_halt (a_log p') = true.
Proof.
  intros H. oprog_cases H; cbn [a_prog a_log]; rewrite ?existsb_app; cbn; rewrite ?orb_true_r, ?orb_false_r; auto;
    try (repeat match goal with E : a_prog p = _ |- _ => rewrite E end; cbn; intuition discriminate).
Qed.

Section Compare.
Variables (c c' : sys_cfg) (j : job) (ta : Z) (A : sys).
Hypothesis SZ : 0 <= y_size c.
Hypothesis RA : sreach c j ta A.
Hypothesis CA : completed_run c A.
Hypothesis HA : all_halt c j.
Hypothesis WA : forall i, written_once (d_history (t_dram (s_tile A i))).
Hypothesis SH : same_shape c c'.
Hypothesis UL : usable_latencies c.
Hypothesis UL' : usable_latencies c'.

Let O := oracle_of A.

Lemma same_node i : on_node c i <-> on_node c' i.
Proof. destruct SH as (_ & _ & E & _). unfold on_node. rewrite E. tauto. Qed.
Lemma SZ' : 0 <= y_size c'.
Proof. destruct SH as (_ & E & _). lia. Qed.
Lemma LA : 0 < y_lat c. Proof. apply UL. Qed.
Lemma LB : 0 < y_lat c'. Proof. apply UL'. Qed.

Lemma A_agrees : agrees O A. Proof. now apply oracle_agrees. Qed.
Lemma A_follows : follows c j O A. Proof. exact (agrees_follows _ _ _ _ _ SZ LA RA A_agrees). Qed.

Lemma A_halted i : on_node c i -> has_halted (s_tile A i) = true.
Proof.
  intros N. destruct (A_follows i) as (F & _).
  assert (X : In THalt (a_prog (abs_prog (s_net A) i (s_tile A i))) \/ existsb is_halt (a_log (abs_prog (s_net A) i (s_tile A i))) = true).
  { assert (H0 : In THalt (a_prog (prog_start j i)) \/ existsb is_halt (a_log (prog_start j i)) = true) by (left; apply HA; auto).
    revert H0. generalize (abs_prog (s_net A) i (s_tile A i)) F. generalize (prog_start j i). intros x y F0.
    induction F0 as [|x y z T IH E]; intros H0; [auto|]. eapply oprog_halts; eauto. }
  destruct CA as (_ & P). cbn in X. rewrite (P i N) in X. destruct X as [[]|X]. exact X.
Qed.

Lemma A_done i : on_node c i -> all_done (t_dram (s_tile A i)).
Proof. intros N. eapply halted_done; [apply (sreach_dinv _ _ SZ _ _ RA)|apply (sreach_tinv _ _ SZ _ _ RA)|left; now apply A_halted]. Qed.

Lemma A_prog_end i : on_node c i -> oprog' c' O i (abs_prog (s_net A) i (s_tile A i)) = None.
Proof. intros N. destruct CA as (_ & P). unfold oprog', oprog. cbn. rewrite (P i N). destruct (t_phase _) as [| |[|]| | |]; reflexivity. Qed.
Lemma A_core_end i k p : on_node c i -> nth_error (t_cores (s_tile A i)) k = Some p -> cp_phase p = PHalted.
Proof.
  intros N E. pose proof (hs_cores _ _ (ti_halt _ _ _ _ (sreach_tinv _ _ SZ _ _ RA i)) (or_introl (A_halted i N))) as H.
  rewrite forallb_forall in H. apply nth_error_In in E. apply H in E. unfold halted in E. destruct (cp_phase p); auto; discriminate.
Qed.

Section Other.
Variables (tb : Z) (B : sys).
Hypothesis RB : sreach c' j tb B.
Hypothesis FB : follows c' j O B.

Lemma prog_to i : on_node c i -> otrace (oprog' c' O i) (abs_prog (s_net B) i (s_tile B i)) (abs_prog (s_net A) i (s_tile A i)).
Proof.
  intros N. destruct (FB i) as (F & _). destruct (A_follows i) as (G & _). eapply otrace_det; [exact F| |now apply A_prog_end].
  eapply otrace_ext; [|exact G]. intros z. unfold oprog'. now apply oprog_shape.
Qed.
Lemma core_to i k p : on_node c i -> nth_error (t_cores (s_tile B i)) k = Some p -> exists p',
  nth_error (t_cores (s_tile A i)) k = Some p' /\ otrace (ocore c' (o_cell O i)) (abs_core p) (abs_core p') /\ cp_phase p' = PHalted.
Proof.
  intros N E. destruct (FB i) as (_ & F). destruct (A_follows i) as (_ & G).
  destruct (Forall2_nth _ _ _ _ _ F E) as (x & X1 & X2).
  assert (Y : exists p', nth_error (t_cores (s_tile A i)) k = Some p' /\ otrace (ocore c (o_cell O i)) (core_start x) (abs_core p')).
  { clear - G X1. revert k X1. induction G as [|y q l1 l2 H G IH]; intros [|k] E; cbn in *; try discriminate; eauto. injection E as <-. eauto. }
  destruct Y as (p' & Y1 & Y2). exists p'. split; [auto|]. pose proof (A_core_end _ _ _ N Y1) as PH. split; [|auto].
  eapply otrace_det; [exact X2| |].
  - eapply otrace_ext; [|exact Y2]. intros z. now apply ocore_shape.
  - unfold ocore, abs_core. cbn. rewrite PH. destruct (cp_prog p'); reflexivity.
Qed.

Lemma cores_length i : length (t_cores (s_tile B i)) = length (t_cores (s_tile A i)).
Proof.
  destruct (FB i) as (_ & F). destruct (A_follows i) as (_ & G).
  assert (L : forall (X Y : Type) (P : X -> Y -> Prop) l1 l2, Forall2 P l1 l2 -> length l1 = length l2) by (induction 1; cbn; auto).
  apply L in F. apply L in G. congruence.
Qed.

Lemma writes_to i k x : on_node c i -> In x (agent_writes (s_tile B i) k) -> In x (agent_writes (s_tile A i) k).
Proof.
  intros N. unfold agent_writes. destruct (k =? -1).
  - pose proof (prog_to i N) as P. destruct (otrace_mono _ a_log (oprog_log _ _ _ _) _ _ P) as (l & E). cbn in E. rewrite E, log_writes_app, in_app_iff. auto.
  - destruct (k <? 0); [auto|]. destruct (nth_error (t_cores (s_tile B i)) _) as [p|] eqn:E; [|intros []].
    destruct (core_to _ _ _ N E) as (p' & -> & T & _). destruct (otrace_mono _ cp_writes (ocore_writes _ _) _ _ T) as (l & W). cbn in W. rewrite W, in_app_iff. auto.
Qed.
End Other.

(** A stored value of one execution is stored in another with the same writes, once all its requests are completed. *)
Lemma store_transfer c1 c2 t1 t2 s1 s2 i e a : 0 <= y_size c1 -> y_size c1 = y_size c2 -> sreach c1 j t1 s1 -> sreach c2 j t2 s2 ->
  (forall k x, In x (agent_writes (s_tile s1 i) k) -> In x (agent_writes (s_tile s2 i) k)) ->
  (forall r, In r (d_submitted (t_dram (s_tile s2 i))) -> In r (completed (d_history (t_dram (s_tile s2 i))))) ->
  In e (d_history (t_dram (s_tile s1 i))) -> stores e a ->
  exists e', In e' (d_history (t_dram (s_tile s2 i))) /\ stores e' a /\ stored e' a = stored e a.
Proof.
  intros S1 SE R1 R2 W D I S. destruct e as [vals|r g f data].
  - exists (EPreload vals). split; [|auto]. pose proof (preloads_reach _ _ _ _ R1 i) as P1. pose proof (preloads_reach _ _ _ _ R2 i) as P2.
    assert (X : In (EPreload vals) (preloads (d_history (t_dram (s_tile s1 i))))) by (apply filter_In; auto).
    rewrite P1 in X. unfold start_history in *. rewrite SE in X. rewrite <- P2 in X. now apply filter_In in X.
  - cbn in S. destruct S as (S2 & S3). unfold is_read in S2. destruct (q_kind r) as [|rows] eqn:K; [discriminate|].
    pose proof (sreach_dinv _ _ S1 _ _ R1 i) as DI. pose proof (sreach_tinv _ _ S1 _ _ R1 i) as TI.
    assert (IS : In r (d_submitted (t_dram (s_tile s1 i)))).
    { eapply dinv_comp; eauto. unfold completed. apply in_flat_map. eexists. split; [exact I|]. cbn. auto. }
    pose proof (ow_log _ _ _ _ (ti_own _ _ _ _ TI) r rows IS K) as L. apply W in L.
    assert (S1' : 0 <= y_size c2) by lia. pose proof (sreach_tinv _ _ S1' _ _ R2 i) as TI2.
    destruct (ow_write _ _ _ _ (ti_own _ _ _ _ TI2) _ _ _ L) as (r' & X1 & X2 & X3 & X4). apply D in X1.
    unfold completed in X1. apply in_flat_map in X1 as (e' & X1 & X5). destruct e' as [|r2 g2 f2 d2]; [destruct X5|].
    destruct X5 as [->|[]]. eexists. split; [exact X1|]. cbn. unfold is_read, covers, q_length in *. rewrite X4, X3, K in *. auto.
Qed.

Lemma B_agrees tb B : sreach c' j tb B -> follows c' j O B -> agrees O B.
Proof.
  intros RB FB. split.
  - intros i e a I S. assert (D : on_node c i \/ ~ on_node c i) by (unfold on_node; lia). destruct D as [N|N].
    + destruct (store_transfer c' c tb ta B A i e a) as (e' & I' & S' & E); auto.
      * apply SZ'.
      * destruct SH as (_ & X & _). auto.
      * intros k x. now apply writes_to.
      * apply A_done; auto.
      * rewrite <- E. apply A_agrees; auto.
    + assert (N' : ~ on_node c' i) by (rewrite <- same_node; auto).
      destruct (off_node _ _ _ _ i RA N) as (t0 & E0 & _). destruct (off_node _ _ _ _ i RB N') as (t1 & E1 & _).
      rewrite E1 in I. cbn in I. rewrite (proj1 (start_dram_history c' t1 j i)) in I.
      apply (proj1 A_agrees i e a); [|auto]. rewrite E0. cbn. rewrite (proj1 (start_dram_history c t0 j i)).
      unfold start_history in *. destruct SH as (_ & -> & _). auto.
  - intros i k. assert (D : on_node c i \/ ~ on_node c i) by (unfold on_node; lia). destruct D as [N|N].
    + pose proof (prog_to B FB i N) as P. destruct (otrace_mono _ a_sub (oprog_sub _ _ _ _) _ _ P) as (l & E). cbn in E. cbn.
      rewrite E, for_tile_app'. eauto.
    + assert (N' : ~ on_node c' i) by (rewrite <- same_node; auto).
      destruct (off_node _ _ _ _ i RB N') as (t1 & _ & ->). eexists. reflexivity.
Qed.

(** The request a process waits for is in order. *)
Definition request_ok (size a : Z) (kd : rkind) : Prop :=
  match kd with RRead w v => readable size a w v = true | RWrite rows => writable size a rows = true end.

Lemma B_request tb B i k id a kd : sreach c' j tb B -> follows c' j O B -> on_node c i ->
  agent_req (s_tile B i) k = Some (id, a, kd) -> request_ok (y_size c') a kd.
Proof.
  intros RB FB N. unfold agent_req. destruct (k =? -1).
  - intros H. pose proof (prog_to B FB i N) as P. apply otrace_head in P as [E|(y & E & _)].
    + exfalso. unfold prog_req in H. assert (X : t_prog (s_tile B i) = []) by (change (a_prog (abs_prog (s_net B) i (s_tile B i)) = []); rewrite E; apply CA; auto).
      rewrite X in H. destruct (t_phase _); discriminate.
    + unfold prog_req in H. unfold oprog', oprog, abs_prog in E. cbn [a_phase a_prog a_log] in E. cbv zeta in E.
      destruct (t_phase (s_tile B i)) as [|id'|rows|got|id'|]; try discriminate; destruct (t_prog (s_tile B i)) as [|[ad tg w v|ad src w v|] rest]; try discriminate.
      * injection H as <- <- <-. cbn. destruct (readable (y_size c') ad w v); [auto|discriminate].
      * destruct (last _ _) as [(a' & rows)|]; [|discriminate]. injection H as <- <- <-. cbn. destruct (writable (y_size c') a' rows); [auto|discriminate].
  - destruct (k <? 0); [discriminate|]. destruct (nth_error _ _) as [p|] eqn:NE; [|discriminate]. intros H.
    destruct (core_to B FB _ _ _ N NE) as (p' & _ & P & PH). apply otrace_head in P as [E|(y & E & _)].
    + exfalso. assert (X : cp_phase p = PHalted).
      { assert (Y : cp_phase (abs_core p) = PHalted) by (rewrite E; cbn; rewrite PH; reflexivity). cbn in Y. destruct (cp_phase p); auto; discriminate. }
      unfold core_req in H. rewrite X in H. discriminate.
    + unfold core_req in H. unfold ocore, abs_core in E. cbn [cp_phase cp_prog cp_writes] in E.
      destruct (cp_phase p) as [|id' a'|a' rows|id'|]; try discriminate; destruct (cp_prog p) as [|o rest]; try discriminate.
      * destruct o; try discriminate. injection H as <- <- <-. cbn. destruct (readable _ _ _ _); [auto|discriminate].
      * destruct (last _ _) as [(a' & rows)|]; [|discriminate]. injection H as <- <- <-. cbn. destruct (writable _ _ _); [auto|discriminate].
Qed.

Lemma request_batches size a kd r : q_kind r = kd -> q_start r = a -> request_ok size a kd -> 0 <= q_batches r.
Proof. unfold request_ok, q_batches, readable. intros -> <-. destruct kd; [lia|]. intros _. unfold zlen. lia. Qed.

Lemma B_dram_ok tb B i now a d : sreach c' j tb B -> follows c' j O B -> s_crash B = None -> on_node c i -> dram_own a = true ->
  dstep (y_lat c') now a (t_dram (s_tile B i)) = Some d -> d_crash d = None.
Proof.
  intros RB FB CR N OW H. pose proof (sreach_dinv _ _ SZ' _ _ RB i) as DI. pose proof (sreach_tinv _ _ SZ' _ _ RB i) as TI.
  destruct (projections _ _ _ _ RB) as (_ & _ & CF). destruct (CF CR) as (_ & DC). specialize (DC i).
  set (d0 := t_dram (s_tile B i)) in *.
  assert (RO : forall r rest, d_bus d0 = r :: rest -> request_ok (y_size c') (q_start r) (q_kind r)).
  { intros r rest E. assert (IB : In r (d_bus d0)) by (rewrite E; now left).
    assert (IS : In r (d_submitted d0)). { eapply Permutation_in; [symmetry; exact (i_place _ _ _ _ DI)|]. rewrite !in_app_iff. auto. }
    destruct (ow_wait _ _ _ _ (ti_own _ _ _ _ TI) r IS) as [X|X].
    - exfalso. pose proof (inv_places_nodup _ _ _ _ DI) as ND. rewrite map_app in ND. apply NoDup_app_r in ND. rewrite map_app in ND. apply NoDup_app_r in ND.
      eapply nodup_apart; eauto.
    - eapply B_request; eauto. }
  unfold dstep in H. fold d0 in DC. rewrite DC in H. destruct a; try discriminate.
  - unfold dc_handle in H. destruct (negb _); [discriminate|]. destruct (d_queue d0); [discriminate|]. destruct (_ && _); injection H as <-; exact DC.
  - unfold dc_grant in H. destruct (d_bus d0) as [|r rest] eqn:BU; [discriminate|]. destruct (d_granted d0); [discriminate|].
    pose proof (request_batches _ _ _ r eq_refl eq_refl (RO _ _ eq_refl)) as QB. pose proof LB as LB'.
    assert (0 <= y_lat c' * q_batches r) by nia. replace (_ <? _) with false in H by lia. injection H as <-. exact DC.
  - unfold dc_finish in H. destruct (d_bus d0) as [|r rest] eqn:BU; [discriminate|]. destruct (d_granted d0); [|discriminate].
    destruct (_ <? _); [discriminate|]. pose proof (RO _ _ eq_refl) as Q. unfold request_ok in Q. pose proof (i_size _ _ _ _ DI) as MS. fold d0 in MS.
    destruct (q_kind r) as [w v|rows] eqn:K.
    + unfold mem_read, q_length in H. rewrite K, MS in H. unfold readable in Q.
      replace ((q_start r <? 0) || (y_size c' <? q_start r + w * v)) with false in H by lia. replace (w * v <=? 0) with false in H by lia.
      injection H as <-. exact DC.
    + unfold mem_write in H. rewrite MS in H. unfold writable in Q.
      replace ((q_start r <? 0) || (y_size c' <? q_start r + zlen (concat rows))) with false in H by lia.
      destruct (update_ready _ _ _) in H. injection H as <-. exact DC.
Qed.

Lemma known_shape i : known_router (y_net c) i = known_router (y_net c') i.
Proof. unfold known_router. destruct SH as (_ & _ & -> & _). auto. Qed.
Lemma key_shape i k : buffer_key (y_net c) i k = buffer_key (y_net c') i k.
Proof. unfold buffer_key. destruct SH as (_ & _ & -> & ->). auto. Qed.

(** All packets submitted have a proper target. *)
Lemma B_packet tb B i p : sreach c' j tb B -> follows c' j O B -> on_node c i -> In p (r_submitted (n_router (s_net B) i)) ->
  known_router (y_net c') (pk_dst p) = true /\ buffer_key (y_net c') (pk_dst p) (pk_src p) = true.
Proof.
  intros RB FB N I. pose proof (prog_to B FB i N) as P. destruct (otrace_mono _ a_sub (oprog_sub _ _ _ _) _ _ P) as (l & E). cbn in E.
  assert (IA : In p (r_submitted (n_router (s_net A) i))) by (rewrite E, in_app_iff; auto).
  destruct (projections _ _ _ _ RA) as ((t1 & _ & NR) & _ & CF). destruct CA as (CR & _). destruct (CF CR) as (NC & _).
  pose proof (hs_router' _ _ (ti_halt _ _ _ _ (sreach_tinv _ _ SZ _ _ RA i)) (A_halted i N)) as RU.
  destruct (sent_reach _ _ _ NR i) as (_ & _ & _ & _ & X & _). destruct (X RU) as (Q & SI & _).
  rewrite <- known_shape, <- key_shape.
  destruct (sent_target_reach _ _ _ NR NC i p IA) as [Y|(Y1 & [Y2|(s0 & b & Y2)])]; [rewrite Q in Y; destruct Y|auto|congruence].
Qed.

Lemma B_net_ok tb B now a n : sreach c' j tb B -> follows c' j O B -> s_crash B = None -> net_own a = true ->
  nstep (y_net c') now a (s_net B) = Some n -> n_crash n = None.
Proof.
  intros RB FB CR OW H. destruct (projections _ _ _ _ RB) as ((t1 & _ & NR) & _ & CF). destruct (CF CR) as (NC & _).
  assert (PK : forall i p, known_router (y_net c') i = true -> In p (r_queue (n_router (s_net B) i)) \/ In p (being_sent (n_router (s_net B) i)) ->
    known_router (y_net c') (pk_dst p) = true /\ buffer_key (y_net c') (pk_dst p) (pk_src p) = true).
  { intros i p K I. eapply B_packet; eauto.
    - apply same_node. unfold known_router, on_node in *. instantiate (1 := i). lia.
    - eapply queue_submitted; eauto. }
  destruct UL' as (_ & U1 & U2 & _). unfold being_sent in PK.
  step_cases H; try discriminate OW; try exact NC; exfalso.
  all: match goal with
       | E : r_queue (n_router _ ?i) = ?p :: _, K : known_router _ ?i = true |- _ => specialize (PK i p K); rewrite E in PK
       | E : r_sender (n_router _ ?i) = STravel ?p _ _, K : known_router _ ?i = true |- _ => specialize (PK i p K); rewrite E in PK end.
  all: destruct PK as (K1 & K2); [cbn; auto|].
  all: try congruence.
  all: try (match goal with E : negb ?b = true, F : ?b = true |- _ => rewrite F in E; discriminate end).
  all: match goal with E : get_latency _ _ _ = _ |- _ => unfold get_latency in E; destruct (_ || _) in E; injection E as <- <-; lia end.
Qed.

Lemma B_core_ok tb B i k p now e : sreach c' j tb B -> follows c' j O B -> on_node c i ->
  nth_error (t_cores (s_tile B i)) k = Some p -> core_step_sys c' now (Z.of_nat k) (t_dram (s_tile B i)) p = Crash e -> False.
Proof.
  intros RB FB N NE H. pose proof (sreach_dinv _ _ SZ' _ _ RB i) as I. pose proof (sreach_tinv _ _ SZ' _ _ RB i) as T.
  pose proof (B_agrees _ _ RB FB) as (AG & _). specialize (AG i). set (t := s_tile B i) in *.
  destruct (core_to B FB _ _ _ N NE) as (p' & _ & P & PH). apply otrace_head in P as [E|(y & E & _)].
  { assert (Y : cp_phase (abs_core p) = PHalted) by (rewrite E; cbn; rewrite PH; reflexivity).
    cbn in Y. unfold core_step_sys in H. destruct (cp_phase p); discriminate. }
  assert (SUB : forall a kd e' d', dc_submit now (Z.of_nat k) a kd (t_dram t) = (Raise e', d') -> halted p = true).
  { intros a kd e' d' X. unfold dc_submit in X. destruct (d_running (t_dram t)) eqn:RU; [discriminate|].
    pose proof (ti_halt _ _ _ _ T) as HS. rewrite (hs_dram _ _ HS) in RU.
    assert (HH : has_halted t = true) by (destruct (has_halted t); [auto|discriminate]).
    pose proof (hs_cores _ _ HS (or_introl HH)) as HC. rewrite forallb_forall in HC. apply HC. eapply nth_error_In; eauto. }
  pose proof (Forall_nth_error _ _ _ _ (ti_cores _ _ _ _ T) NE) as SP. unfold core_shape in SP.
  assert (RQ : agent_req t (Z.of_nat k) = core_req p) by (rewrite agent_core, NE; auto). unfold core_req in RQ. unfold halted in SUB.
  unfold core_step_sys in H. unfold ocore, abs_core in E. cbn [cp_phase cp_prog cp_core cp_writes] in E.
  destruct (cp_phase p) as [|id a|a rows|id|] eqn:PP.
  - destruct (cp_prog p) as [|o rest] eqn:PR; [discriminate|].
    assert (X : match exec_local (y_core c') (cp_core p) o with
                | (Ok _, k1) => Go (t_dram t, MkCProc k1 rest PReady (cp_writes p))
                | (Raise e, _) => Crash e
                end = Crash e ->
                match exec_local (y_core c') (cp_core p) o with
                | (Ok _, k1) => Some (MkCProc k1 rest PReady (cp_writes p))
                | _ => None
                end = Some y -> False).
    { intros X Y. destruct (exec_local _ _ _) as ([u|e'] & k1); discriminate. }
    destruct o; eauto; clear X.
    + destruct (load_address _ _ _) as ([a|e'] & k1); [|discriminate].
      destruct (dc_submit _ _ _ _ _) as ([r|e'] & d1) eqn:S; [discriminate|]. apply SUB in S. discriminate.
    + destruct (store_request _ _ _ _ _ _) as ([(a & v)|e'] & k1); discriminate.
    + discriminate.
  - destruct (result_of _ _) as [x|] eqn:RO; [|discriminate]. destruct SP as (dest & rd & w & v & rest & PR). rewrite PR in *.
    destruct (owner_entry _ _ _ _ _ _ _ _ _ _ _ I (ti_own _ _ _ _ T) RQ RO) as (r & g & f & h1 & h2 & HI & Q1 & Q2).
    destruct (read_oracle _ _ _ _ _ _ _ _ _ _ _ _ _ I LB AG HI Q2) as (RD & ->). rewrite Q1 in *. rewrite RD in E.
    destruct (load_finish _ _ _ _) as ([u|e'] & k1); discriminate.
  - destruct (dc_submit _ _ _ _ _) as ([r|e'] & d1) eqn:S; [discriminate|]. apply SUB in S. discriminate.
  - destruct (result_of _ _) as [x|] eqn:RO; [|discriminate]. destruct (cp_prog p); discriminate.
  - discriminate.
Qed.

Lemma B_tile_ok tb B i now e : sreach c' j tb B -> follows c' j O B -> s_crash B = None -> on_node c i ->
  tile_step buffer_capacity c' now i (s_net B) (s_tile B i) = Crash e -> False.
Proof.
  intros RB FB CR N H. pose proof (sreach_dinv _ _ SZ' _ _ RB i) as I. pose proof (sreach_tinv _ _ SZ' _ _ RB i) as T.
  destruct (projections _ _ _ _ RB) as ((t1 & _ & NR) & _ & CF). destruct (CF CR) as (NC & _).
  set (t := s_tile B i) in *. set (n := s_net B) in *.
  assert (WN : forall a t', with_net buffer_capacity c' now a n t' = Crash e -> exists n', nstep (y_net c') now a n = Some n' /\ n_crash n' <> None).
  { intros a t' X. unfold with_net in X. change (nstep_cap buffer_capacity) with nstep in X. destruct (nstep _ _ _ _) as [n'|]; [|discriminate].
    exists n'. split; [auto|]. destruct (n_crash n'); discriminate. }
  assert (SUB : forall a kd e' d', dc_submit now (-1) a kd (t_dram t) = (Raise e', d') -> existsb is_halt (t_log t) = true).
  { intros a kd e' d' X. unfold dc_submit in X. destruct (d_running (t_dram t)) eqn:RU; [discriminate|].
    pose proof (ti_halt _ _ _ _ T) as HS. rewrite (hs_dram _ _ HS) in RU. unfold has_halted in RU. destruct (existsb _ _); [auto|discriminate]. }
  pose proof (prog_to B FB i N) as P. apply otrace_head in P as [E|(y & E & _)].
  { assert (X : t_prog t = []) by (change (a_prog (abs_prog n i t) = []); unfold t, n; rewrite E; apply CA; auto).
    unfold tile_step in H. rewrite X in H. discriminate. }
  unfold oprog', oprog, abs_prog in E. fold t n in E. cbn [a_phase a_prog a_log a_sub a_del] in E. cbv zeta in E. unfold tile_step in H.
  destruct (t_prog t) as [|op rest] eqn:PR; [discriminate|].
  destruct (t_phase t) as [|id|rows|got|id|] eqn:PH, op as [addr tg w v|addr src w v|]; try discriminate.
  - destruct (dc_submit _ _ _ _ _) as ([r|e'] & d) eqn:S; [discriminate|]. apply SUB in S. rewrite S in E. discriminate.
  - destruct ((w <? 0) || (v <? 0)) eqn:G; [|discriminate]. replace ((0 <=? w) && (0 <=? v)) with false in E by lia. discriminate.
  - destruct (forallb _ _); [|discriminate]. apply WN in H as (n' & X & Y). apply Y. clear - X NC. step_cases X; exact NC.
  - destruct (result_of _ _); [|discriminate]. destruct ((w <? 0) || (v <? 0)) eqn:G; [|discriminate].
    unfold readable in E. destruct (_ && (0 <=? w)) eqn:G2 in E; [|discriminate]. lia.
  - destruct (r_client _) eqn:K; try discriminate. destruct rows as [|row rows]; [discriminate|].
    apply WN in H as (n' & X & Y). apply Y. destruct UL' as (_ & _ & _ & U). clear - X NC U. step_cases X; try exact NC; exfalso; lia.
  - destruct (r_client _) eqn:K; try discriminate.
    + destruct (zlen got <? v) eqn:L.
      * apply WN in H as (n' & X & Y). destruct (buffer_key (y_net c') i src) eqn:BK; [|discriminate]. apply Y. clear - X NC BK. step_cases X; try exact NC; exfalso; congruence.
      * destruct (dc_submit _ _ _ _ _) as ([r|e'] & d) eqn:S; [discriminate|]. apply SUB in S. rewrite S in E. discriminate.
    + destruct (zlen data =? w); apply WN in H as (n' & X & Y); apply Y; clear - X NC; step_cases X; exact NC.
  - destruct (result_of _ _); discriminate.
  - destruct (r_client _) eqn:K; try discriminate. destruct (halted_done _ _ _ _ _ _ _ I T (or_intror PH)) as (_ & PE & _). fold t in PE. rewrite PE in H. cbn in H.
    rewrite andb_false_r in H. discriminate.
Qed.

(** Every other execution follows the oracle and does not fail. *)
Lemma B_good tb B : sreach c' j tb B -> s_crash B = None /\ follows c' j O B.
Proof.
  induction 1 as [t|t t' a s s' R IH T H]; [split; [reflexivity|apply follow_start]|]. destruct IH as (CR & F).
  pose proof (B_agrees _ _ R F) as AG. split; [|exact (follow_step _ _ _ _ _ _ _ _ SZ' LB R AG F H)].
  apply sstep_go in H as (_ & G).
  destruct G as [i0 a0 d K O0 HD HC HN HT|a0 n O0 HS HC HN HT|i0 k p d p' K KK HP HS HC HN HT|i0 n tt K HS HC HN HT|i0 k p e K KK HP HS ->|i0 e K HS ->].
  - rewrite <- HC. apply same_node in K. eapply B_dram_ok; eauto.
  - rewrite <- HC. eapply B_net_ok; eauto.
  - auto.
  - auto.
  - exfalso. apply same_node in K. eapply B_core_ok; eauto. rewrite Z2Nat.id by lia. eauto.
  - exfalso. apply same_node in K. eapply B_tile_ok; eauto.
Qed.

Lemma Forall2_eq {X} (f : X -> X) l1 l2 : Forall2 (fun a b => f a = f b) l1 l2 -> map f l1 = map f l2.
Proof. induction 1; cbn; congruence. Qed.

(** Two completed executions have the same result. *)
Definition outputs_of (n : net) (i : Z) : list packet * list (Z * list Z) := (r_submitted (n_router n i), r_delivered (n_router n i)).
Lemma same_result tb B : sreach c' j tb B -> completed_run c' B -> forall i, on_node c i ->
  cells (d_mem (t_dram (s_tile B i))) = cells (d_mem (t_dram (s_tile A i))) /\
  d_valid (t_dram (s_tile B i)) = d_valid (t_dram (s_tile A i)) /\
  map cp_core (t_cores (s_tile B i)) = map cp_core (t_cores (s_tile A i)) /\
  t_log (s_tile B i) = t_log (s_tile A i) /\
  r_submitted (n_router (s_net B) i) = r_submitted (n_router (s_net A) i) /\
  r_delivered (n_router (s_net B) i) = r_delivered (n_router (s_net A) i).
Proof.
  intros RB (_ & CB) i N. destruct (B_good _ _ RB) as (CR & FB).
  assert (EP : abs_prog (s_net B) i (s_tile B i) = abs_prog (s_net A) i (s_tile A i)).
  { apply (otrace_end _ _ _ (prog_to B FB i N)). unfold oprog', oprog. cbn. rewrite (CB i) by (apply same_node; auto). destruct (t_phase _) as [| |[|]| | |]; reflexivity. }
  assert (LG : t_log (s_tile B i) = t_log (s_tile A i)) by (change (a_log (abs_prog (s_net B) i (s_tile B i)) = t_log (s_tile A i)); rewrite EP; reflexivity).
  assert (HB : has_halted (s_tile B i) = true) by (unfold has_halted; rewrite LG; apply (A_halted i N)).
  pose proof (sreach_dinv _ _ SZ' _ _ RB i) as IB. pose proof (sreach_tinv _ _ SZ' _ _ RB i) as TB.
  pose proof (sreach_dinv _ _ SZ _ _ RA i) as IA.
  pose proof (hs_cores _ _ (ti_halt _ _ _ _ TB) (or_introl HB)) as HC.
  assert (CE : forall k p, nth_error (t_cores (s_tile B i)) k = Some p -> exists p', nth_error (t_cores (s_tile A i)) k = Some p' /\ abs_core p = abs_core p').
  { intros k p E. destruct (core_to B FB _ _ _ N E) as (p' & E1 & E2 & _). exists p'. split; [auto|]. apply (otrace_end _ _ _ E2).
    rewrite forallb_forall in HC. apply nth_error_In in E. apply HC in E. unfold halted in E. unfold ocore, abs_core. cbn. destruct (cp_phase p); try discriminate. destruct (cp_prog p); reflexivity. }
  assert (CC : map abs_core (t_cores (s_tile B i)) = map abs_core (t_cores (s_tile A i))).
  { pose proof (cores_length B FB i) as LN. revert CE LN. clear. generalize (t_cores (s_tile B i)) (t_cores (s_tile A i)).
    induction l as [|x l IH]; intros [|y m] CE LN; cbn in *; try discriminate; [auto|]. f_equal.
    - destruct (CE 0%nat x eq_refl) as (p' & E1 & E2). cbn in E1. congruence.
    - apply IH; [|congruence]. intros k p E. apply (CE (S k) p E). }
  assert (WR : forall k, agent_writes (s_tile B i) k = agent_writes (s_tile A i) k).
  { intros k. unfold agent_writes. rewrite LG. destruct (k =? -1); [auto|]. destruct (k <? 0); [auto|].
    assert (X : nth_error (map abs_core (t_cores (s_tile B i))) (Z.to_nat k) = nth_error (map abs_core (t_cores (s_tile A i))) (Z.to_nat k)) by congruence.
    rewrite !nth_error_map in X. destruct (nth_error (t_cores (s_tile B i)) _), (nth_error (t_cores (s_tile A i)) _); cbn in X; try discriminate; auto. injection X. auto. }
  pose proof (halted_done _ _ _ _ _ _ _ IB TB (or_introl HB)) as (_ & _ & _ & DB).
  assert (ES : y_size c = y_size c') by apply SH. pose proof SZ' as SB.
  assert (MEM : forall a, 0 <= a < y_size c -> znth 0 (cells (d_mem (t_dram (s_tile B i)))) a = znth 0 (cells (d_mem (t_dram (s_tile A i)))) a /\
     znth false (d_valid (t_dram (s_tile B i))) a = znth false (d_valid (t_dram (s_tile A i))) a).
  { intros a Ha. pose proof (i_mem _ _ _ _ IA a Ha) as MA. assert (Ha' : 0 <= a < y_size c') by lia. pose proof (i_mem _ _ _ _ IB a Ha') as MB.
    pose proof (B_agrees _ _ RB FB) as (AB & _). pose proof (proj1 A_agrees) as AA. specialize (AB i). specialize (AA i).
    destruct (last_written (rev (d_history (t_dram (s_tile B i)))) a) as [v|] eqn:EB.
    - destruct (last_written_value _ _ _ EB) as (e & I1 & I2 & ->). apply in_rev in I1.
      destruct (store_transfer c' c tb ta B A i e a) as (e' & I' & S' & E); auto.
      + intros k x. rewrite WR. auto.
      + apply A_done; auto.
      + rewrite (written_once_last _ _ _ (WA i) I' S') in MA. rewrite E in MA. destruct MA as (-> & ->). auto.
    - destruct (last_written (rev (d_history (t_dram (s_tile A i)))) a) as [v|] eqn:EA.
      + exfalso. destruct (last_written_value _ _ _ EA) as (e & I1 & I2 & ->). apply in_rev in I1.
        destruct (store_transfer c c' ta tb A B i e a) as (e' & I' & S' & E); auto.
        * intros k x. rewrite WR. auto.
        * eapply no_store_last_written; eauto. now apply in_rev in I'.
      + destruct MA as (-> & ->), MB as (-> & ->). auto. }
  repeat split.
  - apply (list_ext 0).
    + pose proof (i_cells _ _ _ _ IA). pose proof (i_cells _ _ _ _ IB). unfold zlen in *. lia.
    + intros k Hk. pose proof (i_cells _ _ _ _ IB) as LC. unfold zlen in LC. destruct (MEM (Z.of_nat k) ltac:(lia)) as (X & _). unfold znth in X. now rewrite Nat2Z.id in X.
  - apply (list_ext false).
    + pose proof (i_valid _ _ _ _ IA). pose proof (i_valid _ _ _ _ IB). unfold zlen in *. lia.
    + intros k Hk. pose proof (i_valid _ _ _ _ IB) as LC. unfold zlen in LC. destruct (MEM (Z.of_nat k) ltac:(lia)) as (_ & X). unfold znth in X. now rewrite Nat2Z.id in X.
  - assert (X : forall l, map cp_core l = map cp_core (map abs_core l)) by (intros l; rewrite map_map; reflexivity).
    rewrite X, CC, <- X. auto.
  - auto.
  - change (a_sub (abs_prog (s_net B) i (s_tile B i)) = a_sub (abs_prog (s_net A) i (s_tile A i))). congruence.
  - change (a_del (abs_prog (s_net B) i (s_tile B i)) = a_del (abs_prog (s_net A) i (s_tile A i))). congruence.
Qed.
End Compare.

(** ** The statement *)
Lemma written_once_start h : (length h <= 1)%nat -> written_once h.
Proof.
  intros L h1 e1 h2 e2 h3 a E. subst h. exfalso. rewrite app_length in L. cbn [length] in L. rewrite app_length in L. cbn [length] in L. lia.
Qed.
Lemma written_once_all c j t A : sreach c j t A -> (forall i, on_node c i -> written_once (d_history (t_dram (s_tile A i)))) ->
  forall i, written_once (d_history (t_dram (s_tile A i))).
Proof.
  intros R W i. assert (D : on_node c i \/ ~ on_node c i) by (unfold on_node; lia). destruct D as [N|N]; [auto|].
  destruct (off_node _ _ _ _ _ R N) as (t0 & E & _). rewrite E. cbn. apply written_once_start. rewrite (proj1 (start_dram_history c t0 j i)).
  unfold start_history. destruct (_ && _); cbn; lia.
Qed.

Lemma timing_independent c c' j t A t' B : 0 <= y_size c -> usable_latencies c -> usable_latencies c' -> same_shape c c' -> all_halt c j ->
  sreach c j t A -> completed_run c A -> (forall i, on_node c i -> written_once (d_history (t_dram (s_tile A i)))) ->
  sreach c' j t' B ->
  s_crash B = None /\
  (completed_run c' B -> forall i, on_node c i ->
     cells (d_mem (t_dram (s_tile B i))) = cells (d_mem (t_dram (s_tile A i))) /\
     d_valid (t_dram (s_tile B i)) = d_valid (t_dram (s_tile A i)) /\
     map cp_core (t_cores (s_tile B i)) = map cp_core (t_cores (s_tile A i)) /\
     t_log (s_tile B i) = t_log (s_tile A i) /\
     r_submitted (n_router (s_net B) i) = r_submitted (n_router (s_net A) i) /\
     r_delivered (n_router (s_net B) i) = r_delivered (n_router (s_net A) i)).
Proof.
  intros SZ UL UL' SH HA RA CA WO RB. pose proof (written_once_all _ _ _ _ RA WO) as WA. split.
  - eapply B_good; eauto.
  - intros CB i N. eapply same_result; eauto.
Qed.
