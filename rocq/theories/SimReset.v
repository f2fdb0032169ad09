(** Proofs about reset and further runs of a simulation. *)
From Verif Require Import PyBase PyLemmas ConfigModel MemoryModel VfuModel MvmuModel CoreModel DramModel RouterModel SystemModel SystemSpec SystemBase SystemClaims
  NodeModel NodeSpec NodeProofs NodeReset NodeClaims SimModel SimSpec SimProofs.
From Coq Require Import ZifyBool ZifyNat.

(** ** Reset of all nodes *)
Lemma node_reset_fst c n : fst (node_reset c n) = fst (sys_reset c (nd_sys n)).
Proof. unfold node_reset. now destruct (sys_reset c (nd_sys n)). Qed.
Lemma reset_nodes_ok c : forall l x, NoDup l -> (forall m, In m l -> fst (node_reset c (x m)) = Ok tt) ->
  exists x', reset_nodes c l x = (Ok tt, x') /\ (forall m, In m l -> x' m = snd (node_reset c (x m))) /\ (forall m, ~ In m l -> x' m = x m).
Proof.
  induction l as [|k l IH]; intros x N H; cbn [reset_nodes].
  - exists x. split; [reflexivity|]. split; [contradiction|reflexivity].
  - inversion N as [|? ? K N']; subst. pose proof (H k (or_introl eq_refl)) as HK. destruct (node_reset c (x k)) as (r & n) eqn:E. cbn in HK. subst r.
    destruct (IH (set_fun x k n) N') as (x' & R & A & B).
    { intros m I. rewrite set_fun_neq by (intros ->; contradiction). apply H. now right. }
    exists x'. split; [exact R|]. split.
    + intros m [<-|I]; [rewrite (B _ K), set_fun_eq, E; reflexivity|]. rewrite (A m I), set_fun_neq; [reflexivity|intros ->; contradiction].
    + intros m I. cbn in I. rewrite (B m), set_fun_neq; [reflexivity|intros ->; apply I; now left|intros Q; apply I; now right].
Qed.
Lemma reset_nodes_raise c e : forall l1 k l2 x, NoDup (l1 ++ k :: l2) -> (forall m, In m l1 -> fst (node_reset c (x m)) = Ok tt) -> fst (node_reset c (x k)) = Raise e ->
  exists x', reset_nodes c (l1 ++ k :: l2) x = (Raise e, x') /\ (forall m, In m (l1 ++ [k]) -> x' m = snd (node_reset c (x m))) /\ (forall m, ~ In m (l1 ++ [k]) -> x' m = x m).
Proof.
  induction l1 as [|k1 l1 IH]; intros k l2 x N H R; cbn [app reset_nodes].
  - destruct (node_reset c (x k)) as (r & n) eqn:E. cbn in R. subst r. eexists. split; [reflexivity|]. split.
    + intros m [<-|[]]. now rewrite set_fun_eq, E.
    + intros m I. apply set_fun_neq. intros ->. apply I. now left.
  - cbn in N. inversion N as [|? ? K N']; subst. pose proof (H k1 (or_introl eq_refl)) as HK. destruct (node_reset c (x k1)) as (r & n) eqn:E. cbn in HK. subst r.
    assert (KK : k <> k1) by (intros ->; apply K; apply in_or_app; right; now left).
    destruct (IH k l2 (set_fun x k1 n) N') as (x' & RR & A & B).
    { intros m I. rewrite set_fun_neq; [apply H; now right|]. intros ->. apply K. apply in_or_app. now left. }
    { rewrite set_fun_neq by auto. exact R. }
    exists x'. split; [exact RR|]. split.
    + intros m [<-|I].
      * rewrite (B _), set_fun_eq, E; [reflexivity|]. intros I. apply K. apply in_app_or in I as [I|[I|[]]]; apply in_or_app; [now left|subst; right; now left].
      * rewrite (A m I), set_fun_neq; [reflexivity|]. intros ->. apply K. apply in_app_or in I as [I|[I|[]]]; apply in_or_app; [now left|subst; right; now left].
    + intros m I. rewrite (B m), set_fun_neq; [reflexivity|intros ->; apply I; now left|intros I'; apply I; now right].
Qed.
Lemma nodup_numbers c : NoDup (node_numbers c).
Proof. apply DramProofs.nodup_zrange. Qed.

Section Reset.
Variables (c : sys_cfg) (js : Z -> job) (t0 t : Z) (x : nodes).
Hypothesis R : sim_reach c js t0 t x.
Hypothesis F : forall m, in_sim c m -> fresh_job c (js m).

Lemma one_reset m : in_sim c m -> (units_have_rram c (js m) -> fst (node_reset c (x m)) = Ok tt) /\ (~ units_have_rram c (js m) -> fst (node_reset c (x m)) = Raise AttributeError).
Proof. intros I. rewrite node_reset_fst. destruct (sim_node_sys _ _ _ _ _ m R) as (t1 & _ & S). exact (reset_result c (js m) t1 _ (F m I) S). Qed.
Lemma one_dec m : in_sim c m -> units_have_rram c (js m) \/ ~ units_have_rram c (js m).
Proof.
  intros I. destruct (sim_node_sys _ _ _ _ _ m R) as (t1 & _ & S).
  destruct (node_reset_result c (js m) t0 (node_first c t0 (js m)) (F m I) (nd_start_ c (js m) t0)) as (A & B).
  destruct (fst (node_reset c (node_first c t0 (js m)))) as [[]|e] eqn:E.
  - left. now apply A.
  - right. intros U. apply A in U. discriminate.
Qed.

Lemma sim_reset_all : (forall m, in_sim c m -> units_have_rram c (js m)) ->
  exists x', sim_reset c x = (Ok tt, x') /\ forall m, in_sim c m -> node_reset c (x m) = (Ok tt, x' m).
Proof.
  intros U. destruct (reset_nodes_ok c (node_numbers c) x (nodup_numbers c)) as (x' & E & A & _).
  - intros m I. apply numbers_of in I. now apply one_reset, U.
  - exists x'. split; [exact E|]. intros m I. pose proof (proj1 (one_reset m I) (U m I)) as O. rewrite (A m (proj2 (numbers_of c m) I)). now destruct (node_reset c (x m)); cbn in *; subst.
Qed.
Lemma first_without : (exists m, in_sim c m /\ ~ units_have_rram c (js m)) ->
  exists f, in_sim c f /\ ~ units_have_rram c (js f) /\ forall m, 0 <= m < f -> units_have_rram c (js m).
Proof.
  intros (m & I & N). assert (G : forall k : nat, (exists f, in_sim c f /\ ~ units_have_rram c (js f) /\ forall m, 0 <= m < f -> units_have_rram c (js m)) \/
     (forall m, 0 <= m < Z.of_nat k -> in_sim c m -> units_have_rram c (js m))).
  { induction k as [|k [IH|IH]]; [right; intros; lia|now left|]. destruct (Z_lt_ge_dec (Z.of_nat k) (w_nodes (y_net c))) as [L|L].
    - assert (J : in_sim c (Z.of_nat k)) by (unfold in_sim; lia). destruct (one_dec _ J) as [D|D].
      + right. intros p P Q. destruct (Z.eq_dec p (Z.of_nat k)) as [->|]; [exact D|]. apply IH; [lia|exact Q].
      + left. exists (Z.of_nat k). split; [exact J|]. split; [exact D|]. intros p P. apply IH; [lia|]. unfold in_sim. lia.
    - right. intros p P Q. apply IH; [unfold in_sim in Q; lia|exact Q]. }
  destruct (G (Z.to_nat (m + 1))) as [H|H]; [exact H|]. exfalso. apply N. apply H; [unfold in_sim in I; lia|exact I].
Qed.
Lemma split_numbers f : in_sim c f -> exists l1 l2, node_numbers c = l1 ++ f :: l2 /\ forall m, In m l1 <-> 0 <= m < f.
Proof.
  intros I. unfold in_sim in I. exists (zrange f), (map (fun i => f + 1 + i) (zrange (w_nodes (y_net c) - f - 1))). split; [|intros m; apply in_zrange].
  unfold node_numbers. apply nth_ext with 0 0; [rewrite app_length; cbn [length]; rewrite map_length, !length_zrange; lia|]. intros n L. rewrite length_zrange in L. rewrite nth_zrange by lia.
  destruct (Nat.lt_ge_cases n (Z.to_nat f)) as [G|G].
  - rewrite app_nth1 by (rewrite length_zrange; lia). now rewrite nth_zrange.
  - rewrite app_nth2 by (rewrite length_zrange; lia). rewrite length_zrange. destruct (n - Z.to_nat f)%nat as [|p] eqn:E; cbn [nth]; [lia|].
    rewrite (nth_map_zrange (fun i => f + 1 + i)) by lia. lia.
Qed.
Lemma sim_reset_raises : (exists m, in_sim c m /\ ~ units_have_rram c (js m)) ->
  exists f x', in_sim c f /\ ~ units_have_rram c (js f) /\ (forall m, 0 <= m < f -> units_have_rram c (js m)) /\
    sim_reset c x = (Raise AttributeError, x') /\ (forall m, 0 <= m < f -> node_reset c (x m) = (Ok tt, x' m)) /\ (forall m, f < m -> x' m = x m).
Proof.
  intros H. destruct (first_without H) as (f & I & N & B). destruct (split_numbers f I) as (l1 & l2 & E & L).
  assert (IN : forall m, 0 <= m < f -> in_sim c m) by (unfold in_sim in *; intros; lia).
  destruct (reset_nodes_raise c AttributeError l1 f l2 x) as (x' & RR & A & C).
  - rewrite <- E. apply nodup_numbers.
  - intros m Q. apply L in Q. apply one_reset; auto.
  - now apply one_reset.
  - exists f, x'. split; [exact I|]. split; [exact N|]. split; [exact B|]. split; [unfold sim_reset; rewrite E; exact RR|]. split.
    + intros m Q. pose proof (proj1 (one_reset m (IN m Q)) (B m Q)) as O. rewrite (A m); [|apply in_or_app; left; now apply L]. now destruct (node_reset c (x m)); cbn in *; subst.
    + intros m Q. apply C. intros G. apply in_app_or in G as [G|[G|[]]]; [apply L in G|]; lia.
Qed.
End Reset.

(** ** Reset does not look at the SRAM counters *)
Lemma mvmu_reset_hu c u u' : hu u = hu u' -> fst (mvmu_reset c u) = fst (mvmu_reset c u') /\ hu (snd (mvmu_reset c u)) = hu (snd (mvmu_reset c u')).
Proof.
  intros E. unfold mvmu_reset. destruct (negb _); [split; [reflexivity|exact E]|]. split; [reflexivity|]. unfold hu in *. cbn. injection E as -> -> -> -> -> -> _. reflexivity.
Qed.
Lemma reset_mvmus_hu c us : forall us', map hu us = map hu us' -> fst (reset_mvmus c us) = fst (reset_mvmus c us') /\ map hu (snd (reset_mvmus c us)) = map hu (snd (reset_mvmus c us')).
Proof.
  induction us as [|u us IH]; intros [|u' us'] E; try discriminate; [auto|]. cbn [map] in E. pose proof (f_equal (hd (hu u)) E) as E1. pose proof (f_equal (@tl _) E) as E2. cbn [hd tl] in E1, E2.
  destruct (mvmu_reset_hu c u u' E1) as (A & B). cbn [reset_mvmus]. destruct (mvmu_reset c u) as (r & v), (mvmu_reset c u') as (r' & v'). cbn [fst snd] in A, B. subst r'.
  destruct r as [[]|e]; [|cbn; now rewrite B, E2]. destruct (IH us' E2) as (A' & B'). destruct (reset_mvmus c us), (reset_mvmus c us'). cbn in *. subst. now rewrite B, B'.
Qed.
Lemma core_reset_hk c k k' : hk k = hk k' -> fst (core_reset c k) = fst (core_reset c k') /\ hk (snd (core_reset c k)) = hk (snd (core_reset c k')).
Proof.
  intros E. unfold core_reset. destruct (reset_mvmus_hu (k_mv c) (co_mvmus k) (co_mvmus k')) as (A & B); [exact (f_equal co_mvmus E)|].
  destruct (reset_mvmus (k_mv c) (co_mvmus k)), (reset_mvmus (k_mv c) (co_mvmus k')). cbn [fst snd] in *. subst. split; [reflexivity|]. unfold hk. cbn.
  pose proof (f_equal co_cache E) as E1. pose proof (f_equal co_vfu E) as E2. cbn in E1, E2. now rewrite E1, E2, B.
Qed.
Lemma reset_cores_hp c ps : forall ps', map hp ps = map hp ps' -> fst (reset_cores c ps) = fst (reset_cores c ps') /\ map hp (snd (reset_cores c ps)) = map hp (snd (reset_cores c ps')).
Proof.
  induction ps as [|p ps IH]; intros [|p' ps'] E; try discriminate; [auto|]. cbn [map] in E. pose proof (f_equal (hd (hp p)) E) as E1. pose proof (f_equal (@tl _) E) as E2. cbn [hd tl] in E1, E2.
  destruct (dest_hp _ _ E1) as (K & P1 & P2 & P3). destruct (core_reset_hk c _ _ K) as (A & B). cbn [reset_cores]. destruct (core_reset c (cp_core p)) as (r & v), (core_reset c (cp_core p')) as (r' & v').
  cbn [fst snd] in A, B. subst r'. rewrite P1, P2, P3. assert (HP : hp (MkCProc v (cp_prog p') (cp_phase p') (cp_writes p')) = hp (MkCProc v' (cp_prog p') (cp_phase p') (cp_writes p'))) by (now apply make_hp).
  destruct r as [[]|e]; [|cbn [fst snd map]; now rewrite HP, E2]. destruct (IH ps' E2) as (A' & B'). destruct (reset_cores c ps), (reset_cores c ps'). cbn [fst snd map] in *. subst. now rewrite HP, B'.
Qed.
Lemma tile_reset_same c t t' : same_tile t t' -> fst (tile_reset c t) = fst (tile_reset c t') /\ same_tile (snd (tile_reset c t)) (snd (tile_reset c t')).
Proof.
  intros (E1 & E2 & E3 & E4 & E5). unfold tile_reset. destruct (reset_cores_hp (y_core c) _ _ E5) as (A & B).
  destruct (reset_cores (y_core c) (t_cores t)), (reset_cores (y_core c) (t_cores t')). cbn [fst snd] in *. subst. split; [reflexivity|]. unfold same_tile. cbn. rewrite E1. auto.
Qed.
Lemma reset_tiles_same c l : forall s s', same_state s s' -> fst (reset_tiles c l s) = fst (reset_tiles c l s') /\ same_state (snd (reset_tiles c l s)) (snd (reset_tiles c l s')).
Proof.
  induction l as [|i l IH]; intros s s' S; [auto|]. cbn [reset_tiles]. destruct S as (C1 & C2 & N & T). destruct (tile_reset_same c _ _ (T i)) as (A & B).
  destruct (tile_reset c (s_tile s i)) as (r & t), (tile_reset c (s_tile s' i)) as (r' & t'). cbn [fst snd] in A, B. subst r'.
  assert (G : same_state (MkSys (set_router (s_net s) i (router_reset (n_router (s_net s) i))) (set_fun (s_tile s) i t) (s_crash s))
                (MkSys (set_router (s_net s') i (router_reset (n_router (s_net s') i))) (set_fun (s_tile s') i t') (s_crash s'))).
  { unfold same_state. cbn. split; [exact C1|]. split; [exact C2|]. split; [|now apply same_set]. intros k. rewrite (N i). unfold set_fun. destruct (k =? i); [reflexivity|apply N]. }
  destruct r as [[]|e]; [now apply IH|]. cbn [fst snd]. auto.
Qed.
Lemma sys_again_same c now j s s' : same_state s s' -> same_state (sys_again c now j s) (sys_again c now j s').
Proof.
  intros (_ & _ & N & T). unfold same_state. cbn. split; [reflexivity|]. split; [reflexivity|]. split; intros i; destruct (known_router (y_net c) i); try reflexivity.
  - now rewrite N.
  - destruct (T i) as (E1 & E2 & E3 & E4 & E5). unfold same_tile. cbn. rewrite E1. repeat split.
    revert E5. generalize (t_cores (s_tile s i)) (t_cores (s_tile s' i)) (j_cores j i). induction l as [|p l IH]; intros [|p' l'] q E; try discriminate; [reflexivity|].
    destruct q as [|y q]; [reflexivity|]. cbn [map combine] in E |- *. pose proof (f_equal (hd (hp p)) E) as F1. pose proof (f_equal (@tl _) E) as F2. cbn [hd tl] in F1, F2.
    destruct (dest_hp _ _ F1) as (K & _). f_equal; [now apply make_hp|now apply IH].
  - repeat split.
Qed.

(** ** Two simulations in the same state *)
Definition like (x a b : nodes) (c : sys_cfg) : Prop := forall m, in_sim c m -> same_node (x m) (a m) (b m).
Lemma same_state_crash s s' : same_state s s' -> s_crash s = s_crash s'. Proof. now intros (E & _). Qed.
Lemma sim_node_step_same c now a n p q : same_node n p q -> same_optn n (sim_node_step c now a p) (sim_node_step c now a q).
Proof.
  intros S. unfold sim_node_step. assert (D : node_done c p = node_done c q).
  { unfold node_done. induction (zrange (w_tiles (y_net c))) as [|i l IH]; cbn; [reflexivity|]. now rewrite IH, (same_prog _ _ i (sn_state _ _ _ S)). }
  rewrite D. destruct (node_done c q); [|now apply node_step_same]. unfold late_step. destruct a as [a|]; [|exact I].
  assert (S' : same_node n (MkNode (nd_sys p) (nd_start p) now (nd_busy p) (nd_tile_cycles p) (nd_core_cycles p)) (MkNode (nd_sys q) (nd_start q) now (nd_busy q) (nd_tile_cycles q) (nd_core_cycles q))).
  { destruct S. split; cbn; auto. }
  pose proof (node_step_same c now (NdSys a) n _ _ S') as G. unfold same_optn in *. destruct (node_step _ _ _ _), (node_step _ _ _ _); try contradiction; [|exact I].
  destruct G, S. split; cbn; auto.
Qed.
Lemma sim_run_same c x l : forall a b, like x a b c ->
  match sim_run c l a, sim_run c l b with Some a', Some b' => like x a' b' c | None, None => True | _, _ => False end.
Proof.
  induction l as [|(t & (k & y)) l IH]; intros a b L; [exact L|]. cbn [sim_run].
  assert (NR : sim_raised c a = None <-> sim_raised c b = None).
  { rewrite !raised_none. split; intros H m I; specialize (H m I); rewrite (same_state_crash _ _ (sn_state _ _ _ (L m I))) in *; exact H. }
  unfold sim_step. destruct (sim_raised c a) eqn:RA, (sim_raised c b) eqn:RB; try exact I.
  - destruct NR as (_ & NR). now specialize (NR eq_refl).
  - destruct NR as (NR & _). now specialize (NR eq_refl).
  - cbn [fst snd]. destruct (_ && _) eqn:K; [|exact I]. assert (IK : in_sim c k) by (unfold in_sim; lia).
    pose proof (sim_node_step_same c t y _ _ _ (L k IK)) as G. unfold same_optn in G. destruct (sim_node_step c t y (a k)), (sim_node_step c t y (b k)); try contradiction; [|exact I].
    apply IH. intros m I. destruct (Z.eq_dec m k) as [->|N]; [now rewrite !set_fun_eq|]. rewrite !set_fun_neq by auto. now apply L.
Qed.

(** ** Further runs *)
Lemma again_like c j j' n n0 s t : 0 <= y_size c -> fresh_job c j -> units_have_rram c j -> all_halt c j -> sreach c j t s -> completed_run c s -> same_programs j j' ->
  same_state (nd_sys n) s -> node_reset c n = (Ok tt, n0) -> forall now, same_node n (node_again c now j' n0) (node_first c now j').
Proof.
  intros SZ F U AH R D P S E now. destruct (run_again c j t s SZ F U AH R D) as (s0 & E0 & G). unfold node_reset in E.
  destruct (reset_tiles_same c (zrange (w_tiles (y_net c))) _ _ S) as (_ & B). change (reset_tiles c (zrange (w_tiles (y_net c)))) with (sys_reset c) in B. rewrite E0 in B. cbn [snd] in B.
  destruct (sys_reset c (nd_sys n)) as (r & s1). injection E as -> <-. cbn [snd] in B. split; cbn; auto.
  - specialize (G now j' P). pose proof (sys_again_same c now j' _ _ B) as H. destruct H as (H1 & H2 & H3 & H4), G as (G1 & G2 & G3 & G4).
    split; [reflexivity|]. split; [reflexivity|]. split.
    + intros i. rewrite H3. apply G3.
    + intros i. destruct (H4 i) as (X1 & X2 & X3 & X4 & X5), (G4 i) as (Y1 & Y2 & Y3 & Y4 & Y5). unfold same_tile. rewrite X1, X2, X3, X4, X5. auto.
  - intros i Q. rewrite Q. reflexivity.
  - intros i k K. unfold core_halted. cbn. rewrite nth_error_map. destruct (nth_error (j_cores j' i) (Z.to_nat k)); cbn; discriminate.
Qed.

Section Batch.
Variables (c : sys_cfg) (js : list Z -> Z -> job).
Hypothesis SZ : 0 <= y_size c.
Hypothesis P : forall m act act', in_sim c m -> same_programs (js act m) (js act' m).
Hypothesis F : forall m act, in_sim c m -> fresh_job c (js act m).
Hypothesis U : forall m act, in_sim c m -> units_have_rram c (js act m).
Hypothesis AH : forall m act, in_sim c m -> all_halt c (js act m).

(** What is known of a simulator after a run with the given activation. *)
Definition as_fresh (act : list Z) (x : nodes) : Prop :=
  exists t0 l y, in_order t0 l = true /\ sim_run c l (sim_first c t0 (js act)) = Some y /\ completed_sim c y /\ forall m, in_sim c m -> like_fresh (x m) (y m).

Lemma fresh_reset act x : as_fresh act x -> exists x0, sim_reset c x = (Ok tt, x0) /\
  forall act' now, like x (sim_again c now (js act') x0) (sim_first c now (js act')) c.
Proof.
  intros (t0 & l & y & O & R & C & L). destruct (sim_run_reach c (js act) t0 l t0 _ y (sim_start_ _ _ _) O R) as (t & _ & RR).
  assert (OK : forall m, in_sim c m -> fst (node_reset c (x m)) = Ok tt).
  { intros m I. rewrite node_reset_fst. destruct (reset_tiles_same c (zrange (w_tiles (y_net c))) _ _ (lf_state _ _ (L m I))) as (A & _). unfold sys_reset. rewrite A.
    destruct (sim_node_sys _ _ _ _ _ m RR) as (t1 & _ & S). destruct (reset_result c (js act m) t1 _ (F m act I) S) as (B & _). exact (B (U m act I)). }
  destruct (reset_nodes_ok c (node_numbers c) x (nodup_numbers c)) as (x0 & E & A & _). { intros m I. apply OK. now apply numbers_of. }
  exists x0. split; [exact E|]. intros act' now m I. destruct (sim_node_sys _ _ _ _ _ m RR) as (t1 & _ & S).
  apply (again_like c (js act m) (js act' m) (x m) (x0 m) (nd_sys (y m)) t1); auto.
  - apply (lf_state _ _ (L m I)).
  - specialize (OK m I). rewrite (A m (proj2 (numbers_of c m) I)). now destruct (node_reset c (x m)); cbn in *; subst.
Qed.
Lemma like_completed x a b : like x a b c -> completed_sim c a -> completed_sim c b.
Proof.
  intros L C m I. destruct (C m I) as (C1 & C2). pose proof (sn_state _ _ _ (L m I)) as S. split; [rewrite <- (same_state_crash _ _ S); exact C1|]. intros i J. rewrite <- (same_prog _ _ i S). now apply C2.
Qed.
Lemma batch_fresh acts x : batch c js acts x -> exists acts' act, acts = acts' ++ [act] /\ as_fresh act x.
Proof.
  induction 1 as [act t0 l x O R C|acts x x0 act t0 l x' B IH E O R C].
  - exists [], act. split; [reflexivity|]. exists t0, l, x. split; [exact O|]. split; [exact R|]. split; [exact C|]. intros m I. split; auto using same_refl.
  - destruct IH as (acts' & a0 & -> & FR). exists (acts' ++ [a0]), act. split; [reflexivity|]. destruct (fresh_reset a0 x FR) as (x1 & E1 & L). rewrite E in E1. injection E1 as <-.
    pose proof (sim_run_same c x l _ _ (L act t0)) as G. rewrite R in G. destruct (sim_run c l (sim_first c t0 (js act))) as [y|] eqn:RY; [|contradiction].
    exists t0, l, y. split; [exact O|]. split; [exact RY|]. split; [exact (like_completed _ _ _ G C)|]. intros m I. destruct (G m I). split; auto.
Qed.
End Batch.
