(** Proofs about nodes: cycle counts, reset and the second run. *)
From Verif Require Import PyBase PyLemmas ConfigModel MemoryModel VfuModel FloatModel MvmuModel CoreModel DramModel DramSpec DramProofs RouterModel RouterSpec
  SystemModel SystemSpec SystemBase SystemInv SystemClaims NodeModel NodeSpec NodeProofs NodeWipe NodeReset MemoryProofs.
From Coq Require Import ZifyBool ZifyNat FunctionalExtensionality.

Lemma nd_reach_sys c j t n : nd_reach c j t n -> exists t0, t0 <= t /\ sreach c j t0 (nd_sys n).
Proof.
  induction 1 as [t|t t' a n n' R (t0 & L & IH) T H]; [exists t; split; [lia|apply sr_start]|]. unfold node_step in H. destruct (_ <? _); [discriminate|]. destruct a as [a|].
  - destruct (sstep c t' a (nd_sys n)) as [s|] eqn:E; [|discriminate]. injection H as <-. cbn. exists t'. split; [lia|]. eapply sr_step; [exact IH| |exact E]. lia.
  - destruct (negb _); [discriminate|]. injection H as <-. exists t0. split; [lia|exact IH].
Qed.

(** Which steps change a tile's program and a core's end. *)
Lemma prog_kept c now a s s' i : sstep c now a s = Some s' -> a <> STile i -> t_prog (s_tile s' i) = t_prog (s_tile s i).
Proof.
  unfold sstep, sstep_cap. destruct (s_crash s); [discriminate|]. intros H N. destruct a as [k a|a|k m|k].
  - destruct (_ || _); [discriminate|]. destruct (dstep _ _ _ _); [|discriminate]. injection H as <-. cbn. unfold set_fun. destruct (Z.eqb_spec i k) as [->|]; reflexivity.
  - destruct (negb _); [discriminate|]. destruct (nstep_cap _ _ _ _ _); [|discriminate]. injection H as <-. reflexivity.
  - destruct (_ || _); [discriminate|]. destruct (nth_error _ _); [|discriminate]. destruct (core_step_sys _ _ _ _ _) as [|e|(d & p)]; [discriminate| |]; injection H as <-; cbn; [reflexivity|].
    unfold set_fun. destruct (Z.eqb_spec i k) as [->|]; reflexivity.
  - destruct (negb _); [discriminate|]. destruct (tile_step _ _ _ _ _ _) as [|e|(n & t)]; [discriminate| |]; injection H as <-; cbn; [reflexivity|].
    unfold set_fun. destruct (Z.eqb_spec i k) as [->|]; [congruence|reflexivity].
Qed.
Lemma end_kept c now a s s' i k : 0 <= k -> sstep c now a s = Some s' -> a <> SCore i k -> core_halted s' i k = core_halted s i k.
Proof.
  unfold sstep, sstep_cap, core_halted. destruct (s_crash s); [discriminate|]. intros K H N. destruct a as [x a|a|x m|x].
  - destruct (_ || _); [discriminate|]. destruct (dstep _ _ _ _); [|discriminate]. injection H as <-. cbn. unfold set_fun. destruct (Z.eqb_spec i x) as [->|]; reflexivity.
  - destruct (negb _); [discriminate|]. destruct (nstep_cap _ _ _ _ _); [|discriminate]. injection H as <-. reflexivity.
  - destruct (_ || _) eqn:G; [discriminate|]. destruct (nth_error (t_cores (s_tile s x)) (Z.to_nat m)) eqn:NE; [|discriminate]. destruct (core_step_sys _ _ _ _ _) as [|e|(d & p)]; [discriminate| |]; injection H as <-; cbn; [reflexivity|].
    unfold set_fun. destruct (Z.eqb_spec i x) as [->|]; [|reflexivity]. cbn. rewrite nth_error_upd. replace (Z.to_nat m =? Z.to_nat k)%nat with false; [reflexivity|]. symmetry. apply Nat.eqb_neq. intros E. apply N. f_equal. lia.
  - destruct (negb _); [discriminate|]. destruct (tile_step _ _ _ _ _ _) as [|e|(n & t)] eqn:E; [discriminate| |]; injection H as <-; cbn; [reflexivity|].
    unfold set_fun. destruct (Z.eqb_spec i x) as [->|]; [|reflexivity]. apply tile_step_go, tile_go_cores in E. now rewrite E.
Qed.

(** ** Cycle counts of a first run (C61) *)
Lemma cycles c j t n : 0 <= y_size c -> nd_reach c j t n -> cycles_ok c j t n.
Proof.
  intros SZ. induction 1 as [t|t t' a n n' R IH T H].
  - split; cbn; intros; try lia; [destruct (is_nil _); lia|]. destruct (is_nil _); lia.
  - pose proof (nd_reach_sys _ _ _ _ R) as (t0 & L0 & RS). unfold node_step in H. destruct (nd_next n <? t') eqn:NX; [discriminate|]. destruct a as [a|].
    + destruct (sstep c t' a (nd_sys n)) as [s|] eqn:E; [|discriminate]. injection H as <-. destruct IH as [N S B C TL BO].
      assert (CC : forall i k x, match a with SCore i0 k0 => if core_halted s i0 k0 && negb (core_halted (nd_sys n) i0 k0)
           then set_fun (nd_core_cycles n) i0 (set_fun (nd_core_cycles n i0) k0 (t' - nd_start n)) else nd_core_cycles n | _ => nd_core_cycles n end i k = x ->
           x = nd_core_cycles n i k \/ (x = t' - nd_start n /\ a = SCore i k /\ core_halted (nd_sys n) i k = false)).
      { intros i k x <-. destruct a as [| |i0 k0|]; auto. destruct (core_halted s i0 k0 && negb (core_halted (nd_sys n) i0 k0)) eqn:G; auto.
        unfold set_fun. destruct (Z.eqb_spec i i0) as [->|]; auto. destruct (Z.eqb_spec k k0) as [->|]; auto. right. repeat split. destruct (core_halted (nd_sys n) i0 k0); [lia|reflexivity]. }
      assert (TC : forall i x, match a with STile i0 => if is_nil (t_prog (s_tile s i0)) && negb (is_nil (t_prog (s_tile (nd_sys n) i0)))
           then set_fun (nd_tile_cycles n) i0 (t' - nd_start n) else nd_tile_cycles n | _ => nd_tile_cycles n end i = x ->
           (x = nd_tile_cycles n i /\ (t_prog (s_tile s i) = [] -> t_prog (s_tile (nd_sys n) i) = [])) \/ x = t' - nd_start n).
      { intros i x <-. destruct (match a with STile i0 => i0 =? i | _ => false end) eqn:A.
        - destruct a as [| | |i0]; try discriminate A. apply Z.eqb_eq in A. subst i0. destruct (is_nil (t_prog (s_tile s i)) && negb (is_nil (t_prog (s_tile (nd_sys n) i)))) eqn:G.
          + right. apply set_fun_eq.
          + left. split; [reflexivity|]. intros P. rewrite P in G. cbn in G. destruct (t_prog (s_tile (nd_sys n) i)); [reflexivity|discriminate G].
        - left. split; [|intros P; erewrite prog_kept in P; [exact P|exact E|]; intros ->; lia].
          destruct a as [| | |i0]; try reflexivity. destruct (_ && _); [|reflexivity]. apply set_fun_neq. lia. }
      split; cbn [nd_next nd_start nd_busy nd_core_cycles nd_tile_cycles nd_sys]; try lia.
      * intros i k. destruct (CC i k _ eq_refl) as [X|(X & _)]; rewrite X; [specialize (C i k)|]; lia.
      * intros i. destruct (TC i _ eq_refl) as [(X & _)|X]; rewrite X; [specialize (TL i)|]; lia.
      * intros i k K HA P. destruct (CC i k _ eq_refl) as [X|(X & A & NH)]; rewrite X.
        -- destruct (TC i _ eq_refl) as [(Y & Q)|Y]; rewrite Y; [apply BO; auto|specialize (C i k); lia].
        -- exfalso. assert (P0 : t_prog (s_tile (nd_sys n) i) = []) by (rewrite <- P; symmetry; eapply prog_kept; [exact E|]; rewrite A; discriminate).
           destruct (halted_is_quiet c j t0 _ i SZ RS HA P0) as (AHL & _). subst a. unfold sstep, sstep_cap in E. destruct (s_crash (nd_sys n)); [discriminate|].
           destruct (_ || _); [discriminate|]. unfold core_halted in NH. destruct (nth_error (t_cores (s_tile (nd_sys n) i)) (Z.to_nat k)) as [p|] eqn:NE; [|discriminate E].
           rewrite Forall_forall in AHL. specialize (AHL p (nth_error_In _ _ NE)). unfold halted in NH. rewrite AHL in NH. discriminate NH.
    + destruct (t' =? nd_next n) eqn:Q; [|discriminate]. cbn in H. injection H as <-. destruct IH as [N S B C TL BO].
      split; cbn [nd_next nd_start nd_busy nd_core_cycles nd_tile_cycles nd_sys]; try lia.
      * destruct (queue_busy c (nd_sys n)); lia.
      * intros i. specialize (TL i). lia.
      * exact BO.
Qed.

(** ** The second run (C57) *)
Lemma same_halted a b i k : same_state a b -> core_halted a i k = core_halted b i k.
Proof.
  intros (_ & _ & _ & H). destruct (H i) as (_ & _ & _ & _ & E). pose proof (nth_same _ _ (Z.to_nat k) E) as N. unfold core_halted.
  destruct (nth_error (t_cores (s_tile a i)) (Z.to_nat k)), (nth_error (t_cores (s_tile b i)) (Z.to_nat k)); try contradiction; [|reflexivity].
  apply dest_hp in N as (_ & _ & PH & _). unfold halted. now rewrite PH.
Qed.
Lemma same_prog a b i : same_state a b -> t_prog (s_tile a i) = t_prog (s_tile b i).
Proof. intros (_ & _ & _ & H). destruct (H i) as (_ & E & _). exact E. Qed.
Lemma same_busy c a b : same_state a b -> queue_busy c a = queue_busy c b.
Proof.
  intros (_ & NC & NR & _). unfold queue_busy. induction (zrange (w_tiles (y_net c))) as [|i l IH]; [reflexivity|]. cbn. now rewrite IH, NR.
Qed.

Definition same_optn (n : node) (x y : option node) : Prop := match x, y with None, None => True | Some a, Some b => same_node n a b | _, _ => False end.
Lemma node_step_same c now x n a b : same_node n a b -> same_optn n (node_step c now x a) (node_step c now x b).
Proof.
  intros [S ST NX B TL CO]. unfold node_step. rewrite NX. destruct (_ <? _); [exact I|]. destruct x as [x|].
  - pose proof (sstep_same buffer_capacity c now x _ _ S) as G. fold sstep in G. unfold same_opt in G. change (sstep_cap buffer_capacity c now x) with (sstep c now x) in G.
    destruct (sstep c now x (nd_sys a)) as [sa|] eqn:EA, (sstep c now x (nd_sys b)) as [sb|] eqn:EB; try contradiction; [|exact I].
    split; cbn [nd_sys nd_start nd_next nd_busy nd_tile_cycles nd_core_cycles]; auto.
    + intros i P. destruct (match x with STile i0 => i0 =? i | _ => false end) eqn:A.
      * destruct x as [| | |i0]; try discriminate A. apply Z.eqb_eq in A. subst i0. rewrite !(same_prog _ _ i G), !(same_prog _ _ i S), P. cbn [is_nil andb].
        destruct (t_prog (s_tile (nd_sys b) i)) eqn:Q; cbn [is_nil negb]; [now apply TL|]. now rewrite !set_fun_eq, ST.
      * assert (Q : t_prog (s_tile (nd_sys b) i) = []) by (rewrite <- P; symmetry; eapply prog_kept; [exact EB|]; intros ->; lia).
        destruct x as [| | |i0]; auto. rewrite (same_prog _ _ i0 G), (same_prog _ _ i0 S). destruct (_ && _); [rewrite !set_fun_neq by lia|]; auto.
    + intros i k K P. destruct (match x with SCore i0 k0 => (i0 =? i) && (k0 =? k) | _ => false end) eqn:A.
      * destruct x as [| |i0 k0|]; try discriminate A. assert (i0 = i) by lia. assert (k0 = k) by lia. subst i0 k0. rewrite !(same_halted _ _ i k G), !(same_halted _ _ i k S), P. cbn [andb].
        destruct (core_halted (nd_sys b) i k) eqn:Q; cbn [negb]; [now apply CO|]. now rewrite !set_fun_eq, ST.
      * assert (Q : core_halted (nd_sys b) i k = true) by (rewrite <- P; symmetry; eapply end_kept; [exact K|exact EB|]; intros ->; lia).
        destruct x as [| |i0 k0|]; try now apply CO. rewrite (same_halted _ _ i0 k0 G), (same_halted _ _ i0 k0 S). destruct (core_halted sb i0 k0 && _); [|now apply CO].
        unfold set_fun. destruct (i =? i0) eqn:I0; [|now apply CO]. destruct (k =? k0) eqn:K0; [lia|]. replace i0 with i by lia. now apply CO.
  - destruct (negb _); [exact I|]. split; cbn; auto; try lia. rewrite (same_busy c _ _ S). destruct (queue_busy c (nd_sys b)); lia.
Qed.
Lemma nd_run_same c n l : forall a b, same_node n a b -> same_optn n (nd_run c l a) (nd_run c l b).
Proof.
  induction l as [|(t & x) l IH]; intros a b S; cbn [nd_run]; [exact S|]. pose proof (node_step_same c t x n a b S) as G. unfold same_optn in G.
  destruct (node_step c t x a), (node_step c t x b); try contradiction; [now apply IH|exact I].
Qed.
Lemma second_run c j t n : 0 <= y_size c -> fresh_job c j -> units_have_rram c j -> all_halt c j -> nd_reach c j t n -> completed_run c (nd_sys n) ->
  exists n0, node_reset c n = (Ok tt, n0) /\
    forall j' now l, same_programs j j' ->
                  match nd_run c l (node_again c now j' n0), nd_run c l (node_first c now j') with
                  | Some a, Some b => same_node n a b | None, None => True | _, _ => False end.
Proof.
  intros SZ F U AH R D. destruct (nd_reach_sys _ _ _ _ R) as (t0 & _ & RS). destruct (run_again c j t0 _ SZ F U AH RS D) as (s0 & E & S). unfold node_reset. rewrite E.
  eexists. split; [reflexivity|]. intros j' now l JJ. apply (nd_run_same c n l). split; cbn; auto.
  - intros i P. rewrite P. reflexivity.
  - intros i k K. unfold core_halted. cbn. rewrite nth_error_map. destruct (nth_error (j_cores j' i) (Z.to_nat k)); cbn; discriminate.
Qed.

(** ** Reset (C52, C53) *)
Lemma node_reset_keeps c n : nd_busy (snd (node_reset c n)) = nd_busy n /\ nd_tile_cycles (snd (node_reset c n)) = nd_tile_cycles n /\ nd_core_cycles (snd (node_reset c n)) = nd_core_cycles n.
Proof. unfold node_reset. destruct (sys_reset c (nd_sys n)). auto. Qed.
Lemma node_restores c j t n : 0 <= y_size c -> fresh_job c j -> units_have_rram c j -> nd_reach c j t n ->
  exists n', node_reset c n = (Ok tt, n') /\ forall i, on_node c i -> restored c j i (nd_sys n') /\
    (In THalt (j_prog j i) -> t_prog (s_tile (nd_sys n) i) = [] -> let d := t_dram (s_tile (nd_sys n') i) in
       d_running d = false /\ d_queue d = [] /\ d_pending d = [] /\ d_bus d = [] /\ r_queue (n_router (s_net (nd_sys n')) i) = []).
Proof.
  intros SZ F U R. destruct (nd_reach_sys _ _ _ _ R) as (t0 & _ & RS). destruct (reset_restores c j t0 _ SZ F U RS) as (s' & E & _ & _ & H). unfold node_reset. rewrite E.
  eexists. split; [reflexivity|]. cbn [nd_sys]. intros i I. destruct (H i I) as (D & N & RE). split; [exact RE|]. intros HA P. cbv zeta. rewrite D, N. cbn.
  destruct (halted_is_quiet c j t0 _ i SZ RS HA P) as (_ & _ & H3 & _ & _ & H6 & H7 & H8 & H9 & _). auto.
Qed.
Lemma node_reset_result c j t n : fresh_job c j -> nd_reach c j t n ->
  (fst (node_reset c n) = Ok tt <-> units_have_rram c j) /\ (fst (node_reset c n) = Raise AttributeError <-> ~ units_have_rram c j).
Proof.
  intros F R. destruct (nd_reach_sys _ _ _ _ R) as (t0 & _ & RS). destruct (reset_result c j t0 _ F RS) as (A & B).
  assert (EQ : fst (node_reset c n) = fst (sys_reset c (nd_sys n))) by (unfold node_reset; destruct (sys_reset c (nd_sys n)); reflexivity). rewrite EQ.
  assert (DEC : units_have_rram c j \/ ~ units_have_rram c j).
  { unfold units_have_rram. destruct (have_rram _); [tauto|].
    destruct (existsb (fun i => existsb (fun x => negb (is_nil (co_mvmus (fst x)))) (j_cores j i)) (zrange (w_tiles (y_net c)))) eqn:E.
    - right. intros [X|X]; [discriminate X|]. apply existsb_exists in E as (i & I & E). apply existsb_exists in E as (x & Y & E). apply tiles_of in I. specialize (X i I).
      rewrite Forall_forall in X. now rewrite (X x Y) in E.
    - left. right. intros i I. apply Forall_forall. intros x X. destruct (co_mvmus (fst x)) eqn:Z; [reflexivity|]. exfalso. apply not_true_iff_false in E. apply E.
      apply existsb_exists. exists i. split; [now apply tiles_of|]. apply existsb_exists. exists x. split; [exact X|]. now rewrite Z. }
  split; split; intros H; auto.
  - destruct DEC as [D|D]; [exact D|]. rewrite (B D) in H. discriminate H.
  - intros D. rewrite (A D) in H. discriminate H.
Qed.

Lemma queue_busy_iff c s : queue_busy c s = true <-> packet_waits c s.
Proof.
  unfold queue_busy, packet_waits. rewrite existsb_exists. split.
  - intros (i & I & H). apply in_zrange in I. apply andb_prop in H as [H1 H2]. exists i. split; [exact I|]. split; [exact H1|].
    intros E. rewrite E in H2. discriminate.
  - intros (i & I & H1 & H2). exists i. split; [now apply in_zrange|]. rewrite H1. destruct (r_queue (n_router (s_net s) i)) as [|p l]; [congruence|].
    unfold zlen. cbn [length andb]. lia.
Qed.
Theorem busy_samples c t a n n' : node_step c t a n = Some n' ->
  (a = NdMonitor /\ packet_waits c (nd_sys n) -> nd_busy n' = nd_busy n + 1) /\
  (~ (a = NdMonitor /\ packet_waits c (nd_sys n)) -> nd_busy n' = nd_busy n).
Proof.
  unfold node_step. destruct (nd_next n <? t); [discriminate|]. destruct a as [a|].
  - destruct (sstep c t a (nd_sys n)); [|discriminate]. intros [= <-]. cbn. split; [intros [D _]; discriminate|reflexivity].
  - destruct (negb (t =? nd_next n)); [discriminate|]. intros [= <-]. cbn. pose proof (queue_busy_iff c (nd_sys n)) as Q. split.
    + intros [_ W]. apply Q in W. now rewrite W.
    + intros W. destruct (queue_busy c (nd_sys n)); [|reflexivity]. exfalso. apply W. split; [reflexivity|now apply Q].
Qed.
