From Verif Require Import PyBase PyLemmas ConfigModel MemoryModel MemorySpec MemoryProofs VfuModel VfuSpec VfuProofs
  FloatModel MvmuModel MvmuSpec MvmuLists MvmuLoad MvmuRun MvmuProofs MvmuUse MvmuCount CoreModel CoreSpec.
From Coq Require Import ZifyBool ZifyNat.
Ltac Zify.zify_post_hook ::= Z.div_mod_to_equations.
Open Scope Z_scope.

(** ** Reached units and cores *)
Lemma reached_step c u o : reached c u -> reached c (mv_step c u o).
Proof. intros (ops & ->). exists (ops ++ [o]). unfold mv_run. now rewrite fold_left_app. Qed.

Record core_inv (c : core_cfg) (k : core) : Prop := {
  ki_cache : exists h, co_cache k = mem_run (mem_init (k_cache c)) h;
  ki_len : length (co_mvmus k) = Z.to_nat (k_mvmus c);
  ki_units : Forall (reached (k_mv c)) (co_mvmus k) }.

Lemma inv_init c : core_inv c (core_init c).
Proof.
  split; cbn.
  - exists []. reflexivity.
  - apply repeat_length.
  - apply Forall_forall. intros u Hu. apply repeat_spec in Hu. subst. exists []. reflexivity.
Qed.

Lemma mem_run_snoc m h a : mem_run m (h ++ [a]) = mem_step (mem_run m h) a.
Proof. now rewrite mem_run_app. Qed.

Lemma inv_set_cache c k a : core_inv c k -> core_inv c (set_cache k (mem_step (co_cache k) a)).
Proof.
  intros [[h E] L U]. split; cbn; [|assumption|assumption]. exists (h ++ [a]). now rewrite mem_run_snoc, <- E.
Qed.

Lemma inv_set_mvmu c k i u o : core_inv c k -> nth_error (co_mvmus k) (Z.to_nat i) = Some u ->
  core_inv c (set_mvmu k i (mv_step (k_mv c) u o)).
Proof.
  intros [C L U] E. split; cbn; [assumption|now rewrite length_upd|].
  apply Forall_upd; [assumption|]. apply reached_step. rewrite Forall_forall in U. apply U. eapply nth_error_In; eassumption.
Qed.

Lemma get_mvmu_ok k i u : get_mvmu k i = Ok u <->
  0 <= i < zlen (co_mvmus k) /\ nth_error (co_mvmus k) (Z.to_nat i) = Some u.
Proof.
  unfold get_mvmu. destruct ((i <? 0) || (zlen (co_mvmus k) <=? i)) eqn:E.
  - split; [discriminate|lia].
  - destruct (nth_error (co_mvmus k) (Z.to_nat i)).
    + split; [intros [= ->]; split; [lia|reflexivity]|intros [_ [= ->]]; reflexivity].
    + split; [discriminate|intros [_ [=]]].
Qed.

Lemma get_mvmu_raise k i e : get_mvmu k i = Raise e -> e = IndexError /\ (i < 0 \/ zlen (co_mvmus k) <= i).
Proof.
  unfold get_mvmu, zlen. destruct ((i <? 0) || (Z.of_nat (length (co_mvmus k)) <=? i)) eqn:E.
  - intros [= <-]. split; [reflexivity|lia].
  - destruct (nth_error (co_mvmus k) (Z.to_nat i)) eqn:F; [discriminate|]. intros _.
    apply nth_error_None in F. lia.
Qed.

Lemma exec_mvm_inv c xs : forall k, core_inv c k -> core_inv c (snd (exec_mvm c k xs)).
Proof.
  induction xs as [|i xs IH]; intros k I; cbn [exec_mvm]; [assumption|].
  destruct (get_mvmu k i) as [u|e] eqn:E; [|assumption]. apply get_mvmu_ok in E. apply IH.
  now apply (inv_set_mvmu c k i u OMvm).
Qed.

Lemma reset_mvmus_inv c us : Forall (reached c) us ->
  Forall (reached c) (snd (reset_mvmus c us)) /\ length (snd (reset_mvmus c us)) = length us.
Proof.
  induction 1 as [|u us Hu Hus [IH IHl]]; cbn [reset_mvmus]; [split; [constructor|reflexivity]|].
  pose proof (reached_step c u OReset Hu) as S. cbn [mv_step] in S.
  destruct (mvmu_reset c u) as [[[]|e] u'] eqn:E; cbn [snd] in S.
  - destruct (reset_mvmus c us) as [r us']. cbn [snd] in *. split; [constructor; assumption|cbn; lia].
  - cbn. split; [constructor; assumption|reflexivity].
Qed.

Lemma set_mvmu_self k i u : nth_error (co_mvmus k) (Z.to_nat i) = Some u -> set_mvmu k i u = k.
Proof.
  intros E. destruct k as [m v us]. unfold set_mvmu. cbn [co_cache co_vfu co_mvmus] in *. f_equal.
  rewrite <- (upd_nth_self u us (Z.to_nat i)) at 2. f_equal. now rewrite (nth_error_nth _ _ _ E).
Qed.

Lemma core_step_inv c k o : core_inv c k -> core_inv c (core_step c k o).
Proof.
  intros I. destruct o as [s d|s l|xs|op a b|i w|]; cbn [core_step].
  - unfold write_to_register.
    destruct ((s <? 0) || (total_registers c <? s + zlen d)); [assumption|].
    destruct (overlaps_output c s (s + zlen d)); [assumption|].
    destruct (cache_start c <=? s).
    + pose proof (inv_set_cache c k (MW (s - cache_start c) d 1) I) as J. cbn [mem_step] in J.
      now destruct (mem_write (co_cache k) (s - cache_start c) d 1) as [r m].
    + destruct (mvmu_id_of c s (s + zlen d)) as [i|e]; [|assumption].
      destruct (nth_error (co_mvmus k) (Z.to_nat i)) as [u|] eqn:E; [|assumption].
      pose proof (inv_set_mvmu c k i u (OWrite (s mod c_size (k_mv c)) d) I E) as J. cbn [mv_step] in J.
      now destruct (write_to_inreg u (s mod c_size (k_mv c)) d) as [r u'].
  - unfold read_from_register.
    destruct ((s <? 0) || (total_registers c <? s + l)); [assumption|].
    destruct (s <? outreg_start c); [assumption|].
    destruct (cache_start c <=? s).
    + pose proof (inv_set_cache c k (MR (s - cache_start c) l 1) I) as J. cbn [mem_step] in J.
      now destruct (mem_read (co_cache k) (s - cache_start c) l 1) as [r m].
    + destruct (mvmu_id_of c s (s + l)) as [i|e]; [|assumption].
      destruct (nth_error (co_mvmus k) (Z.to_nat i)) as [u|] eqn:E; [|assumption].
      pose proof (inv_set_mvmu c k i u (ORead (s mod c_size (k_mv c)) l) I E) as J. cbn [mv_step] in J.
      now destruct (read_from_outreg (k_mv c) u (s mod c_size (k_mv c)) l) as [r u'].
  - now apply exec_mvm_inv.
  - destruct I as [C L U]. split; assumption.
  - destruct (get_mvmu k i) as [u|e] eqn:E; [|assumption]. apply get_mvmu_ok in E.
    now apply (inv_set_mvmu c k i u (OLoad w)).
  - unfold core_reset. destruct I as [[h E] L U]. destruct (reset_mvmus_inv (k_mv c) (co_mvmus k) U) as [R1 R2].
    destruct (reset_mvmus (k_mv c) (co_mvmus k)) as [r us]. cbn [snd] in *. split; cbn.
    + exists (h ++ [MZ]). now rewrite mem_run_snoc, <- E.
    + now rewrite R2.
    + assumption.
Qed.

Lemma core_run_inv c ops : forall k, core_inv c k -> core_inv c (core_run c k ops).
Proof. induction ops as [|o ops IH]; intros k I; [assumption|]. apply IH. now apply core_step_inv. Qed.

Lemma reached_inv c k : core_reached c k -> core_inv c k.
Proof. intros (ops & ->). apply core_run_inv, inv_init. Qed.

(** ** The address map *)
Section Geometry.
Context (cfg : list bitcfg) (ww : Z) (c : core_cfg) (OK : core_ok cfg ww c).
Notation n := (c_size (k_mv c)).
Notation m := (k_mvmus c).

Lemma n_pos : 0 < n. Proof. exact (ok_size _ _ _ (core_ok_mv _ _ _ OK)). Qed.
Lemma m_pos : 1 <= m. Proof. exact (core_ok_mvmus _ _ _ OK). Qed.
Lemma q_nonneg : 0 <= k_cache c. Proof. exact (core_ok_cache _ _ _ OK). Qed.
Lemma mn_pos : n <= m * n. Proof. pose proof n_pos; pose proof m_pos; nia. Qed.

Lemma place_in a u o : place_of c a = Some (PIn u o) <->
  0 <= u < m /\ 0 <= o < n /\ a = u * n + o.
Proof.
  pose proof n_pos as N. pose proof m_pos as M. pose proof q_nonneg as Q. unfold place_of. split.
  - destruct (a <? 0) eqn:E1; [discriminate|]. destruct (a <? m * n) eqn:E2.
    + intros [= <- <-]. pose proof (Z.div_mod a n ltac:(lia)). pose proof (Z.mod_pos_bound a n N).
      assert (0 <= a / n) by (apply Z.div_pos; lia). assert (a / n < m) by (apply Z.div_lt_upper_bound; lia). lia.
    + destruct (a <? 2 * (m * n)); [discriminate|]. destruct (a <? 2 * (m * n) + k_cache c); discriminate.
  - intros (Hu & Ho & ->). assert (0 <= u * n + o < m * n) by nia.
    replace (u * n + o <? 0) with false by lia. replace (u * n + o <? m * n) with true by lia.
    rewrite Z.div_add_l by lia. rewrite (Z.div_small o n) by lia. rewrite (Z.add_comm (u * n) o), Z.mod_add by lia.
    rewrite (Z.mod_small o n) by lia. do 2 f_equal. lia.
Qed.

Lemma place_out a u o : place_of c a = Some (POut u o) <->
  0 <= u < m /\ 0 <= o < n /\ a = m * n + u * n + o.
Proof.
  pose proof n_pos as N. pose proof m_pos as M. pose proof q_nonneg as Q. pose proof mn_pos as MN. unfold place_of. split.
  - destruct (a <? 0) eqn:E1; [discriminate|]. destruct (a <? m * n) eqn:E2; [discriminate|].
    destruct (a <? 2 * (m * n)) eqn:E3.
    + intros [= <- <-]. pose proof (Z.div_mod (a - m * n) n ltac:(lia)). pose proof (Z.mod_pos_bound (a - m * n) n N).
      assert (0 <= (a - m * n) / n) by (apply Z.div_pos; lia).
      assert ((a - m * n) / n < m) by (apply Z.div_lt_upper_bound; lia). lia.
    + destruct (a <? 2 * (m * n) + k_cache c); discriminate.
  - intros (Hu & Ho & ->). assert (0 <= u * n + o < m * n) by nia.
    replace (m * n + u * n + o <? 0) with false by lia. replace (m * n + u * n + o <? m * n) with false by lia.
    replace (m * n + u * n + o <? 2 * (m * n)) with true by lia.
    replace (m * n + u * n + o - m * n) with (u * n + o) by lia.
    rewrite Z.div_add_l by lia. rewrite (Z.div_small o n) by lia. rewrite (Z.add_comm (u * n)), Z.mod_add by lia.
    rewrite (Z.mod_small o n) by lia. do 2 f_equal. lia.
Qed.

Lemma place_cache a o : place_of c a = Some (PCache o) <-> 0 <= o < k_cache c /\ a = 2 * (m * n) + o.
Proof.
  pose proof n_pos as N. pose proof m_pos as M. pose proof q_nonneg as Q. pose proof mn_pos as MN. unfold place_of. split.
  - destruct (a <? 0) eqn:E1; [discriminate|]. destruct (a <? m * n) eqn:E2; [discriminate|].
    destruct (a <? 2 * (m * n)) eqn:E3; [discriminate|].
    destruct (a <? 2 * (m * n) + k_cache c) eqn:E4; [|discriminate]. intros H.
    assert (a - 2 * (m * n) = o) by congruence. lia.
  - intros (Ho & ->).
    replace (2 * (m * n) + o <? 0) with false by lia. replace (2 * (m * n) + o <? m * n) with false by lia.
    replace (2 * (m * n) + o <? 2 * (m * n)) with false by lia.
    replace (2 * (m * n) + o <? 2 * (m * n) + k_cache c) with true by lia. do 2 f_equal. lia.
Qed.

Lemma place_injective a b p : place_of c a = Some p -> place_of c b = Some p -> a = b.
Proof.
  destruct p as [u o|u o|o]; intros H1 H2.
  - apply place_in in H1, H2. lia.
  - apply place_out in H1, H2. lia.
  - apply place_cache in H1, H2. lia.
Qed.

Lemma place_defined a : place_of c a <> None <-> 0 <= a < 2 * (m * n) + k_cache c.
Proof.
  pose proof mn_pos as MN. pose proof n_pos as N. pose proof q_nonneg as Q. unfold place_of.
  destruct (a <? 0) eqn:E1; [split; [congruence|lia]|].
  destruct (a <? m * n) eqn:E2; [split; [lia|congruence]|].
  destruct (a <? 2 * (m * n)) eqn:E3; [split; [lia|congruence]|].
  destruct (a <? 2 * (m * n) + k_cache c) eqn:E4; split; (congruence || lia).
Qed.

(** Division facts of the range checks. *)
Lemma same_unit s len : 0 < len ->
  (s / n = (s + len - 1) / n <-> s mod n + len <= n).
Proof.
  intros Hl. pose proof n_pos as N.
  pose proof (Z.div_mod s n ltac:(lia)) as D1. pose proof (Z.mod_pos_bound s n N) as B1. split.
  - intros E. pose proof (Z.div_mod (s + len - 1) n ltac:(lia)) as D2.
    pose proof (Z.mod_pos_bound (s + len - 1) n N) as B2. rewrite <- E in D2. lia.
  - intros H. apply Z.div_unique with (r := s mod n + len - 1); [left; lia|]. lia.
Qed.

Lemma all_cache_iff s len : 0 < len -> (all_cache c s len <-> 2 * (m * n) <= s /\ s + len <= 2 * (m * n) + k_cache c).
Proof.
  intros Hl. split.
  - intros H. destruct (H 0 ltac:(lia)) as [o Ho]. destruct (H (len - 1) ltac:(lia)) as [o' Ho'].
    apply place_cache in Ho, Ho'. lia.
  - intros H i Hi. exists (s + i - 2 * (m * n)). apply place_cache. lia.
Qed.

Lemma one_input_iff s len : 0 < len -> (one_input c s len <-> 0 <= s /\ s + len <= m * n /\ s mod n + len <= n).
Proof.
  intros Hl. pose proof n_pos as N. pose proof mn_pos as MN. split.
  - intros [u H]. destruct (H 0 ltac:(lia)) as [o Ho]. destruct (H (len - 1) ltac:(lia)) as [o' Ho'].
    apply place_in in Ho, Ho'. assert (s mod n = o).
    { rewrite Z.add_0_r in Ho. destruct Ho as (_ & B & ->). rewrite (Z.add_comm (u * n) o), Z.mod_add by lia. now apply Z.mod_small. }
    assert (u * n + n <= m * n) by nia. lia.
  - intros (H1 & H2 & H3). exists (s / n). intros i Hi. exists (s mod n + i). apply place_in.
    pose proof (Z.div_mod s n ltac:(lia)). pose proof (Z.mod_pos_bound s n N).
    assert (0 <= s / n) by (apply Z.div_pos; lia). assert (s / n < m) by (apply Z.div_lt_upper_bound; lia). lia.
Qed.

Lemma one_output_iff s len : 0 < len ->
  (one_output c s len <-> m * n <= s /\ s + len <= 2 * (m * n) /\ s mod n + len <= n).
Proof.
  intros Hl. pose proof n_pos as N. pose proof mn_pos as MN.
  assert (MM : (s - m * n) mod n = s mod n) by (rewrite Zminus_mod, Z.mod_mul, Z.sub_0_r, Z.mod_mod; lia).
  split.
  - intros [u H]. destruct (H 0 ltac:(lia)) as [o Ho]. destruct (H (len - 1) ltac:(lia)) as [o' Ho'].
    apply place_out in Ho, Ho'. assert (s mod n = o).
    { rewrite <- MM. replace (s - m * n) with (o + u * n) by lia. rewrite Z.mod_add by lia. apply Z.mod_small. lia. }
    assert (u * n + n <= m * n) by nia. lia.
  - intros (H1 & H2 & H3). exists ((s - m * n) / n). intros i Hi. exists ((s - m * n) mod n + i). apply place_out.
    pose proof (Z.div_mod (s - m * n) n ltac:(lia)). pose proof (Z.mod_pos_bound (s - m * n) n N).
    assert (0 <= (s - m * n) / n) by (apply Z.div_pos; lia).
    assert ((s - m * n) / n < m) by (apply Z.div_lt_upper_bound; lia). lia.
Qed.

(** ** Shapes *)
Lemma cache_wf k : core_inv c k -> mem_wf (co_cache k) /\ msize (co_cache k) = k_cache c.
Proof.
  intros [[h E] _ _]. rewrite E. destruct (mem_run_wf (mem_init (k_cache c)) h (mem_init_wf _ q_nonneg)) as [W S].
  split; [exact W|]. now rewrite S.
Qed.

Lemma unit_shaped k i u : core_inv c k -> nth_error (co_mvmus k) i = Some u -> shaped cfg (k_mv c) u.
Proof.
  intros [_ _ U] E. apply (reached_shaped _ ww). exact (core_ok_mv _ _ _ OK).
  rewrite Forall_forall in U. apply U. eapply nth_error_In; eassumption.
Qed.

Lemma unit_exists k i : core_inv c k -> 0 <= i < m -> exists u, nth_error (co_mvmus k) (Z.to_nat i) = Some u.
Proof.
  intros [_ L _] Hi. destruct (nth_error (co_mvmus k) (Z.to_nat i)) as [u|] eqn:E; [eauto|].
  apply nth_error_None in E. lia.
Qed.

(** ** Writes *)
Lemma cache_start_eq : cache_start c = 2 * (m * n).
Proof. unfold cache_start, outreg_start. lia. Qed.
Lemma outreg_start_eq : outreg_start c = m * n.
Proof. unfold outreg_start. lia. Qed.

Lemma write_inreg_ok u s d : shaped cfg (k_mv c) u -> 0 <= s -> s + zlen d <= n ->
  exists u', write_to_inreg u s d = (Ok tt, u') /\
    inputs u' = blit (inputs u) s (map wrap32 d) /\ outputs u' = outputs u /\ same_cells u u' /\ mv_stat u' = mv_stat u.
Proof.
  intros S Hs Hl. unfold write_to_inreg, inreg_write. rewrite (sh_in _ _ _ S).
  replace ((s <? 0) || (n <? s + zlen d)) with false by lia.
  eexists. split; [reflexivity|]. repeat split.
Qed.

Definition writable (s len : Z) : Prop := all_cache c s len \/ one_input c s len.

Lemma write_cases k s d : core_inv c k -> 0 < zlen d ->
  (all_cache c s (zlen d) /\
   write_to_register c k s d =
     (Ok tt, set_cache k (snd (mem_write (co_cache k) (s - 2 * (m * n)) d 1)))) \/
  (one_input c s (zlen d) /\ exists u u',
     nth_error (co_mvmus k) (Z.to_nat (s / n)) = Some u /\ 0 <= s / n < m /\
     write_to_inreg u (s mod n) d = (Ok tt, u') /\
     inputs u' = blit (inputs u) (s mod n) (map wrap32 d) /\ outputs u' = outputs u /\ same_cells u u' /\
     write_to_register c k s d = (Ok tt, set_mvmu k (s / n) u')) \/
  (~ writable s (zlen d) /\ write_to_register c k s d = (Raise IndexError, k)).
Proof.
  intros I Hd. pose proof n_pos as N. pose proof mn_pos as MN. pose proof q_nonneg as Q.
  unfold write_to_register, writable. rewrite all_cache_iff, one_input_iff by assumption.
  unfold total_registers, overlaps_output. rewrite cache_start_eq, outreg_start_eq.
  destruct ((s <? 0) || (2 * (m * n) + k_cache c <? s + zlen d)) eqn:E1.
  { right; right. split; [lia|reflexivity]. }
  match goal with |- context [if ?b then (Raise IndexError, k) else _] => destruct b eqn:E2 end.
  { right; right. split; [lia|reflexivity]. }
  destruct (2 * (m * n) <=? s) eqn:E3.
  { left. split; [lia|]. destruct (cache_wf k I) as [_ SZ]. unfold mem_write. rewrite SZ.
    replace ((s - 2 * (m * n) <? 0) || (k_cache c <? s - 2 * (m * n) + zlen d)) with false by lia. reflexivity. }
  assert (R : s + zlen d <= m * n) by lia.
  unfold mvmu_id_of. pose proof (same_unit s (zlen d) Hd) as SU.
  replace (s + zlen d - 1) with (s + zlen d - 1) in SU by lia.
  destruct (s / n =? (s + zlen d - 1) / n) eqn:E4; cbn [negb].
  - assert (F : s mod n + zlen d <= n) by (apply SU; lia).
    assert (B : 0 <= s / n < m) by (split; [apply Z.div_pos; lia|apply Z.div_lt_upper_bound; lia]).
    rewrite (Z.mod_small (s / n) m) by exact B.
    destruct (unit_exists k (s / n) I B) as [u Hu]. rewrite Hu.
    right; left. split; [lia|].
    pose proof (Z.mod_pos_bound s n N) as MB.
    destruct (write_inreg_ok u (s mod n) d (unit_shaped k _ u I Hu) ltac:(lia) F) as (u' & E & H1 & H2 & H3 & H4).
    exists u, u'. rewrite E. repeat split; try assumption; try lia; apply H3.
  - right; right. split; [|reflexivity]. assert (~ s mod n + zlen d <= n) by (rewrite <- SU; lia). lia.
Qed.

Lemma nth_error_set_mvmu k i u j : 0 <= i -> (Z.to_nat i < length (co_mvmus k))%nat ->
  nth_error (co_mvmus (set_mvmu k i u)) j = if (j =? Z.to_nat i)%nat then Some u else nth_error (co_mvmus k) j.
Proof.
  intros Hi Hl. cbn. rewrite nth_error_upd. rewrite Nat.eqb_sym. destruct (j =? Z.to_nat i)%nat eqn:E; [|reflexivity].
  apply Nat.eqb_eq in E. subst. destruct (nth_error (co_mvmus k) (Z.to_nat i)) eqn:F; [reflexivity|].
  apply nth_error_None in F. lia.
Qed.

Lemma same_cells_refl u : same_cells u u. Proof. repeat split. Qed.
Lemma same_cells_list us : Forall2 same_cells us us.
Proof. induction us; constructor; [apply same_cells_refl|assumption]. Qed.

Lemma same_rest_refl k : same_rest k k.
Proof. split; [reflexivity|apply same_cells_list]. Qed.

Lemma same_cells_upd us i u u' : nth_error us i = Some u -> same_cells u u' -> Forall2 same_cells us (upd us i u').
Proof.
  revert i; induction us as [|x us IH]; intros [|i]; cbn; try discriminate.
  - intros [= ->] H. constructor; [assumption|apply same_cells_list].
  - intros E H. constructor; [apply same_cells_refl|now apply IH].
Qed.

Lemma nth_map_wrap d i : 0 <= i < zlen d -> is_int32_of (znth 0 (map wrap32 d) i) (znth 0 d i).
Proof. intros H. rewrite znth_map_wrap. apply wrap32_is_int32_of. Qed.

Definition in_block (s : Z) (d : list Z) (p : place) : Prop :=
  exists i, 0 <= i < zlen d /\ place_of c (s + i) = Some p.

Lemma write_effect k s d k' : core_reached c k ->
  write_to_register c k s d = (Ok tt, k') ->
  (forall i p, 0 <= i < zlen d -> place_of c (s + i) = Some p -> is_int32_of (content k' p) (znth 0 d i)) /\
  (forall p, ~ in_block s d p -> content k' p = content k p \/ forall a, place_of c a <> Some p) /\
  same_rest k k'.
Proof.
  intros R E. pose proof (reached_inv _ _ R) as I. pose proof n_pos as N. pose proof mn_pos as MN. pose proof q_nonneg as Q.
  destruct (Z.eq_dec (zlen d) 0) as [Z0|NZ].
  { (* empty data *)
    assert (d = []) by (destruct d; [reflexivity|unfold zlen in Z0; cbn in Z0; lia]). subst d.
    assert (G : (forall p, content k' p = content k p) /\ same_rest k k').
    { unfold write_to_register in E. cbn [zlen length Z.of_nat] in E.
      destruct ((s <? 0) || _) eqn:E1 in E; [discriminate|]. destruct (overlaps_output _ _ _); [discriminate|].
      destruct (cache_start c <=? s) eqn:E3.
      - unfold mem_write in E. cbn [zlen length Z.of_nat map] in E.
        destruct ((s - cache_start c <? 0) || (msize (co_cache k) <? s - cache_start c + 0)) eqn:E4; [discriminate|].
        injection E as <-. destruct (cache_wf k I) as [[_ W] SZ].
        split; [|split; [reflexivity|apply same_cells_list]]. intros [u o|u o|o]; try reflexivity. cbn [content].
        cbn. unfold blit. cbn [length]. rewrite app_nil_l, Nat.add_0_r, firstn_skipn. reflexivity.
      - destruct (mvmu_id_of c s (s + 0)) as [i|]; [|discriminate].
        destruct (nth_error (co_mvmus k) (Z.to_nat i)) as [u|] eqn:U; [|discriminate].
        assert (WI : forall u1 r, write_to_inreg u (s mod n) [] = (r, u1) -> inputs u1 = inputs u /\ outputs u1 = outputs u /\ same_cells u u1).
        { intros u1 r. unfold write_to_inreg, inreg_write. cbn [zlen length Z.of_nat map].
          destruct ((s mod n <? 0) || (in_size (mv_in u) <? s mod n + 0)); intros [= _ <-].
          - repeat split.
          - split; [|repeat split]. unfold inputs. cbn. unfold blit. cbn [length]. rewrite app_nil_l, Nat.add_0_r. apply firstn_skipn. }
        destruct (write_to_inreg u (s mod n) []) as [r u1] eqn:W. injection E as -> <-.
        destruct (WI _ _ eq_refl) as (W1 & W2 & W3).
        split; [|split; [reflexivity|now apply (same_cells_upd _ _ u)]].
        intros p. assert (G : forall j, nth_error (co_mvmus (set_mvmu k i u1)) j = nth_error (co_mvmus k) j \/
          (nth_error (co_mvmus (set_mvmu k i u1)) j = Some u1 /\ nth_error (co_mvmus k) j = Some u)).
        { intros j. cbn. rewrite nth_error_upd. destruct (Z.to_nat i =? j)%nat eqn:J; [|now left].
          apply Nat.eqb_eq in J. subst j. rewrite U. now right. }
        destruct p as [v o|v o|o]; [| |reflexivity]; cbn [content]; destruct (G (Z.to_nat v)) as [->|[-> ->]];
          try reflexivity; [now rewrite W1|now rewrite W2]. }
    destruct G as [G1 G2]. split; [cbn; intros i p Hi; unfold zlen in Hi; cbn in Hi; lia|]. split; [|exact G2].
    intros p _. left. apply G1. }
  assert (Hd : 0 < zlen d) by (pose proof (zlen_nonneg d); lia).
  destruct (write_cases k s d I Hd) as [[C W]|[(C & u & u' & Hu & Bu & _ & HI & HO & HS & W)|[_ W]]];
    rewrite W in E; [| |discriminate]; injection E as <-.
  - (* cache *)
    apply (all_cache_iff s (zlen d) Hd) in C. destruct (cache_wf k I) as [[_ WF] SZ].
    assert (CE : forall o, 0 <= o < k_cache c ->
      content (set_cache k (snd (mem_write (co_cache k) (s - 2 * (m * n)) d 1))) (PCache o) =
      if (s - 2 * (m * n) <=? o) && (o <? s - 2 * (m * n) + zlen d)
      then znth 0 (map wrap32 d) (o - (s - 2 * (m * n))) else content k (PCache o)).
    { intros o Ho. cbn [content set_cache co_cache]. unfold mem_write. rewrite SZ.
      replace ((s - 2 * (m * n) <? 0) || (k_cache c <? s - 2 * (m * n) + zlen d)) with false by lia.
      cbn [snd cells]. rewrite znth_blit; [|lia|rewrite zlen_map; lia|lia]. rewrite zlen_map. reflexivity. }
    split; [|split].
    + intros i p Hi Hp.
      assert (P : place_of c (s + i) = Some (PCache (s + i - 2 * (m * n)))) by (apply place_cache; lia).
      assert (p = PCache (s + i - 2 * (m * n))) by congruence. subst p. rewrite CE by lia.
      replace ((s - 2 * (m * n) <=? s + i - 2 * (m * n)) && (s + i - 2 * (m * n) <? s - 2 * (m * n) + zlen d)) with true by lia.
      replace (s + i - 2 * (m * n) - (s - 2 * (m * n))) with i by lia. now apply nth_map_wrap.
    + intros p Hp. destruct p as [v o|v o|o]; [now left|now left|].
      destruct (Z_lt_dec o 0) as [L|L]; [right; intros a Ha; apply place_cache in Ha; lia|].
      destruct (Z_le_dec (k_cache c) o) as [L'|L']; [right; intros a Ha; apply place_cache in Ha; lia|]. left.
      rewrite CE by lia. destruct ((s - 2 * (m * n) <=? o) && (o <? s - 2 * (m * n) + zlen d)) eqn:B; [|reflexivity].
      exfalso. apply Hp. exists (o - (s - 2 * (m * n))). split; [lia|]. apply place_cache. lia.
    + split; [reflexivity|apply same_cells_list].
  - (* inputs *)
    apply (one_input_iff s (zlen d) Hd) in C.
    pose proof (unit_shaped k _ u I Hu) as SH.
    assert (LK : (Z.to_nat (s / n) < length (co_mvmus k))%nat) by (apply nth_error_Some; congruence).
    pose proof (Z.div_mod s n ltac:(lia)) as DM. pose proof (Z.mod_pos_bound s n N) as MB.
    assert (LI : zlen (inputs u) = n) by (unfold zlen, inputs; rewrite (sh_inl _ _ _ SH); lia).
    assert (CE : forall o, 0 <= o < n -> content (set_mvmu k (s / n) u') (PIn (s / n) o) =
      if (s mod n <=? o) && (o <? s mod n + zlen d) then znth 0 (map wrap32 d) (o - s mod n) else content k (PIn (s / n) o)).
    { intros o Ho. cbn [content]. rewrite nth_error_set_mvmu by lia. rewrite Nat.eqb_refl, HI, Hu.
      rewrite znth_blit; [|lia|rewrite zlen_map; lia|lia]. rewrite zlen_map. reflexivity. }
    split; [|split].
    + intros i p Hi Hp.
      assert (P : place_of c (s + i) = Some (PIn (s / n) (s mod n + i))) by (apply place_in; lia).
      assert (p = PIn (s / n) (s mod n + i)) by congruence. subst p. rewrite CE by lia.
      replace ((s mod n <=? s mod n + i) && (s mod n + i <? s mod n + zlen d)) with true by lia.
      replace (s mod n + i - s mod n) with i by lia. now apply nth_map_wrap.
    + intros p Hp. destruct p as [v o|v o|o].
      * destruct (Z_lt_dec v 0) as [V1|V1]; [right; intros a Ha; apply place_in in Ha; lia|].
        destruct (Z.eq_dec v (s / n)) as [->|NE].
        -- destruct (Z_lt_dec o 0) as [L|L]; [right; intros a Ha; apply place_in in Ha; lia|].
           destruct (Z_le_dec n o) as [L'|L']; [right; intros a Ha; apply place_in in Ha; lia|]. left.
           rewrite CE by lia. destruct ((s mod n <=? o) && (o <? s mod n + zlen d)) eqn:B; [|reflexivity].
           exfalso. apply Hp. exists (o - s mod n). split; [lia|]. apply place_in. lia.
        -- left. cbn [content]. rewrite nth_error_set_mvmu by lia.
           replace (Z.to_nat v =? Z.to_nat (s / n))%nat with false by (symmetry; apply Nat.eqb_neq; lia). reflexivity.
      * left. cbn [content]. rewrite nth_error_set_mvmu by lia.
        destruct (Z.to_nat v =? Z.to_nat (s / n))%nat eqn:EQ; [|reflexivity].
        apply Nat.eqb_eq in EQ. rewrite EQ, Hu, HO. reflexivity.
      * now left.
    + split; [reflexivity|]. cbn. now apply (same_cells_upd _ _ u).
Qed.

Lemma write_decided k s d : core_reached c k -> 0 < zlen d ->
  (all_cache c s (zlen d) \/ one_input c s (zlen d) -> exists k', write_to_register c k s d = (Ok tt, k')) /\
  (~ (all_cache c s (zlen d) \/ one_input c s (zlen d)) -> write_to_register c k s d = (Raise IndexError, k)).
Proof.
  intros R Hd. destruct (write_cases k s d (reached_inv _ _ R) Hd) as [[C W]|[(C & u & u' & _ & _ & _ & _ & _ & _ & W)|[NW W]]];
    rewrite W; split; intros H; try (eexists; reflexivity); try reflexivity.
  - exfalso. apply H. now left.
  - exfalso. apply H. now right.
  - exfalso. now apply NW.
Qed.

(** ** Reads *)
Lemma read_cases k s l : core_inv c k -> 0 < l ->
  (all_cache c s l /\ exists m', mem_read (co_cache k) (s - 2 * (m * n)) l 1 = (Ok (block (cells (co_cache k)) (s - 2 * (m * n)) l), m') /\
     cells m' = cells (co_cache k) /\
     read_from_register c k s l = (Ok (block (cells (co_cache k)) (s - 2 * (m * n)) l), set_cache k m')) \/
  (one_output c s l /\ exists u u', let v := (s - m * n) / n in
     nth_error (co_mvmus k) (Z.to_nat v) = Some u /\ 0 <= v < m /\
     inputs u' = inputs u /\ outputs u' = outputs u /\ same_cells u u' /\
     read_from_register c k s l =
       (Ok (map (fun i => nth (Z.to_nat (s mod n + i)) (outputs u) 0 / 2 ^ c_weight_frac (k_mv c)) (zrange l)), set_mvmu k v u')) \/
  (~ (all_cache c s l \/ one_output c s l) /\ read_from_register c k s l = (Raise IndexError, k)).
Proof.
  intros I Hl. pose proof n_pos as N. pose proof mn_pos as MN. pose proof q_nonneg as Q. pose proof m_pos as M.
  unfold read_from_register. rewrite all_cache_iff, one_output_iff by assumption.
  unfold total_registers. rewrite cache_start_eq, outreg_start_eq.
  destruct ((s <? 0) || (2 * (m * n) + k_cache c <? s + l)) eqn:E1.
  { right; right. split; [lia|reflexivity]. }
  destruct (s <? m * n) eqn:E2.
  { right; right. split; [lia|reflexivity]. }
  destruct (2 * (m * n) <=? s) eqn:E3.
  { left. split; [lia|]. destruct (cache_wf k I) as [_ SZ]. unfold mem_read. rewrite SZ.
    replace ((s - 2 * (m * n) <? 0) || (k_cache c <? s - 2 * (m * n) + l)) with false by lia.
    replace (l <=? 0) with false by lia. eexists. split; [reflexivity|]. split; reflexivity. }
  unfold mvmu_id_of. pose proof (same_unit s l Hl) as SU.
  destruct (s / n =? (s + l - 1) / n) eqn:E4; cbn [negb].
  - assert (F : s mod n + l <= n) by (apply SU; lia).
    set (v := (s - m * n) / n).
    assert (B : 0 <= v < m) by (split; [apply Z.div_pos; lia|apply Z.div_lt_upper_bound; lia]).
    assert (EV : (s / n) mod m = v).
    { assert (s / n = v + m) as ->.
      { unfold v. replace s with ((s - m * n) + m * n) at 1 by lia. rewrite Z.div_add by lia. reflexivity. }
      replace (v + m) with (v + 1 * m) by lia. rewrite Z.mod_add by lia. apply Z.mod_small; lia. }
    rewrite EV. destruct (unit_exists k v I B) as [u Hu]. rewrite Hu.
    pose proof (unit_shaped k _ u I Hu) as SH. pose proof (Z.mod_pos_bound s n N) as MB.
    destruct (read_floor cfg ww (k_mv c) (core_ok_mv _ _ _ OK) u (s mod n) l SH ltac:(lia) ltac:(lia) F) as [RF RO].
    right; left. split.
    { pose proof (Z.div_mod s n ltac:(lia)). pose proof (Z.div_mod (s + l - 1) n ltac:(lia)).
      assert (s / n <= 2 * m - 1) by (apply Z.lt_succ_r; replace (Z.succ (2 * m - 1)) with (2 * m) by lia;
        apply Z.div_lt_upper_bound; lia).
      split; [lia|]. split; [|lia]. nia. }
    destruct (read_frame cfg (k_mv c) u (s mod n) l SH) as (SH' & FR).
    unfold read_from_outreg in *. destruct (outreg_read (mv_out u) (map (fun i => s mod n + i) (zrange l))) as [r o].
    cbn [fst snd] in *. exists u. eexists. split; [reflexivity|]. split; [exact B|].
    split; [|split; [|split; [|rewrite RF; reflexivity]]].
    + reflexivity.
    + exact RO.
    + repeat split.
  - right; right. split; [|reflexivity]. assert (~ s mod n + l <= n) by (rewrite <- SU; lia). lia.
Qed.

Lemma content_set_mvmu k v u u' : nth_error (co_mvmus k) (Z.to_nat v) = Some u ->
  inputs u' = inputs u -> outputs u' = outputs u -> forall p, content (set_mvmu k v u') p = content k p.
Proof.
  intros Hu HI HO p.
  assert (G : forall j, nth_error (co_mvmus (set_mvmu k v u')) j = nth_error (co_mvmus k) j \/
    (nth_error (co_mvmus (set_mvmu k v u')) j = Some u' /\ nth_error (co_mvmus k) j = Some u)).
  { intros j. cbn. rewrite nth_error_upd. destruct (Z.to_nat v =? j)%nat eqn:J; [|now left].
    apply Nat.eqb_eq in J. subst j. rewrite Hu. now right. }
  destruct p as [w o|w o|o]; [| |reflexivity]; cbn [content]; destruct (G (Z.to_nat w)) as [->|[-> ->]];
    try reflexivity; [now rewrite HI|now rewrite HO].
Qed.

Lemma read_effect k s l : core_reached c k ->
  (forall p, content (snd (read_from_register c k s l)) p = content k p) /\
  same_rest k (snd (read_from_register c k s l)).
Proof.
  intros R. pose proof (reached_inv _ _ R) as I. unfold read_from_register.
  destruct ((s <? 0) || _); [split; [reflexivity|apply same_rest_refl]|].
  destruct (s <? outreg_start c); [split; [reflexivity|apply same_rest_refl]|].
  destruct (cache_start c <=? s).
  - assert (E : cells (snd (mem_read (co_cache k) (s - cache_start c) l 1)) = cells (co_cache k)).
    { unfold mem_read. destruct (_ || _); [reflexivity|]. destruct (l <=? 0); reflexivity. }
    destruct (mem_read (co_cache k) (s - cache_start c) l 1) as [r m']. cbn [snd] in *.
    split; [|split; [reflexivity|apply same_cells_list]]. intros [u o|u o|o]; try reflexivity.
    cbn [content set_cache co_cache]. now rewrite E.
  - destruct (mvmu_id_of c s (s + l)) as [v|e]; [|split; [reflexivity|apply same_rest_refl]].
    destruct (nth_error (co_mvmus k) (Z.to_nat v)) as [u|] eqn:U; [|split; [reflexivity|apply same_rest_refl]].
    destruct (read_frame cfg (k_mv c) u (s mod n) l (unit_shaped k _ u I U)) as (_ & E1 & E2 & E3 & E4 & E5 & E6).
    destruct (read_from_outreg (k_mv c) u (s mod n) l) as [r u']. cbn [snd] in *.
    split; [now apply (content_set_mvmu k v u)|]. split; [reflexivity|].
    cbn. apply (same_cells_upd _ _ u); [assumption|]. repeat split; congruence.
Qed.

Lemma read_decided k s l : core_reached c k -> 0 < l ->
  (all_cache c s l \/ one_output c s l ->
     exists v k', read_from_register c k s l = (Ok v, k') /\ zlen v = l /\
       forall i p, 0 <= i < l -> place_of c (s + i) = Some p -> znth 0 v i = visible c k p) /\
  (~ (all_cache c s l \/ one_output c s l) -> read_from_register c k s l = (Raise IndexError, k)).
Proof.
  intros R Hl. pose proof (reached_inv _ _ R) as I. pose proof n_pos as N. pose proof mn_pos as MN. pose proof q_nonneg as Q.
  destruct (cache_wf k I) as [[_ WF] SZ].
  destruct (read_cases k s l I Hl) as [(C & m' & _ & _ & W)|[(C & u & u' & Hu & Bu & _ & _ & _ & W)|[NW W]]];
    rewrite W; (split; intros H; [|reflexivity || (exfalso; apply H; tauto)]).
  - pose proof C as C'. apply all_cache_iff in C'; [|assumption].
    eexists _, _. split; [reflexivity|]. split; [unfold zlen; rewrite length_block; lia|].
    intros i p Hi Hp. assert (P : place_of c (s + i) = Some (PCache (s + i - 2 * (m * n)))) by (apply place_cache; lia).
    assert (p = PCache (s + i - 2 * (m * n))) by congruence. subst p. cbn [visible content].
    unfold znth. rewrite nth_block by lia. f_equal. lia.
  - pose proof C as C'. apply one_output_iff in C'; [|assumption].
    eexists _, _. split; [reflexivity|]. split; [unfold zlen; rewrite map_length, length_zrange; lia|].
    intros i p Hi Hp.
    assert (MM : (s - m * n) mod n = s mod n) by (rewrite Zminus_mod, Z.mod_mul, Z.sub_0_r, Z.mod_mod; lia).
    assert (P : place_of c (s + i) = Some (POut ((s - m * n) / n) (s mod n + i))).
    { apply place_out. pose proof (Z.div_mod (s - m * n) n ltac:(lia)). pose proof (Z.mod_pos_bound s n N). lia. }
    assert (p = POut ((s - m * n) / n) (s mod n + i)) by congruence. subst p. cbn [visible content].
    unfold znth at 1. rewrite nth_map_zrange by lia. rewrite Z2Nat.id by lia. rewrite Hu. reflexivity.
  - exfalso. now apply NW.
Qed.

(** ** The cache is a memory: histories *)
Lemma cache_step k o older x : core_inv c k -> 0 <= x < k_cache c ->
  is_int32_of (content k (PCache x)) (last_cached c older x) ->
  is_int32_of (content (core_step c k o) (PCache x)) (last_cached c (o :: older) x).
Proof.
  intros I Hx H. pose proof n_pos as N. pose proof mn_pos as MN. pose proof q_nonneg as Q.
  destruct (cache_wf k I) as [[_ WF] SZ].
  assert (SM : forall i u, content (set_mvmu k i u) (PCache x) = content k (PCache x)) by reflexivity.
  destruct o as [s d|s l|xs|op a b|i w|]; cbn [core_step last_cached].
  - destruct (Z.eq_dec (zlen d) 0) as [Z0|NZ].
    + replace ((2 * (m * n) <=? s) && (s + zlen d <=? 2 * (m * n) + k_cache c) && (s <=? 2 * (m * n) + x) && (2 * (m * n) + x <? s + zlen d)) with false by lia.
      assert (d = []) by (destruct d; [reflexivity|unfold zlen in Z0; cbn in Z0; lia]). subst d.
      assert (E : content (snd (write_to_register c k s [])) (PCache x) = content k (PCache x)); [|now rewrite E].
      unfold write_to_register. destruct ((s <? 0) || _); [reflexivity|]. destruct (overlaps_output _ _ _); [reflexivity|].
      destruct (cache_start c <=? s).
      * unfold mem_write. cbn [zlen length Z.of_nat map].
        destruct ((s - cache_start c <? 0) || (msize (co_cache k) <? s - cache_start c + 0)); [reflexivity|].
        cbn. unfold blit. cbn [length]. now rewrite app_nil_l, Nat.add_0_r, firstn_skipn.
      * destruct (mvmu_id_of _ _ _) as [i|]; [|reflexivity]. destruct (nth_error _ _) as [u|]; [|reflexivity].
        now destruct (write_to_inreg _ _ _).
    + assert (Hd : 0 < zlen d) by (pose proof (zlen_nonneg d); lia).
      destruct (write_cases k s d I Hd) as [[C W]|[(C & u & u' & _ & _ & _ & _ & _ & _ & W)|[NW W]]]; rewrite W; cbn [snd].
      * apply (all_cache_iff s (zlen d) Hd) in C. cbn [content set_cache co_cache]. unfold mem_write. rewrite SZ.
        replace ((s - 2 * (m * n) <? 0) || (k_cache c <? s - 2 * (m * n) + zlen d)) with false by lia.
        cbn [snd cells]. rewrite znth_blit; [|lia|rewrite zlen_map; lia|lia]. rewrite zlen_map.
        destruct ((2 * (m * n) <=? s) && (s + zlen d <=? 2 * (m * n) + k_cache c) && (s <=? 2 * (m * n) + x) && (2 * (m * n) + x <? s + zlen d)) eqn:E.
        -- replace ((s - 2 * (m * n) <=? x) && (x <? s - 2 * (m * n) + zlen d)) with true by lia.
           replace (x - (s - 2 * (m * n))) with (2 * (m * n) + x - s) by lia. apply nth_map_wrap. lia.
        -- replace ((s - 2 * (m * n) <=? x) && (x <? s - 2 * (m * n) + zlen d)) with false by lia. exact H.
      * apply (one_input_iff s (zlen d) Hd) in C. rewrite SM.
        replace ((2 * (m * n) <=? s) && _ && _ && _) with false by lia. exact H.
      * assert (~ (2 * (m * n) <= s /\ s + zlen d <= 2 * (m * n) + k_cache c))
          by (intros A; apply NW; left; now apply all_cache_iff).
        replace ((2 * (m * n) <=? s) && (s + zlen d <=? 2 * (m * n) + k_cache c) && (s <=? 2 * (m * n) + x) && (2 * (m * n) + x <? s + zlen d)) with false by lia.
        exact H.
  - assert (E : content (snd (read_from_register c k s l)) (PCache x) = content k (PCache x)); [|now rewrite E].
    unfold read_from_register.
    destruct ((s <? 0) || _); [reflexivity|]. destruct (s <? outreg_start c); [reflexivity|].
    destruct (cache_start c <=? s).
    + unfold mem_read. destruct (_ || _); [reflexivity|]. destruct (l <=? 0); reflexivity.
    + destruct (mvmu_id_of _ _ _) as [v|]; [|reflexivity]. destruct (nth_error _ _) as [u|]; [|reflexivity].
      now destruct (read_from_outreg _ _ _ _).
  - assert (E : forall k, co_cache (snd (exec_mvm c k xs)) = co_cache k).
    { induction xs as [|i xs IH]; intros k'; cbn [exec_mvm]; [reflexivity|].
      destruct (get_mvmu k' i); [|reflexivity]. now rewrite IH. }
    cbn [content] in *. now rewrite E.
  - exact H.
  - destruct (get_mvmu k i); exact H.
  - unfold core_reset. destruct (reset_mvmus _ _). cbn [snd content co_cache mem_reset cells].
    rewrite znth_const0. split; [unfold int32; lia|reflexivity].
Qed.

Lemma cache_history ops x : 0 <= x < k_cache c ->
  is_int32_of (content (core_run c (core_init c) ops) (PCache x)) (last_cached c (rev ops) x).
Proof.
  intros Hx. enough (G : forall ops k older, core_inv c k ->
    is_int32_of (content k (PCache x)) (last_cached c older x) ->
    is_int32_of (content (core_run c k ops) (PCache x)) (last_cached c (rev ops ++ older) x)).
  { specialize (G ops (core_init c) [] (inv_init c)). rewrite app_nil_r in G. apply G.
    cbn [content core_init co_cache last_cached]. rewrite mem_init_cell. split; [unfold int32; lia|reflexivity]. }
  clear ops. induction ops as [|o ops IH]; intros k older I H; [exact H|].
  cbn [rev]. rewrite <- app_assoc. apply (IH (core_step c k o) (o :: older)); [now apply core_step_inv|now apply cache_step].
Qed.

(** ** Instructions *)
Lemma reached_snoc k o : core_reached c k -> core_reached c (core_step c k o).
Proof. intros (ops & ->). exists (ops ++ [o]). unfold core_run. now rewrite fold_left_app. Qed.

Lemma content_vfu k s p : content (set_vfu k s) p = content k p.
Proof. now destruct p. Qed.

Lemma read_vfu k s l : co_vfu (snd (read_from_register c k s l)) = co_vfu k.
Proof.
  unfold read_from_register.
  destruct ((s <? 0) || _); [reflexivity|]. destruct (s <? outreg_start c); [reflexivity|].
  destruct (cache_start c <=? s); [now destruct (mem_read _ _ _ _)|].
  destruct (mvmu_id_of _ _ _) as [v|]; [|reflexivity]. destruct (nth_error _ _) as [u|]; [|reflexivity].
  now destruct (read_from_outreg _ _ _ _).
Qed.

(** A failing vector instruction changes no register; if the vector unit itself fails its counters
    do not change either. *)
Lemma vfu_failure_effect k op dest r1 r2 vec e k' : core_reached c k ->
  exec_vfu c k op dest r1 r2 vec = (Raise e, k') ->
  (forall p, content k' p = content k p) /\ Forall2 same_cells (co_mvmus k) (co_mvmus k').
Proof.
  intros R E. unfold exec_vfu in E.
  destruct (read_effect k r1 vec R) as [C1 [_ S1]]. pose proof (reached_snoc k (KRead r1 vec) R) as R1. cbn [core_step] in R1.
  destruct (read_from_register c k r1 vec) as [[a|e1] k1]; cbn [snd] in *; [|injection E as _ <-; split; assumption].
  assert (CALC : forall b k2, core_reached c k2 -> (forall p, content k2 p = content k p) -> Forall2 same_cells (co_mvmus k) (co_mvmus k2) ->
     match vfu_calculate (k_vfu c) (co_vfu k2) op a b with
     | (Raise e, s) => (Raise e, set_vfu k2 s)
     | (Ok r, s) => write_to_register c (set_vfu k2 s) dest r
     end = (Raise e, k') -> (forall p, content k' p = content k p) /\ Forall2 same_cells (co_mvmus k) (co_mvmus k')).
  { intros b k2 R2 C2 S2. pose proof (reached_snoc k2 (KVec op a b) R2) as RV. cbn [core_step] in RV.
    destruct (vfu_calculate (k_vfu c) (co_vfu k2) op a b) as [[r|e2] s]; cbn [snd] in RV.
    - intros W. destruct (Z.eq_dec (zlen r) 0) as [Z0|NZ].
      + assert (r = []) by (destruct r; [reflexivity|unfold zlen in Z0; cbn in Z0; lia]). subst r.
        assert (k' = set_vfu k2 s) as ->; [|split; [intros p; rewrite content_vfu; apply C2|exact S2]].
        unfold write_to_register in W. destruct ((dest <? 0) || _); [congruence|]. destruct (overlaps_output _ _ _); [congruence|].
        destruct (cache_start c <=? dest).
        * unfold mem_write in W. destruct (_ || _); [|discriminate]. injection W as _ <-. reflexivity.
        * destruct (mvmu_id_of _ _ _) as [i|]; [|congruence].
          destruct (nth_error (co_mvmus (set_vfu k2 s)) (Z.to_nat i)) as [u|] eqn:U; [|congruence].
          unfold write_to_inreg, inreg_write in W. destruct (_ || _); [|discriminate]. injection W as _ <-.
          transitivity (set_mvmu (set_vfu k2 s) i u); [f_equal; now destruct u|now apply set_mvmu_self].
      + assert (Hr : 0 < zlen r) by (pose proof (zlen_nonneg r); lia).
        destruct (write_decided _ dest r RV Hr) as [D1 D2].
        destruct (write_cases _ dest r (reached_inv _ _ RV) Hr) as [[C _]|[(C & _)|[NW _]]].
        * destruct (D1 (or_introl C)) as [k3 E3]. congruence.
        * destruct (D1 (or_intror C)) as [k3 E3]. congruence.
        * rewrite (D2 NW) in W. injection W as _ <-. split; [intros p; rewrite content_vfu; apply C2|exact S2].
    - intros [= _ <-]. split; [intros p; rewrite content_vfu; apply C2|exact S2]. }
  destruct r2 as [r2|]; [|exact (CALC None k1 R1 C1 S1 E)].
  destruct (read_effect k1 r2 vec R1) as [C2 [_ S2]]. pose proof (reached_snoc k1 (KRead r2 vec) R1) as R2. cbn [core_step] in R2.
  assert (TR : forall a b d, Forall2 same_cells a b -> Forall2 same_cells b d -> Forall2 same_cells a d).
  { clear. intros x y d H; revert d; induction H as [|u v us vs Huv _ IH]; intros d H'; inversion H'; subst; constructor; [|now apply IH].
    destruct Huv as (? & ? & ? & ?), H1 as (? & ? & ? & ?). repeat split; congruence. }
  destruct (read_from_register c k1 r2 vec) as [[b|e1] k2]; cbn [snd] in *.
  - refine (CALC (Some b) k2 R2 _ _ E); [intros p; rewrite C2; apply C1|eapply TR; eassumption].
  - injection E as _ <-. split; [intros p; rewrite C2; apply C1|eapply TR; eassumption].
Qed.

Lemma vfu_unit_failure k op dest r1 r2 vec a b :
  core_reached c k ->
  fst (read_from_register c k r1 vec) = Ok a ->
  (forall r, r2 = Some r -> exists v, fst (read_from_register c k r vec) = Ok v /\ b = Some v) ->
  (r2 = None -> b = None) ->
  succeeds op a b = false ->
  exists e k', exec_vfu c k op dest r1 r2 vec = (Raise e, k') /\
    (forall p, content k' p = content k p) /\ same_rest k k'.
Proof.
  intros R E1 E2 E3 F.
  assert (SAME : forall k1 s l v, core_reached c k1 -> (forall p, content k1 p = content k p) ->
    length (co_mvmus k1) = length (co_mvmus k) ->
    fst (read_from_register c k s l) = Ok v -> fst (read_from_register c k1 s l) = Ok v).
  { intros k1 s l v R1 C1 _ EV. destruct (Z_le_dec l 0) as [L0|L0].
    - (* only the output registers can be read with length <= 0, giving an empty vector *)
      revert EV. unfold read_from_register. destruct ((s <? 0) || _); [discriminate|]. destruct (s <? outreg_start c); [discriminate|].
      destruct (cache_start c <=? s).
      + unfold mem_read. destruct (_ || _); [discriminate|]. replace (l <=? 0) with true by lia. discriminate.
      + destruct (mvmu_id_of c s (s + l)) as [i|]; [|discriminate].
        assert (ZR : zrange l = []) by (unfold zrange; replace (Z.to_nat l) with 0%nat by lia; reflexivity).
        destruct (nth_error (co_mvmus k) (Z.to_nat i)) as [u|] eqn:U; [|discriminate].
        assert (exists u1, nth_error (co_mvmus k1) (Z.to_nat i) = Some u1) as [u1 U1].
        { assert (L : length (co_mvmus k1) = length (co_mvmus k)).
          { now rewrite (ki_len _ _ (reached_inv _ _ R1)), (ki_len _ _ (reached_inv _ _ R)). }
          destruct (nth_error (co_mvmus k1) (Z.to_nat i)) as [u1|] eqn:U1; [eauto|]. apply nth_error_None in U1.
          assert (Z.to_nat i < length (co_mvmus k))%nat by (apply nth_error_Some; congruence). lia. }
        rewrite U1. unfold read_from_outreg, outreg_read. rewrite ZR. cbn. auto.
    - assert (Hl : 0 < l) by lia. destruct (read_decided k s l R Hl) as [A _]. destruct (read_decided k1 s l R1 Hl) as [A1 _].
      destruct (read_cases k s l (reached_inv _ _ R) Hl) as [(C & _)|[(C & _)|[_ W]]]; [| |rewrite W in EV; discriminate].
      + destruct (A (or_introl C)) as (v0 & k0 & W & L & P). rewrite W in EV. injection EV as ->.
        destruct (A1 (or_introl C)) as (v1 & k3 & W1 & L1 & P1). rewrite W1. cbn [fst]. f_equal.
        apply (list_ext 0); [unfold zlen in *; lia|]. intros j Hj. unfold zlen in *.
        destruct (C (Z.of_nat j) ltac:(lia)) as [o Ho].
        specialize (P (Z.of_nat j) _ ltac:(lia) Ho). specialize (P1 (Z.of_nat j) _ ltac:(lia) Ho).
        unfold znth in *. rewrite Nat2Z.id in *. rewrite P, P1. unfold visible. now rewrite C1.
      + destruct (A (or_intror C)) as (v0 & k0 & W & L & P). rewrite W in EV. injection EV as ->.
        destruct (A1 (or_intror C)) as (v1 & k3 & W1 & L1 & P1). rewrite W1. cbn [fst]. f_equal.
        apply (list_ext 0); [unfold zlen in *; lia|]. intros j Hj. unfold zlen in *. destruct C as [uu C].
        destruct (C (Z.of_nat j) ltac:(lia)) as [o Ho].
        specialize (P (Z.of_nat j) _ ltac:(lia) Ho). specialize (P1 (Z.of_nat j) _ ltac:(lia) Ho).
        unfold znth in *. rewrite Nat2Z.id in *. rewrite P, P1. unfold visible. now rewrite C1. }
  apply (proj1 (vfu_failure (k_vfu c) (co_vfu k) op a b)) in F. destruct F as [e F].
  destruct (read_effect k r1 vec R) as [C1 [V1 S1]]. pose proof (reached_snoc k (KRead r1 vec) R) as R1. cbn [core_step] in R1.
  assert (EX : exists k', exec_vfu c k op dest r1 r2 vec = (Raise e, k') /\ co_vfu k' = co_vfu k).
  { unfold exec_vfu. destruct (read_from_register c k r1 vec) as [r k1] eqn:RD. cbn [fst snd] in *. subst r.
    destruct r2 as [r2|].
    - destruct (E2 r2 eq_refl) as (v & EV & ->).
      pose proof (SAME k1 r2 vec v R1 C1 ltac:(now rewrite (ki_len _ _ (reached_inv _ _ R1)), (ki_len _ _ (reached_inv _ _ R))) EV) as EV1.
      pose proof (read_vfu k1 r2 vec) as V2.
      destruct (read_from_register c k1 r2 vec) as [r k2]. cbn [fst snd] in *. subst r.
      rewrite V2, <- V1, F. eexists. split; [reflexivity|]. reflexivity.
    - rewrite (E3 eq_refl) in F. rewrite <- V1, F. eexists. split; [reflexivity|]. reflexivity. }
  destruct EX as (k' & EX & V). exists e, k'. split; [exact EX|].
  destruct (vfu_failure_effect k op dest r1 r2 vec e k' R EX) as [G1 G2]. split; [exact G1|]. split; [now rewrite V|exact G2].
Qed.

(** mvm: exactly the named units change, and each by execute_mvm. *)
Lemma exec_mvm_units xs : forall k k' j, core_inv c k -> exec_mvm c k xs = (Ok tt, k') ->
  co_cache k' = co_cache k /\ co_vfu k' = co_vfu k /\
  (~ In (Z.of_nat j) xs -> nth_error (co_mvmus k') j = nth_error (co_mvmus k) j).
Proof.
  induction xs as [|i xs IH]; intros k k' j I; cbn [exec_mvm].
  - intros [= <-]. auto.
  - destruct (get_mvmu k i) as [u|e] eqn:E; [|discriminate]. apply get_mvmu_ok in E. intros W.
    destruct (IH _ _ j (inv_set_mvmu c k i u OMvm I (proj2 E)) W) as (A & B & C). cbn [mv_step] in *.
    split; [exact A|]. split; [exact B|]. intros NI. rewrite C by (intros H; apply NI; now right).
    rewrite nth_error_set_mvmu; [|lia|unfold zlen in E; lia].
    replace (j =? Z.to_nat i)%nat with false; [reflexivity|]. symmetry. apply Nat.eqb_neq. intros ->. apply NI. left. lia.
Qed.

Lemma exec_mvm_single k i u : core_inv c k -> 0 <= i < m -> nth_error (co_mvmus k) (Z.to_nat i) = Some u ->
  exec_mvm c k [i] = (Ok tt, set_mvmu k i (execute_mvm (k_mv c) u)).
Proof.
  intros I Hi U. cbn [exec_mvm]. assert (E : get_mvmu k i = Ok u).
  { apply get_mvmu_ok. split; [|exact U]. unfold zlen. rewrite (ki_len _ _ I). lia. }
  now rewrite E.
Qed.
End Geometry.
