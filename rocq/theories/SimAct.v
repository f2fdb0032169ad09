(** Proofs about the activation a simulation starts with. *)
From Verif Require Import PyBase PyLemmas MemoryModel CoreModel DramModel DramSpec DramProofs RouterModel SystemModel SystemSpec SystemBase SystemInv SystemDet
  NodeModel LoaderModel LoaderSpec SimModel SimSpec SimProofs.
From Coq Require Import ZifyBool ZifyNat.

(** ** An activation that fills the memory *)
Definition filled (d : dram) : Prop := Forall (eq true) (d_valid d) /\ d_pending d = [].
Lemma all_true (l : list bool) : Forall (eq true) l -> forallb (fun b => b) l = true.
Proof. induction 1 as [|x l <- _ IH]; cbn; auto. Qed.
Lemma forall_part {A} (P : A -> Prop) a n l : Forall P l -> Forall P (firstn n (skipn a l)).
Proof. intros H. rewrite <- (firstn_skipn a l), <- (firstn_skipn n (skipn a l)) in H. apply Forall_app in H as (_ & H). now apply Forall_app in H as (H & _). Qed.
Lemma filled_ready d r : filled d -> ready (d_valid d) r = true.
Proof. intros (V & _). apply all_true. unfold pyslice, block. now apply forall_part. Qed.
Lemma set_valid_true v a b : Forall (eq true) v -> Forall (eq true) (set_valid v a b).
Proof. intros H. apply Forall_blit; [exact H|]. apply Forall_forall. intros x X. symmetry. exact (repeat_spec _ _ _ X). Qed.
Lemma own_filled lat now a d d' : dram_own a = true -> dstep lat now a d = Some d' -> filled d -> filled d'.
Proof.
  intros O H FL. pose proof FL as (V & Q). unfold dstep in H. destruct (d_crash d); [discriminate|]. destruct a; try discriminate.
  - unfold dc_handle in H. destruct (negb _); [discriminate|]. destruct (d_queue d) as [|r rest]; [discriminate|]. rewrite (filled_ready d r FL), andb_false_r in H. injection H as <-. now split.
  - unfold dc_grant in H. destruct (d_bus d); [discriminate|]. destruct (d_granted d); [discriminate|]. destruct (_ <? _); injection H as <-; now split.
  - unfold dc_finish in H. destruct (d_bus d) as [|r rest]; [discriminate|]. destruct (d_granted d); [|discriminate]. destruct (_ <? _); [discriminate|]. destruct (q_kind r).
    + destruct (mem_read _ _ _ _) as ([x|e] & m); injection H as <-; now split.
    + destruct (mem_write _ _ _ _) as ([x|e] & m); [|injection H as <-; now split]. rewrite Q in H. cbn in H. injection H as <-. split; [now apply set_valid_true|reflexivity].
Qed.
Lemma submit_filled now k a kd d r d' : dc_submit now k a kd d = (Ok r, d') -> filled d -> filled d'.
Proof. unfold dc_submit. destruct (negb _); [discriminate|]. intros H F. assert (E : d' = snd (@Ok req r, d')) by reflexivity. rewrite <- H in E. cbn in E. subst d'. exact F. Qed.
Lemma stop_filled now d : filled d -> filled (dc_stop now d).
Proof. intros F. unfold dc_stop. destruct (negb _); exact F. Qed.
Lemma blit_all {A} (l v : list A) : length v = length l -> blit l 0 v = v.
Proof. intros E. unfold blit. cbn. rewrite E, skipn_all. apply app_nil_r. Qed.
Lemma set_valid_all v n : zlen v = n -> set_valid v 0 n = repeat true (Z.to_nat n).
Proof.
  intros E. unfold set_valid. rewrite E. assert (0 <= n) by (rewrite <- E; unfold zlen; lia). unfold slice_bound. cbn [Z.ltb Z.compare]. replace (n <? 0) with false by lia.
  replace (Z.min 0 n) with 0 by lia. replace (Z.max 0 (Z.min n n - 0)) with n by lia. apply blit_all. rewrite repeat_length. unfold zlen in E. lia.
Qed.
Lemma start_filled c t act : 0 <= y_size c -> zlen act = y_size c -> filled (start_dram c t act 0).
Proof.
  intros SZ L. unfold start_dram, dc_preload. cbn [Z.eqb dram_init d_mem mem_init msize]. replace (y_size c <? zlen act) with false by lia. split; [|reflexivity].
  cbn [dc_run d_running d_valid dram_init]. rewrite L, set_valid_all; [|unfold zlen; rewrite repeat_length; lia].
  apply Forall_forall. intros x X. symmetry. exact (repeat_spec _ _ _ X).
Qed.
Lemma always_filled c j t s : 0 <= y_size c -> zlen (j_activation j) = y_size c -> sreach c j t s -> filled (t_dram (s_tile s 0)).
Proof.
  intros SZ L. induction 1 as [t|t t' a s s' R IH T H].
  - now apply start_filled.
  - apply sstep_go in H as (CR & G).
    destruct G as [i0 a0 d K O0 HD HC HN HT|a0 n O0 HS HC HN HT|i0 k p d p' K KK HP HS HC HN HT|i0 n tt K HS HC HN HT|i0 k p e K KK HP HS ->|i0 e K HS ->].
    + rewrite HT. destruct (Z.eq_dec 0 i0) as [<-|NE]; [rewrite set_fun_eq|rewrite set_fun_neq by auto; auto]. cbn [t_dram]. eapply own_filled; eauto.
    + rewrite HT. auto.
    + rewrite HT. destruct (Z.eq_dec 0 i0) as [<-|NE]; [rewrite set_fun_eq|rewrite set_fun_neq by auto; auto].
      cbn. apply core_step_dram in HS as [->|(a1 & kd & r & E)]; [auto|]. eapply submit_filled; eauto.
    + apply tile_step_go in HS. rewrite HT. destruct (Z.eq_dec 0 i0) as [<-|NE]; [rewrite set_fun_eq|rewrite set_fun_neq by auto; auto].
      apply tile_go_dram in HS as [->|[(a1 & kd & r & E)| ->]]; [auto| |now apply stop_filled]. eapply submit_filled; eauto.
    + exact IH.
    + exact IH.
Qed.
Lemma never_waits c js t0 t x : 0 <= y_size c -> zlen (j_activation (js 0)) = y_size c -> sim_reach c js t0 t x ->
  d_pending (t_dram (s_tile (nd_sys (x 0)) 0)) = [] /\ Forall (eq true) (d_valid (t_dram (s_tile (nd_sys (x 0)) 0))).
Proof.
  intros SZ L R. destruct (sim_node_sys _ _ _ _ _ 0 R) as (t1 & _ & S). destruct (always_filled c (js 0) t1 _ SZ L S). auto.
Qed.

(** ** Without an activation *)
Lemma fixed_zeros frac n : fixed_activation frac (VInts (repeat 0 n)) = repeat 0 n.
Proof. cbn. induction n as [|n IH]; [reflexivity|]. cbn [repeat map]. rewrite IH. f_equal. Qed.
Lemma jobs_none c frac a js : sim_jobs c frac a None = Ok js ->
  0 <= y_size c /\ 0 < w_nodes (y_net c) /\ 0 < w_tiles (y_net c) /\ js = (fun m => job_of a m (repeat 0 (Z.to_nat (y_size c)))).
Proof.
  unfold sim_jobs, run_vector. destruct (y_size c <? 0) eqn:S; [discriminate|]. cbn [vlen]. unfold zlen. rewrite repeat_length. replace (y_size c <? Z.of_nat (Z.to_nat (y_size c))) with false by lia.
  destruct (_ || _) eqn:B; [discriminate|]. intros H. assert (E : js = fun m => job_of a m (fixed_activation frac (VInts (repeat 0 (Z.to_nat (y_size c)))))).
  { congruence. } rewrite fixed_zeros in E. split; [lia|]. split; [lia|]. split; [lia|exact E].
Qed.
Lemma zeros_start c t n : 0 <= y_size c -> n = Z.to_nat (y_size c) -> zeroed (y_size c) (start_dram c t (repeat 0 n) 0).
Proof.
  intros SZ ->. pose proof (start_filled c t (repeat 0 (Z.to_nat (y_size c))) SZ) as F. unfold zlen in F. rewrite repeat_length in F. destruct (F ltac:(lia)) as (V & _).
  assert (LV : zlen (d_valid (start_dram c t (repeat 0 (Z.to_nat (y_size c))) 0)) = y_size c /\ cells (d_mem (start_dram c t (repeat 0 (Z.to_nat (y_size c))) 0)) = repeat 0 (Z.to_nat (y_size c))).
  { unfold start_dram, dc_preload. cbn [Z.eqb dram_init d_mem mem_init msize]. unfold zlen. rewrite !repeat_length. replace (y_size c <? Z.of_nat (Z.to_nat (y_size c))) with false by lia.
    cbn [dc_run d_running d_valid d_mem cells dram_init mem_init]. split.
    - rewrite set_valid_all; unfold zlen; rewrite !repeat_length; lia.
    - rewrite blit_all; [|now rewrite map_length]. generalize (Z.to_nat (y_size c)). induction n as [|n IH]; cbn; [reflexivity|]. now rewrite IH. }
  destruct LV as (LV & E). split; [|split; [exact LV|]].
  - rewrite E. unfold zlen. rewrite repeat_length. lia.
  - intros a A. rewrite E. split.
    + unfold znth. apply nth_repeat.
    + rewrite Forall_forall in V. symmetry. apply V. unfold znth. apply nth_In. unfold zlen in LV. lia.
Qed.
Lemma dummy_run c frac a js : sim_jobs c frac a None = Ok js -> forall t0,
  zeroed (y_size c) (t_dram (s_tile (nd_sys (sim_first c t0 js 0)) 0)) /\
  (forall t x, sim_reach c js t0 t x -> d_pending (t_dram (s_tile (nd_sys (x 0)) 0)) = [] /\ Forall (eq true) (d_valid (t_dram (s_tile (nd_sys (x 0)) 0)))).
Proof.
  intros H t0. apply jobs_none in H as (SZ & _ & _ & ->). split.
  - unfold sim_first, node_first, node_start. cbn [nd_sys sys_start s_tile t_dram job_of j_activation]. now apply zeros_start.
  - intros t x. apply never_waits; [exact SZ|]. cbn. unfold zlen. rewrite repeat_length. lia.
Qed.
Lemma jobs_raise c frac a act e : sim_jobs c frac a act = Raise e <->
  act = None /\ y_size c < 0 /\ e = ValueError \/
  (match act with None => 0 <= y_size c | Some v => vlen v <= y_size c end) /\ (w_nodes (y_net c) <= 0 \/ w_tiles (y_net c) <= 0) /\ e = IndexError.
Proof.
  unfold sim_jobs, run_vector. destruct act as [v|].
  - destruct (y_size c <? vlen v) eqn:L; [split; [discriminate|intros [(X & _)|(X & _)]; [discriminate|lia]]|].
    destruct (_ || _) eqn:B; split; try discriminate.
    + intros [= <-]. right. split; [lia|]. split; [lia|reflexivity].
    + intros [(X & _)|(_ & _ & ->)]; [discriminate|reflexivity].
    + intros [(X & _)|(_ & X & _)]; [discriminate|lia].
  - destruct (y_size c <? 0) eqn:S.
    + split; [intros [= <-]; left; split; [reflexivity|]; split; [lia|reflexivity]|]. intros [(_ & _ & ->)|(X & _)]; [reflexivity|lia].
    + cbn [vlen]. unfold zlen. rewrite repeat_length. replace (y_size c <? Z.of_nat (Z.to_nat (y_size c))) with false by lia.
      destruct (_ || _) eqn:B; split; try discriminate.
      * intros [= <-]. right. split; [lia|]. split; [lia|reflexivity].
      * intros [(_ & X & _)|(_ & _ & ->)]; [lia|reflexivity].
      * intros [(_ & X & _)|(_ & X & _)]; lia.
Qed.
Lemma jobs_other c frac a act js m : sim_jobs c frac a act = Ok js -> m <> 0 -> js m = job_of a m [].
Proof.
  unfold sim_jobs. destruct (run_vector _ _) as [v|]; [|discriminate]. destruct (_ <? _); [intros [= <-]; reflexivity|]. destruct (_ || _); [discriminate|]. intros [= <-] N.
  unfold job_of. replace (m =? 0) with false by lia. reflexivity.
Qed.
