(** With at most one reader per tile no read is missed. *)
From Coq Require Import Permutation.
From Verif Require Import PyBase PyLemmas MemoryModel CoreModel DramModel DramSpec DramProofs DramProgress RouterModel RouterSpec RouterProofs
  SystemModel SystemSpec SystemBase SystemInv SystemProofs LiveSpec LiveProofs.

(** Programs only get shorter. *)
Lemma core_step_prog c now k d p d' p' : core_step_sys c now k d p = Go (d', p') -> exists l, cp_prog p = l ++ cp_prog p'.
Proof.
  unfold core_step_sys. intros H. assert (Z0 : forall l : list cop, exists l0, l = l0 ++ l) by (intros l; now exists []).
  assert (Z1 : forall o (l : list cop), exists l0, o :: l = l0 ++ l) by (intros o l; now exists [o]).
  destruct (cp_phase p).
  - destruct (cp_prog p) as [|o rest] eqn:P; [discriminate|].
    destruct o; try (destruct (exec_local _ _ _) as ([u|e] & k1); [injection H as <- <-; cbn; auto|discriminate]).
    + destruct (load_address _ _ _) as ([a|e] & k1); [|discriminate].
      destruct (dc_submit _ _ _ _ _) as ([r|e] & d1) eqn:E; [|discriminate]. injection H as <- <-. cbn [cp_prog]. auto.
    + destruct (store_request _ _ _ _ _ _) as ([(a & v)|e] & k1); [|discriminate]. injection H as <- <-. cbn [cp_prog]. auto.
    + injection H as <- <-. cbn [cp_prog]. auto.
  - destruct (result_of _ _); [|discriminate]. destruct (cp_prog p) as [|o rest]; [discriminate|].
    destruct o; try discriminate. destruct (load_finish _ _ _ _) as ([u|e] & k1); [|discriminate]. injection H as <- <-. cbn [cp_prog]. auto.
  - destruct (dc_submit _ _ _ _ _) as ([r|e] & d1) eqn:E; [|discriminate]. injection H as <- <-. cbn [cp_prog]. auto.
  - destruct (result_of _ _); [|discriminate]. destruct (cp_prog p); [discriminate|]. injection H as <- <-. cbn [cp_prog]. auto.
  - discriminate.
Qed.
Lemma tile_go_prog c now i n t n' t' : tile_go c now i n t n' t' -> t_cores t' = t_cores t /\ exists l, t_prog t = l ++ t_prog t'.
Proof.
  assert (Z0 : forall l : list top, exists l0, l = l0 ++ l) by (intros l; now exists []).
  assert (Z1 : forall o (l : list top), exists l0, o :: l = l0 ++ l) by (intros o l; now exists [o]).
  destruct 1; cbn [t_cores t_prog set_phase next_op]; (split; [reflexivity|]); auto; rewrite H; cbn [tl]; auto.
Qed.

Record from_job (j : job) (i : Z) (t : tile) : Prop := {
  fj_prog : exists l, j_prog j i = l ++ t_prog t;
  fj_cores : forall k p, nth_error (t_cores t) k = Some p -> exists x l, nth_error (j_cores j i) k = Some x /\ snd x = l ++ cp_prog p }.

Lemma sreach_from_job c j t s : sreach c j t s -> forall i, from_job j i (s_tile s i).
Proof.
  induction 1 as [t|t t' a s s' R IH L H]; intros i.
  - split; cbn.
    + now exists [].
    + intros k p E. rewrite nth_error_map in E. destruct (nth_error (j_cores j i) k) as [x|]; [|discriminate]. injection E as <-.
      exists x, []. split; reflexivity.
  - destruct (sstep_go _ _ _ _ _ H) as (_ & G).
    assert (SAME : forall i0 t1, from_job j i0 t1 -> s_tile s' = set_fun (s_tile s) i0 t1 -> from_job j i (s_tile s' i)).
    { intros i0 t1 F ->. destruct (Z.eq_dec i i0) as [->|N]; [rewrite set_fun_eq; exact F|rewrite set_fun_neq by auto; apply IH]. }
    destruct G as [i0 a0 d N O E C SN ST|a0 n O E C SN ST|i0 k p d p' N K P E C SN ST|i0 n t1 N E C SN ST|i0 k p e N K P E ->|i0 e N E ->]; try apply IH.
    + refine (SAME _ _ _ ST). destruct (IH i0) as [F1 F2]. split; [exact F1|exact F2].
    + rewrite ST. apply IH.
    + refine (SAME _ _ _ ST). destruct (IH i0) as [F1 F2]. split; [exact F1|]. cbn [t_cores]. intros k' q Q.
      destruct (Nat.eq_dec k' (Z.to_nat k)) as [->|NE].
      * rewrite nth_error_upd, Nat.eqb_refl, P in Q. injection Q as <-.
        destruct (F2 _ _ P) as (x & l & X & Y). destruct (core_step_prog _ _ _ _ _ _ _ E) as (l2 & Z). exists x, (l ++ l2). split; [exact X|].
        now rewrite Y, Z, app_assoc.
      * rewrite nth_error_upd in Q. destruct (Nat.eqb_spec (Z.to_nat k) k'); [congruence|]. eauto.
    + refine (SAME _ _ _ ST). apply tile_step_go, tile_go_prog in E as (E1 & l2 & E2). destruct (IH i0) as [(l & F1) F2]. split.
      * exists (l ++ l2). now rewrite F1, E2, app_assoc.
      * rewrite E1. exact F2.
Qed.

(** The owner of a waiting read is a reader. *)
Definition reads_as (j : job) (i k : Z) : Prop :=
  (k = -1 /\ sends (j_prog j i) = true) \/ (0 <= k /\ exists x, nth_error (j_cores j i) (Z.to_nat k) = Some x /\ loads (snd x) = true).
Lemma waiting_reader j i t k id a w v : from_job j i t -> agent_req t k = Some (id, a, RRead w v) -> reads_as j i k.
Proof.
  intros [(l & F1) F2] H. unfold agent_req in H. destruct (Z.eqb_spec k (-1)) as [->|N].
  - left. split; [reflexivity|]. unfold prog_req in H. destruct (t_phase t); try discriminate.
    + destruct (t_prog t) as [|[] rest]; try discriminate. rewrite F1. unfold sends. rewrite existsb_app. cbn. apply orb_true_r.
    + destruct (t_prog t) as [|[] rest]; try discriminate. destruct (last _ _) as [(? & ?)|]; discriminate.
  - right. destruct (k <? 0) eqn:K; [discriminate|]. split; [lia|]. destruct (nth_error _ _) as [p|] eqn:P; [|discriminate].
    destruct (F2 _ _ P) as (x & l2 & X & Y). exists x. split; [exact X|]. unfold core_req in H.
    destruct (cp_phase p) as [|? ?|? ?|?|]; try discriminate.
    + destruct (cp_prog p) as [|[] rest]; try discriminate. rewrite Y. unfold loads. rewrite existsb_app. cbn. apply orb_true_r.
    + destruct (last _ _) as [(? & ?)|]; discriminate.
Qed.
Lemma two_filtered {A} (f : A -> bool) l : forall k1 k2 x y, (k1 < k2)%nat -> nth_error l k1 = Some x -> nth_error l k2 = Some y -> f x = true -> f y = true ->
  2 <= zlen (filter f l).
Proof.
  assert (ONE : forall l k y, nth_error l k = Some y -> f y = true -> 1 <= zlen (filter f l)).
  { clear l. intros l k y E Y. apply nth_error_In in E. assert (I : In y (filter f l)) by (apply filter_In; auto).
    destruct (filter f l); [destruct I|]. rewrite zlen_cons. pose proof (zlen_nonneg l0). lia. }
  induction l as [|z l IH]; intros k1 k2 x y L X Y FX FY; [destruct k1; discriminate|].
  destruct k2 as [|k2]; [lia|]. cbn in Y. destruct k1 as [|k1]; cbn in X.
  - injection X as ->. cbn. rewrite FX, zlen_cons. specialize (ONE _ _ _ Y FY). lia.
  - specialize (IH k1 k2 x y ltac:(lia) X Y FX FY). cbn. destruct (f z); rewrite ?zlen_cons; lia.
Qed.
Lemma same_reader j i k1 k2 : readers j i <= 1 -> reads_as j i k1 -> reads_as j i k2 -> k1 = k2.
Proof.
  intros R H1 H2. unfold readers in R. pose proof (zlen_nonneg (filter (fun x => loads (snd x)) (j_cores j i))) as P.
  assert (MIX : forall k, sends (j_prog j i) = true -> (0 <= k /\ exists x, nth_error (j_cores j i) (Z.to_nat k) = Some x /\ loads (snd x) = true) -> False).
  { intros k S (_ & x & E & X). rewrite S in R. apply nth_error_In in E.
    assert (I : In x (filter (fun x => loads (snd x)) (j_cores j i))) by (apply filter_In; auto).
    destruct (filter _ _); [destruct I|]. rewrite zlen_cons in R. pose proof (zlen_nonneg l). lia. }
  destruct H1 as [(-> & S1)|C1], H2 as [(-> & S2)|C2]; [reflexivity|exfalso; eauto|exfalso; eauto|].
  destruct C1 as (K1 & x & X & FX), C2 as (K2 & y & Y & FY). destruct (Z.lt_trichotomy k1 k2) as [L|[L|L]]; [exfalso|exact L|exfalso].
  - assert (LT : (Z.to_nat k1 < Z.to_nat k2)%nat) by lia. pose proof (two_filtered (fun x => loads (snd x)) _ _ _ _ _ LT X Y FX FY). destruct (sends _); lia.
  - assert (LT : (Z.to_nat k2 < Z.to_nat k1)%nat) by lia. pose proof (two_filtered (fun x => loads (snd x)) _ _ _ _ _ LT Y X FY FX). destruct (sends _); lia.
Qed.

Lemma dinv_nodup lat size t d : dinv lat size t d -> NoDup (map q_id (d_queue d ++ d_pending d ++ d_bus d ++ completed (d_history d))).
Proof.
  intros I. eapply Permutation_NoDup; [apply Permutation_map; exact (i_place _ _ _ _ I)|]. rewrite (i_ids _ _ _ _ I). apply nodup_zrange.
Qed.
Lemma NoDup_app_l {A} (l m : list A) : NoDup (l ++ m) -> NoDup l.
Proof. induction l as [|x l IH]; [constructor|]. cbn. intros N. inversion_clear N as [|? ? N1 N2]. constructor; [|auto]. intros X. apply N1, in_app_iff. auto. Qed.
Lemma NoDup_app_r' {A} (l m : list A) : NoDup (l ++ m) -> NoDup m.
Proof. induction l as [|x l IH]; [auto|]. cbn. intros N. inversion_clear N. auto. Qed.
Lemma nodup_disjoint {A} (l m : list A) x : NoDup (l ++ m) -> In x l -> In x m -> False.
Proof. induction l as [|y l IH]; [tauto|]. cbn. intros N [->|I] J; inversion_clear N as [|? ? N1 N2]; [apply N1, in_app_iff; auto|eauto]. Qed.

Lemma one_pending c j t s i : 0 <= y_size c -> sreach c j t s -> readers j i <= 1 -> zlen (d_pending (t_dram (s_tile s i))) <= 1.
Proof.
  intros SZ R L. pose proof (sreach_dinv _ _ SZ _ _ R i) as DI. pose proof (sreach_tinv _ _ SZ _ _ R i) as TI. pose proof (sreach_from_job _ _ _ _ R i) as FJ.
  set (d := t_dram (s_tile s i)) in *. pose proof (dinv_nodup _ _ _ _ DI) as ND. rewrite !map_app in ND. apply NoDup_app_r' in ND.
  assert (NP : NoDup (map q_id (d_pending d))) by (eapply NoDup_app_l; eauto).
  assert (OWN : forall r, In r (d_pending d) -> In r (d_submitted d) /\ agent_req (s_tile s i) (q_core r) = Some (q_id r, q_start r, q_kind r) /\ reads_as j i (q_core r)).
  { intros r IR. assert (IS : In r (d_submitted d)).
    { eapply Permutation_in; [apply Permutation_sym, (i_place _ _ _ _ DI)|]. rewrite !in_app_iff. auto. }
    split; [exact IS|]. destruct (ow_wait _ _ _ _ (ti_own _ _ _ _ TI) r IS) as [X|X].
    - exfalso. eapply (nodup_disjoint _ _ (q_id r) ND); [now apply in_map|]. apply in_app_iff. right. now apply in_map.
    - split; [exact X|]. pose proof (proj1 (Forall_forall _ _) (i_reads _ _ _ _ DI) r IR) as (RD & _). unfold is_read in RD.
      destruct (q_kind r) eqn:K; [|discriminate]. eapply waiting_reader; eauto. }
  destruct (d_pending d) as [|r1 [|r2 l]]; [unfold zlen; cbn; lia|unfold zlen; cbn; lia|exfalso].
  destruct (OWN r1) as (_ & Q1 & K1); [now left|]. destruct (OWN r2) as (_ & Q2 & K2); [right; now left|].
  rewrite (same_reader _ _ _ _ L K1 K2) in Q1. assert (E : q_id r1 = q_id r2) by congruence.
  cbn in NP. inversion_clear NP as [|? ? N1 N2]. apply N1. rewrite E. now left.
Qed.

(** A read waits only while it is not ready. *)
Definition none_ready (d : dram) : Prop := forall r, In r (d_pending d) -> ready (d_valid d) r = false.
Lemma own_none_ready lat now a d d' : dram_own a = true -> NoDup (map q_id (d_pending d)) -> zlen (d_pending d) <= 1 ->
  none_ready d -> dstep lat now a d = Some d' -> d_crash d' = None -> none_ready d'.
Proof.
  intros O ND L NR H C. unfold dstep in H. destruct (d_crash d) eqn:CD; [discriminate|]. destruct a; try discriminate O.
  - unfold dc_handle in H. destruct (d_running d); [|discriminate]. cbn [negb] in H. destruct (d_queue d) as [|r rest]; [discriminate|].
    destruct (is_read r && negb (ready (d_valid d) r)) eqn:E; injection H as <-; [|exact NR].
    unfold none_ready. cbn [d_pending d_valid]. intros x [X|[<-|[]]]%in_app_iff; [now apply NR|].
    apply andb_prop in E as (_ & E). now destruct (ready (d_valid d) r).
  - unfold dc_grant in H. destruct (d_bus d); [discriminate|]. destruct (d_granted d); [discriminate|].
    destruct (_ <? 0); injection H as <-; [discriminate C|exact NR].
  - unfold dc_finish in H. destruct (d_bus d); [discriminate|]. destruct (d_granted d); [|discriminate].
    destruct (_ <? _); [discriminate|]. destruct (q_kind r).
    + destruct (mem_read _ _ _ _) as ([x|e] & m); injection H as <-; [exact NR|discriminate C].
    + destruct (mem_write _ _ _ _) as ([x|e] & m); [|injection H as <-; discriminate C].
      rewrite update_ready_skip in H by assumption. injection H as <-. unfold none_ready. cbn [d_pending d_valid].
      destruct (d_pending d) as [|p [|p2 l2]]; [intros x0 []| |rewrite !zlen_cons in L; pose proof (zlen_nonneg l2); lia].
      cbn [skip_release]. destruct (ready _ p) eqn:E; cbn [fst snd].
      * intros x0 X. cbn in X. tauto.
      * intros x0 X. cbn in X. destruct X as [<-|[]]. exact E.
Qed.
Lemma submit_none_ready now k a kd d r d' : dc_submit now k a kd d = (Ok r, d') -> none_ready d -> none_ready d'.
Proof. unfold dc_submit. destruct (d_running d); [|discriminate]. cbn [negb]. intros [= <- <-] N. exact N. Qed.
Lemma stop_none_ready now d : none_ready d -> none_ready (dc_stop now d).
Proof. unfold dc_stop. destruct (d_running d); cbn [negb]; auto. Qed.

Lemma sreach_none_ready c j : 0 <= y_size c -> (forall i, on_node c i -> readers j i <= 1) -> forall t s, sreach c j t s -> s_crash s = None ->
  forall i, on_node c i -> none_ready (t_dram (s_tile s i)).
Proof.
  intros SZ RD. induction 1 as [t|t t' a s s' R IH L H]; intros NC i N.
  - cbn. unfold start_dram. destruct (i =? 0).
    + unfold dc_preload. cbn. destruct (_ <? _); cbn; intros r [].
    + cbn. intros r [].
  - destruct (sstep_go _ _ _ _ _ H) as (NC0 & G). specialize (IH NC0).
    pose proof (sreach_dinv _ _ SZ _ _ R) as DI.
    destruct G as [i0 a0 d N0 O E C SN ST|a0 n O E C SN ST|i0 k p d p' N0 K P E C SN ST|i0 n t1 N0 E C SN ST|i0 k p e N0 K P E ->|i0 e N0 E ->].
    + rewrite ST. destruct (Z.eq_dec i i0) as [->|NE]; [rewrite set_fun_eq|rewrite set_fun_neq by auto; now apply IH]. cbn [t_dram].
      eapply own_none_ready; [exact O| |exact (one_pending _ _ _ _ i0 SZ R (RD _ N0))|exact (IH _ N0)|exact E|congruence].
      pose proof (dinv_nodup _ _ _ _ (DI i0)) as ND. rewrite !map_app in ND. apply NoDup_app_r', NoDup_app_l in ND. exact ND.
    + rewrite ST. now apply IH.
    + rewrite ST. destruct (Z.eq_dec i i0) as [->|NE]; [rewrite set_fun_eq|rewrite set_fun_neq by auto; now apply IH]. cbn [t_dram].
      destruct (core_step_dram _ _ _ _ _ _ _ E) as [->|(a1 & kd & r & S)]; [now apply IH|]. eapply submit_none_ready; [exact S|now apply IH].
    + rewrite ST. destruct (Z.eq_dec i i0) as [->|NE]; [rewrite set_fun_eq|rewrite set_fun_neq by auto; now apply IH].
      apply tile_step_go, tile_go_dram in E as [->|[(a1 & kd & r & S)| -> ]]; [now apply IH| |apply stop_none_ready; now apply IH].
      eapply submit_none_ready; [exact S|now apply IH].
    + discriminate NC.
    + discriminate NC.
Qed.

Lemma single_reader c j t s : 0 <= y_size c -> (forall i, on_node c i -> readers j i <= 1) -> sreach c j t s -> s_crash s = None -> ~ missed_read c s.
Proof.
  intros SZ RD R NC (i & r & N & IR & PR & V). pose proof (sreach_none_ready _ _ SZ RD _ _ R NC i N r IR) as NR.
  pose proof (sreach_dinv _ _ SZ _ _ R i) as DI. apply not_true_iff_false in NR. apply NR. apply ready_all_valid; [exact PR|].
  intros a A B. apply V. exact A.
Qed.
