(** Proofs: what a reset restores, when it raises, and that the second run is the first. *)
From Verif Require Import PyBase PyLemmas ConfigModel MemoryModel VfuModel FloatModel MvmuModel CoreModel DramModel DramSpec DramProofs RouterModel RouterSpec
  SystemModel SystemSpec SystemBase SystemInv SystemClaims NodeModel NodeSpec NodeProofs NodeWipe MemoryProofs.
From Coq Require Import ZifyBool ZifyNat FunctionalExtensionality.

Lemma core_step_wipe c now k d p d' p' : sized (cp_core p) -> core_step_sys c now k d p = Go (d', p') -> wipe (y_core c) (cp_core p') = wipe (y_core c) (cp_core p).
Proof.
  intros S. unfold core_step_sys. destruct (cp_phase p) as [|id a|a rows|id|].
  - destruct (cp_prog p) as [|o rest]; [discriminate|].
    assert (LOC : match exec_local (y_core c) (cp_core p) o with (Raise e, _) => Crash e | (Ok _, k1) => Go (d, MkCProc k1 rest PReady (cp_writes p)) end = Go (d', p') ->
      wipe (y_core c) (cp_core p') = wipe (y_core c) (cp_core p)).
    { pose proof (local_wipe (y_core c) (cp_core p) o S) as W. destruct (exec_local _ _ _) as ([x|e] & k1); [|discriminate]. intros [= <- <-]. exact W. }
    destruct o as [dest read width vec|dest read width vec| | | | |]; try exact LOC.
    + unfold load_address. pose proof (read_wipe (y_core c) (cp_core p) read 1) as R. destruct (read_from_register _ _ _ _) as ([[|a0 l]|e] & k1); try discriminate.
      destruct (dc_submit _ _ _ _ _) as ([q|e] & d1); [|discriminate]. intros [= <- <-]. exact R.
    + unfold store_request. pose proof (read_wipe (y_core c) (cp_core p) dest 1) as R. destruct (read_from_register _ _ _ _) as ([[|a0 l]|e] & k1); try discriminate.
      cbn [snd] in R. pose proof (read_wipe (y_core c) k1 read (width * vec)) as R2. destruct (read_from_register _ k1 _ _) as ([v|e] & k2); try discriminate.
      destruct (_ || _); [discriminate|]. intros [= <- <-]. cbn [cp_core snd] in *. congruence.
    + intros [= <- <-]. reflexivity.
  - destruct (result_of _ _); [|discriminate]. destruct (cp_prog p) as [|[dest r w v| | | | | |] rest]; try discriminate. unfold load_finish.
    pose proof (write_wipe (y_core c) (cp_core p) dest l S) as W. destruct (write_to_register _ _ _ _) as ([x|e] & k1); [|discriminate]. intros [= <- <-]. exact W.
  - destruct (dc_submit _ _ _ _ _) as ([q|e] & d1); [|discriminate]. intros [= <- <-]. reflexivity.
  - destruct (result_of _ _); [|discriminate]. destruct (cp_prog p); [discriminate|]. intros [= <- <-]. reflexivity.
  - discriminate.
Qed.

Lemma tile_go_cores c now i n t n' t' : tile_go c now i n t n' t' -> t_cores t' = t_cores t.
Proof. destruct 1; reflexivity. Qed.

Lemma sreach_wipe c j t s : (forall i, on_node c i -> Forall (fun x => sized (fst x)) (j_cores j i)) -> sreach c j t s ->
  forall i, map (fun p => wipe (y_core c) (cp_core p)) (t_cores (s_tile s i)) = map (fun x => wipe (y_core c) (fst x)) (j_cores j i).
Proof.
  intros SZ R. induction R as [t|t t' a s s' R IH T H].
  - intros i. cbn. now rewrite map_map.
  - apply sstep_go in H as (_ & G). destruct G as [i a0 d ON O H X N TL|a0 n O H X N TL|i k p d p' ON K NE H X N TL|i n tt ON H X N TL|i k p e ON K NE H ->|i e ON H ->]; auto; intros i'; rewrite TL; auto.
    + unfold set_fun. destruct (Z.eqb_spec i' i) as [->|]; auto. apply IH.
    + unfold set_fun. destruct (Z.eqb_spec i' i) as [->|]; auto. cbn [t_cores]. rewrite <- IH.
      rewrite <- (upd_map (fun p => wipe (y_core c) (cp_core p))).
      assert (S : sized (cp_core p)).
      { specialize (SZ i ON). pose proof (IH i) as E. pose proof (f_equal (fun l => nth_error l (Z.to_nat k)) E) as E1. cbv beta in E1. rewrite !nth_error_map, NE in E1.
        destruct (nth_error (j_cores j i) (Z.to_nat k)) as [x|] eqn:NX; [|discriminate E1]. rewrite Forall_forall in SZ. specialize (SZ x (nth_error_In _ _ NX)).
        cbn [option_map] in E1. apply (sized_wipe (y_core c) _ (fst x)); [|exact SZ]. exact (f_equal (fun o => match o with Some y => y | None => wipe (y_core c) (fst x) end) E1). }
      rewrite (core_step_wipe _ _ _ _ _ _ _ S H). rewrite (upd_map (fun p => wipe (y_core c) (cp_core p))). now rewrite upd_id.
    + unfold set_fun. destruct (Z.eqb_spec i' i) as [->|]; auto. apply tile_step_go, tile_go_cores in H. rewrite H. apply IH.
Qed.

Lemma zeros_repeat n : map (fun _ : Z => 0) (repeat 0 n) = repeat 0 n.
Proof. induction n; cbn; congruence. Qed.
Lemma fresh_wipe c k : fresh_core c k -> wipe c k = k.
Proof.
  destruct k as [m v us]. intros (C & V & U). cbn in *. subst. unfold wipe. cbn. f_equal.
  - unfold mem_reset, mem_init. cbn. now rewrite zeros_repeat.
  - induction U as [|u us (A & B & S) U IH]; [reflexivity|]. cbn [map]. rewrite IH. f_equal. destruct u as [a b p n sp sn st]. cbn in *. subst. unfold wipe_unit. cbn.
    unfold inreg_reset, inreg_init, outreg_reset, outreg_init. cbn. rewrite zeros_repeat. f_equal. unfold wipe_stats, mv_stats0. cbn. now destruct (have_sram _).
Qed.
Lemma fresh_sized c k : 0 <= k_cache c -> 0 <= c_size (k_mv c) -> fresh_core c k -> sized k.
Proof.
  intros Z1 Z2 (C & V & U). split.
  - rewrite C. cbn. unfold zlen. rewrite repeat_length. lia.
  - eapply Forall_impl; [|exact U]. intros u (A & _). rewrite A. cbn. unfold zlen. rewrite repeat_length. lia.
Qed.

(** ** Reset of the cores *)
Lemma reset_mvmus_ok c us : have_rram (c_storage c) = true \/ us = [] ->
  reset_mvmus c us = (Ok tt, map (fun u => snd (mvmu_reset c u)) us).
Proof.
  intros [H|E]; [|now subst]. induction us as [|u us IH]; [reflexivity|]. cbn [reset_mvmus]. rewrite IH. unfold mvmu_reset. rewrite H. reflexivity.
Qed.
Lemma reset_mvmus_raise c us : have_rram (c_storage c) = false -> us <> [] -> fst (reset_mvmus c us) = Raise AttributeError.
Proof. intros H N. destruct us; [congruence|]. cbn. unfold mvmu_reset. rewrite H. reflexivity. Qed.
Lemma core_reset_ok c k : have_rram (c_storage (k_mv c)) = true \/ co_mvmus k = [] ->
  exists k', core_reset c k = (Ok tt, k') /\ core_without_sram k' = core_without_sram (wipe c k) /\ (have_sram (c_storage (k_mv c)) = false -> k' = wipe c k).
Proof.
  intros H. unfold core_reset. rewrite (reset_mvmus_ok _ _ H). eexists. split; [reflexivity|]. unfold core_without_sram, wipe. cbn. rewrite !map_map. split.
  - f_equal. destruct H as [H|E]; [|now rewrite E]. apply map_ext. intros u. unfold mvmu_reset. rewrite H. reflexivity.
  - intros NS. f_equal. destruct H as [H|E]; [|now rewrite E]. apply map_ext. intros u. unfold mvmu_reset. rewrite H. cbn. unfold wipe_unit, wipe_stats. now rewrite NS.
Qed.
Lemma reset_cores_ok c ps : Forall (fun p => have_rram (c_storage (k_mv c)) = true \/ co_mvmus (cp_core p) = []) ps ->
  exists ps', reset_cores c ps = (Ok tt, ps') /\ length ps' = length ps /\
    map (fun p => core_without_sram (cp_core p)) ps' = map (fun p => core_without_sram (wipe c (cp_core p))) ps /\
    (have_sram (c_storage (k_mv c)) = false -> map cp_core ps' = map (fun p => wipe c (cp_core p)) ps).
Proof.
  induction 1 as [|p ps H F (ps' & E & L & A & B)]; [exists []; auto|]. destruct (core_reset_ok c (cp_core p) H) as (k' & E1 & A1 & B1).
  cbn [reset_cores]. rewrite E1, E. eexists. split; [reflexivity|]. split; [cbn; congruence|]. split; [cbn; rewrite A, A1; reflexivity|]. intros N. cbn. now rewrite (B N), (B1 N).
Qed.
Lemma reset_cores_raise c ps p : have_rram (c_storage (k_mv c)) = false -> In p ps -> co_mvmus (cp_core p) <> [] -> fst (reset_cores c ps) = Raise AttributeError.
Proof.
  intros H. induction ps as [|q ps IH]; [intros []|]. intros I N. cbn [reset_cores]. unfold core_reset.
  destruct (co_mvmus (cp_core q)) as [|u us] eqn:E.
  - destruct I as [->|I]; [congruence|]. cbn [reset_mvmus]. specialize (IH I N). destruct (reset_cores c ps). exact IH.
  - pose proof (reset_mvmus_raise (k_mv c) (u :: us) H ltac:(discriminate)) as R. destruct (reset_mvmus _ _) as (r & us'). cbn [fst] in R. subst r. reflexivity.
Qed.

(** ** Reset of the tiles *)
Lemma reset_tiles_ok c : forall l s, NoDup l -> (forall i, In i l -> fst (tile_reset c (s_tile s i)) = Ok tt) ->
  exists s', reset_tiles c l s = (Ok tt, s') /\ s_crash s' = s_crash s /\ n_crash (s_net s') = n_crash (s_net s) /\
    (forall i, In i l -> s_tile s' i = snd (tile_reset c (s_tile s i)) /\ n_router (s_net s') i = router_reset (n_router (s_net s) i)) /\
    (forall i, ~ In i l -> s_tile s' i = s_tile s i /\ n_router (s_net s') i = n_router (s_net s) i).
Proof.
  induction l as [|i l IH]; intros s ND H; cbn [reset_tiles]; [exists s; repeat split; auto; contradiction|].
  inversion ND as [|? ? N1 N2]; subst. pose proof (H i (or_introl eq_refl)) as HI. destruct (tile_reset c (s_tile s i)) as (r & t) eqn:E. cbn [fst] in HI. subst r.
  set (s1 := MkSys _ _ _). destruct (IH s1 N2) as (s' & E1 & C1 & C2 & IN & OUT).
  { intros k K. cbn. rewrite set_fun_neq by congruence. apply H. now right. }
  exists s'. split; [exact E1|]. split; [exact C1|]. split; [exact C2|]. split.
  - intros k [<-|K].
    + destruct (OUT i N1) as (A & B). rewrite A, B. cbn. rewrite !set_fun_eq, E. auto.
    + destruct (IN k K) as (A & B). rewrite A, B. cbn. rewrite !set_fun_neq by congruence. auto.
  - intros k K. cbn in K. destruct (OUT k ltac:(tauto)) as (A & B). rewrite A, B. cbn. rewrite !set_fun_neq by (intros ->; tauto). auto.
Qed.
Lemma reset_tiles_raise c i e : forall l s, NoDup l -> In i l -> fst (tile_reset c (s_tile s i)) = Raise e ->
  (forall k e', In k l -> fst (tile_reset c (s_tile s k)) = Raise e' -> e' = e) -> fst (reset_tiles c l s) = Raise e.
Proof.
  induction l as [|k l IH]; intros s ND H E U; [contradiction|]. inversion ND as [|? ? N1 N2]; subst. cbn [reset_tiles].
  destruct (tile_reset c (s_tile s k)) as (r & t) eqn:TR. destruct r as [x|e'].
  - destruct H as [->|H]; [rewrite TR in E; discriminate|]. apply IH; auto.
    + cbn. rewrite set_fun_neq by congruence. exact E.
    + intros k' e' K. cbn. rewrite set_fun_neq by congruence. apply U. now right.
  - cbn. f_equal. apply (U k); [now left|]. now rewrite TR.
Qed.
Lemma tiles_of c i : In i (zrange (w_tiles (y_net c))) <-> on_node c i.
Proof. apply in_zrange. Qed.

Lemma job_sized c j : fresh_job c j -> forall i, on_node c i -> Forall (fun x => sized (fst x)) (j_cores j i).
Proof. intros (Z1 & Z2 & F) i O. eapply Forall_impl; [|exact (F i O)]. intros x. now apply fresh_sized. Qed.
Lemma job_wipe c j i : fresh_job c j -> on_node c i -> map (fun x => wipe (y_core c) (fst x)) (j_cores j i) = map fst (j_cores j i).
Proof.
  intros (_ & _ & F) O. specialize (F i O). induction F as [|x l H F IH]; [reflexivity|]. cbn [map]. now rewrite IH, (fresh_wipe _ _ H).
Qed.
(** The cores have the matrix units of the job. *)
Lemma units_kept c j t s i : fresh_job c j -> sreach c j t s -> on_node c i ->
  map (fun p => length (co_mvmus (cp_core p))) (t_cores (s_tile s i)) = map (fun x => length (co_mvmus (fst x))) (j_cores j i).
Proof.
  intros F R O. pose proof (sreach_wipe c j t s (job_sized c j F) R i) as W.
  apply (f_equal (map (fun k => length (co_mvmus k)))) in W. rewrite !map_map in W. cbn in W.
  erewrite map_ext with (g := fun x => length (co_mvmus (fst x))) in W by (intros; apply map_length).
  erewrite map_ext with (g := fun p => length (co_mvmus (cp_core p))) in W by (intros; apply map_length). exact W.
Qed.
Lemma nth_in_map {A B} (f : A -> nat) (g : B -> nat) (l : list A) (l' : list B) x : map f l = map g l' -> In x l -> exists y, In y l' /\ f x = g y.
Proof. intros E I. apply (in_map f) in I. rewrite E in I. apply in_map_iff in I as (y & Y & I). eauto. Qed.

(** ** When reset raises (C53) *)
Lemma reset_result c j t s : fresh_job c j -> sreach c j t s ->
  (units_have_rram c j -> fst (sys_reset c s) = Ok tt) /\
  (~ units_have_rram c j -> fst (sys_reset c s) = Raise AttributeError).
Proof.
  intros F R. split.
  - intros U. unfold sys_reset. edestruct reset_tiles_ok with (c := c) (l := zrange (w_tiles (y_net c))) (s := s) as (s' & E & _); [apply DramProofs.nodup_zrange| |now rewrite E].
    intros i I. apply tiles_of in I. unfold tile_reset.
    destruct (reset_cores_ok (y_core c) (t_cores (s_tile s i))) as (ps & E & _); [|now rewrite E].
    apply Forall_forall. intros p P. destruct U as [U|U]; [now left|]. right. specialize (U i I). rewrite Forall_forall in U.
    destruct (nth_in_map _ _ _ _ p (units_kept c j t s i F R I) P) as (x & X & L). rewrite (U x X) in L. cbn in L. now apply length_zero_iff_nil.
  - intros U. assert (NR : have_rram (c_storage (k_mv (y_core c))) = false).
    { destruct (have_rram _) eqn:E; [|reflexivity]. elim U. now left. }
    assert (EX : exists i, on_node c i /\ exists x, In x (j_cores j i) /\ co_mvmus (fst x) <> []).
    { destruct (existsb (fun i => existsb (fun x => negb (is_nil (co_mvmus (fst x)))) (j_cores j i)) (zrange (w_tiles (y_net c)))) eqn:E.
      - apply existsb_exists in E as (i & I & E). apply existsb_exists in E as (x & X & E). exists i. split; [now apply tiles_of|]. exists x. split; [exact X|]. intros Z. now rewrite Z in E.
      - elim U. right. intros i I. apply Forall_forall. intros x X. destruct (co_mvmus (fst x)) eqn:Z; [reflexivity|]. exfalso. apply not_true_iff_false in E. apply E.
        apply existsb_exists. exists i. split; [now apply tiles_of|]. apply existsb_exists. exists x. split; [exact X|]. now rewrite Z. }
    destruct EX as (i & I & x & X & N). destruct (nth_in_map _ _ _ _ x (eq_sym (units_kept c j t s i F R I)) X) as (p & P & L).
    assert (NP : co_mvmus (cp_core p) <> []) by (intros Z; rewrite Z in L; cbn in L; apply N; now apply length_zero_iff_nil).
    unfold sys_reset. apply (reset_tiles_raise c i); [apply DramProofs.nodup_zrange|now apply tiles_of| |].
    + unfold tile_reset. pose proof (reset_cores_raise (y_core c) _ p NR P NP) as E. destruct (reset_cores _ _). exact E.
    + intros k e' K. unfold tile_reset. assert (G : forall ps e, fst (reset_cores (y_core c) ps) = Raise e -> e = AttributeError).
      { clear - NR. induction ps as [|p ps IH]; cbn; [discriminate|]. intros e. unfold core_reset. destruct (co_mvmus (cp_core p)) as [|u us] eqn:E.
        - cbn. specialize (IH e). destruct (reset_cores (y_core c) ps). exact IH.
        - pose proof (reset_mvmus_raise (k_mv (y_core c)) (u :: us) NR ltac:(discriminate)) as Z. destruct (reset_mvmus _ _) as (r & us'). cbn [fst] in Z. subst r. cbn. congruence. }
      specialize (G (t_cores (s_tile s k)) e'). destruct (reset_cores _ _). exact G.
Qed.

(** ** What reset restores (C52) *)
Lemma zeros_of {A} (x : A) {B} (l : list B) n : zlen l = n -> map (fun _ => x) l = repeat x (Z.to_nat n).
Proof. intros <-. unfold zlen. rewrite Nat2Z.id. induction l; cbn; congruence. Qed.

Lemma reset_restores c j t s : 0 <= y_size c -> fresh_job c j -> units_have_rram c j -> sreach c j t s ->
  exists s', sys_reset c s = (Ok tt, s') /\ s_crash s' = s_crash s /\ n_crash (s_net s') = n_crash (s_net s) /\
    forall i, on_node c i ->
      t_dram (s_tile s' i) = dc_reset (t_dram (s_tile s i)) /\ n_router (s_net s') i = router_reset (n_router (s_net s) i) /\ restored c j i s'.
Proof.
  intros SZ F U R. unfold sys_reset.
  assert (OKC : forall i, on_node c i -> exists ps', reset_cores (y_core c) (t_cores (s_tile s i)) = (Ok tt, ps') /\
    map (fun p => core_without_sram (cp_core p)) ps' = map (fun x => core_without_sram (fst x)) (j_cores j i) /\
    (have_sram (c_storage (k_mv (y_core c))) = false -> map cp_core ps' = map fst (j_cores j i))).
  { intros i I. destruct (reset_cores_ok (y_core c) (t_cores (s_tile s i))) as (ps & E & L & A & B).
    - apply Forall_forall. intros p P. destruct U as [U|U]; [now left|]. right. specialize (U i I). rewrite Forall_forall in U.
      destruct (nth_in_map _ _ _ _ p (units_kept c j t s i F R I) P) as (x & X & LL). rewrite (U x X) in LL. cbn in LL. now apply length_zero_iff_nil.
    - exists ps. split; [exact E|]. pose proof (sreach_wipe c j t s (job_sized c j F) R i) as W. rewrite (job_wipe c j i F I) in W. split.
      + rewrite A. apply (f_equal (map core_without_sram)) in W. rewrite !map_map in W. exact W.
      + intros N. rewrite (B N). exact W. }
  destruct (reset_tiles_ok c (zrange (w_tiles (y_net c))) s) as (s' & E & C1 & C2 & IN & _); [apply DramProofs.nodup_zrange| |].
  { intros i I. apply tiles_of in I. destruct (OKC i I) as (ps & E & _). unfold tile_reset. now rewrite E. }
  exists s'. split; [exact E|]. split; [exact C1|]. split; [exact C2|]. intros i I. destruct (IN i (proj2 (tiles_of c i) I)) as (T & N). destruct (OKC i I) as (ps & EP & A & B).
  unfold tile_reset in T. rewrite EP in T. cbn [snd] in T. unfold restored. rewrite T, N. cbn [t_dram t_cores]. split; [reflexivity|]. split; [reflexivity|].
  pose proof (sreach_dinv c j SZ t s R i) as D. destruct D as [D1 D2 D3 _ _ _ _ _ _ _ _ _ _ _ _ _ _ _ _ _].
  cbn. repeat split; auto.
  - unfold mem_reset, mem_init. rewrite D1. f_equal. now apply zeros_of.
  - now apply zeros_of.
Qed.

(** ** The second run (C57) *)
Lemma combine_fst_length {A B} (l : list A) (l' : list B) : length l = length l' -> map fst (combine l l') = l /\ map snd (combine l l') = l'.
Proof. revert l'. induction l as [|x l IH]; intros [|y l'] E; cbn in *; try discriminate E; [auto|]. destruct (IH l' ltac:(congruence)) as (A1 & A2). now rewrite A1, A2. Qed.

Lemma run_again c j t s : 0 <= y_size c -> fresh_job c j -> units_have_rram c j -> all_halt c j -> sreach c j t s -> completed_run c s ->
  exists s0, sys_reset c s = (Ok tt, s0) /\ forall now j', same_programs j j' -> same_state (sys_again c now j' s0) (sys_start c now j').
Proof.
  intros SZ F U AH R (CR & DONE). destruct (reset_restores c j t s SZ F U R) as (s0 & E & C1 & C2 & RS). exists s0. split; [exact E|]. intros now j' (JP & JC).
  unfold same_state. split; [reflexivity|]. split; [reflexivity|]. split.
  - intros i. cbn. destruct (known_router (y_net c) i) eqn:K; [|reflexivity]. assert (I : on_node c i) by (unfold known_router in K; unfold on_node; lia).
    destruct (RS i I) as (_ & N & _). rewrite N.
    destruct (halted_is_quiet c j t s i SZ R (AH i I) (DONE i I)) as (_ & H2 & _). unfold router_run, router_reset. cbn. reflexivity.
  - intros i. cbn [s_tile sys_again]. destruct (known_router (y_net c) i) eqn:K; [|repeat split]. assert (I : on_node c i) by (unfold known_router in K; unfold on_node; lia).
    destruct (RS i I) as (D & _ & (M & V & ST & _ & _ & CO & _)).
    destruct (halted_is_quiet c j t s i SZ R (AH i I) (DONE i I)) as (_ & _ & _ & _ & _ & H6 & H7 & H8 & H9 & _).
    destruct (projections c j t s R) as (_ & _ & CF). destruct (CF CR) as (_ & CD).
    cbn [s_tile sys_start]. unfold same_tile. cbn [t_dram t_prog t_phase t_log t_cores]. split; [|repeat split].
    + rewrite D in M, V, ST |- *. cbn [d_mem d_valid d_stat dc_reset] in M, V, ST. unfold dram_again, start_dram.
      cbn [d_mem d_valid d_stat dc_reset d_running d_queue d_pending d_bus d_granted d_start_time d_crash]. rewrite M, V, H6, H7, H8, H9, (CD i).
      destruct (i =? 0); [|reflexivity]. unfold dc_preload. cbn [d_mem msize dram_init mem_init]. destruct (y_size c <? zlen (j_activation j')); reflexivity.
    + rewrite JC. assert (LL : length (t_cores (s_tile s0 i)) = length (j_cores j i)) by (apply (f_equal (@length _)) in CO; now rewrite !map_length in CO).
      rewrite !map_map. unfold proc_without_sram. cbn [cp_core cp_prog cp_phase cp_writes].
      revert CO LL. generalize (t_cores (s_tile s0 i)) as ps. induction (j_cores j i) as [|x l IH]; intros [|p ps] CO LL; try discriminate LL; [reflexivity|]. cbn [combine map fst snd] in *.
      f_equal; [f_equal; exact (f_equal (hd (core_without_sram (cp_core p))) CO)|]. apply IH; [exact (f_equal (@tl _) CO)|now injection LL].
Qed.
