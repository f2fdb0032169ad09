(** The example: the start, a run that completes and a run that gets stuck. *)
From Verif Require Import PyBase PyLemmas ConfigModel MemoryModel VfuModel FloatModel MvmuModel MvmuSpec MvmuLoad CoreModel CoreSpec CoreProofs
  DramModel DramSpec DramProofs RouterModel RouterSpec SystemModel SystemSpec LoaderModel LoaderSpec LoaderProofs LoaderWeights LoaderClaims
  MvmuAccept MvmuProofs SymMachine SymCore SymTile SymNet MlpProgram MlpRun MlpCheck MlpSpec MlpLoad LiveSpec LiveDet LiveBound LiveClaims SystemDet.
From Coq Require Import ZifyBool ZifyNat.
Open Scope Z_scope.

Lemma nth_error_ext {A} (l l' : list A) : (forall i, nth_error l i = nth_error l' i) -> l = l'.
Proof.
  revert l'; induction l as [|x l IH]; intros [|y l'] H; try reflexivity; try (specialize (H 0%nat); discriminate H).
  f_equal; [specialize (H 0%nat); cbn in H; congruence|]. apply IH. intros i. apply (H (S i)).
Qed.
Lemma upd_upd {A} (l : list A) n x y : upd (upd l n x) n y = upd l n y.
Proof. apply nth_error_ext. intros i. rewrite !nth_error_upd. destruct (n =? i)%nat; [|reflexivity]. now destruct (nth_error l i). Qed.
Lemma upd_same {A} (l : list A) n x : nth_error l n = Some x -> upd l n x = l.
Proof. intros H. apply nth_error_ext. intros i. rewrite nth_error_upd. destruct (n =? i)%nat eqn:E; [|reflexivity]. apply Nat.eqb_eq in E. subst i. now rewrite H. Qed.

(** ** Cores with loaded units are reached by loads *)
Lemma load_unit_run cc n ws : forall K u, nth_error (co_mvmus K) n = Some u ->
  exists ops, core_run cc K ops = set_mvmu K (Z.of_nat n) (loaded (k_mv cc) ws u).
Proof.
  induction ws as [|w ws IH]; intros K u H.
  - exists []. cbn [core_run fold_left loaded]. destruct K as [a b us]. unfold set_mvmu. cbn [co_cache co_vfu co_mvmus] in *. f_equal.
    rewrite Nat2Z.id. symmetry. now apply upd_same.
  - destruct (IH (set_mvmu K (Z.of_nat n) (snd (load_weights (k_mv cc) u w))) (snd (load_weights (k_mv cc) u w))) as (ops & E).
    { unfold set_mvmu. cbn [co_mvmus]. rewrite Nat2Z.id, nth_error_upd, Nat.eqb_refl, H. reflexivity. }
    exists (KLoad (Z.of_nat n) w :: ops). cbn [core_run fold_left core_step] in *.
    assert (G : get_mvmu K (Z.of_nat n) = Ok u).
    { unfold get_mvmu. assert (n < length (co_mvmus K))%nat by (apply nth_error_Some; congruence). unfold zlen.
      replace ((Z.of_nat n <? 0) || (Z.of_nat (length (co_mvmus K)) <=? Z.of_nat n)) with false by lia. now rewrite Nat2Z.id, H. }
    rewrite G. unfold core_run in E. rewrite E. unfold set_mvmu. cbn [co_cache co_vfu co_mvmus loaded fold_left]. f_equal. rewrite Nat2Z.id.
    apply upd_upd.
Qed.
Lemma loaded_reached cc K : co_cache K = mem_init (k_cache cc) -> co_vfu K = vstats0 -> length (co_mvmus K) = Z.to_nat (k_mvmus cc) ->
  (forall i u, nth_error (co_mvmus K) i = Some u -> exists ws, u = loaded (k_mv cc) ws (mvmu_init (k_mv cc))) -> core_reached cc K.
Proof.
  intros C V L H.
  assert (G : forall n, (n <= length (co_mvmus K))%nat -> exists K', core_reached cc K' /\ co_cache K' = mem_init (k_cache cc) /\ co_vfu K' = vstats0 /\
    forall i, nth_error (co_mvmus K') i = if (i <? n)%nat then nth_error (co_mvmus K) i else if (i <? length (co_mvmus K))%nat then Some (mvmu_init (k_mv cc)) else None).
  { induction n as [|n IH]; intros N.
    - exists (core_init cc). split; [exists []; reflexivity|]. split; [reflexivity|]. split; [reflexivity|]. intros i. replace (i <? 0)%nat with false by lia.
      cbn [core_init co_mvmus]. rewrite L. destruct (i <? Z.to_nat (k_mvmus cc))%nat eqn:E.
      + apply nth_error_repeat. lia.
      + apply nth_error_None. rewrite repeat_length. lia.
    - destruct (IH ltac:(lia)) as (K' & (ops & R) & C' & V' & U').
      destruct (nth_error (co_mvmus K) n) as [u|] eqn:U; [|apply nth_error_None in U; lia]. destruct (H n u U) as (ws & W).
      assert (U0 : nth_error (co_mvmus K') n = Some (mvmu_init (k_mv cc))).
      { rewrite U'. replace (n <? n)%nat with false by lia. now replace (n <? length (co_mvmus K))%nat with true by lia. }
      destruct (load_unit_run cc n ws K' _ U0) as (ops' & R'). eexists. split; [exists (ops ++ ops'); reflexivity|].
      unfold core_run in *. rewrite fold_left_app, <- R, R'. split; [exact C'|]. split; [exact V'|].
      intros i. unfold set_mvmu. cbn [co_mvmus]. rewrite Nat2Z.id, nth_error_upd, U'. destruct (n =? i)%nat eqn:E.
      + assert (i = n) by lia. subst i. replace (n <? S n)%nat with true by lia. replace (n <? n)%nat with false by lia.
        replace (n <? length (co_mvmus K))%nat with true by lia. now rewrite U, W.
      + now replace (i <? S n)%nat with (i <? n)%nat by lia. }
  destruct (G (length (co_mvmus K)) (le_n _)) as (K' & R & C' & V' & U'). replace K with K'; [exact R|].
  destruct K as [k1 k2 us], K' as [k1' k2' us']. cbn [co_cache co_vfu co_mvmus] in *. subst. f_equal. apply nth_error_ext. intros i. rewrite U'.
  destruct (i <? length us)%nat eqn:E; [reflexivity|]. symmetry. apply nth_error_None. lia.
Qed.

Section Example.
Context (x : lax) (c : sys_cfg) (cfg : list bitcfg) (ww : Z) (file : list (String.string * list (list f64))) (w : Z -> list (list f64)) (a : arch).
Context (SU : mlp_setup x c cfg ww file w a).
Context (act : list Z) (LA : zlen act = 784) (IA : Forall int32 act).
Notation j := (job_of a 0 act).
Notation eu := (e_u (y_core c) cfg w act).
Notation ei := (e_in act).
Notation W := (fun t k u => w (unit_no t k u)).
Notation srel := (srel c j cfg mlp_geo ei eu W).

Let SH := su_shape _ _ _ _ _ _ _ SU.
Lemma ex_sized : sized c. Proof. exact (shape_sized c SH). Qed.
Lemma ex_core_ok : core_ok cfg ww (y_core c).
Proof. constructor; [apply SU| |]; [rewrite (ms_units _ SH)|rewrite (ms_cache _ SH)]; lia. Qed.

Lemma ex_total : total_registers (y_core c) = 5632.
Proof. unfold total_registers, cache_start, outreg_start. rewrite (ms_units _ SH), (ms_size _ SH), (ms_cache _ SH). reflexivity. Qed.
Lemma ex_inputs i k u l xs : g_in mlp_geo i k u = Some l -> zlen xs = c_size (k_mv (y_core c)) -> Forall2 (is (k_vfu (y_core c)) ei eu) l xs ->
  forall j, 0 <= j < c_size (k_mv (y_core c)) ->
  eu i k u j = wrap32 (mvm_value (k_mv (y_core c)) cfg (znth [] (W i k u) j) xs) / 2 ^ c_weight_frac (k_mv (y_core c)).
Proof.
  cbn [g_in mlp_geo]. unfold used_unit. intros G L F j' J. destruct (_ && _) eqn:E in G; [|discriminate]. injection G as <-.
  rewrite (ms_size _ SH) in L, J. assert (U : 0 <= unit_no i k u < 98) by (unfold unit_no in *; lia).
  rewrite (array_gets (y_core c) cfg w act (su_vfu _ _ _ _ _ _ _ SU) (unit_no i k u) xs LA U L F). reflexivity.
Qed.

(** ** The start *)
Lemma znth_zeros n o : znth 0 (repeat 0 n) o = 0.
Proof.
  unfold znth. destruct (Nat.lt_ge_cases (Z.to_nat o) n) as [H|H]; [now apply nth_repeat_lt|]. apply nth_overflow. rewrite repeat_length. lia.
Qed.
Lemma start_core i k K p : on_node c i -> 0 <= k -> nth_error (at_cores (tile_at a 0 i)) (Z.to_nat k) = Some (K, p) ->
  crel cfg (y_core c) mlp_geo ei eu W i k (sc_regs (mlp_core i k)) K /\ p = of_core i k mlp_list.
Proof.
  intros N HK E. destruct (construct_ok _ _ _ _ _ ex_sized (su_made _ _ _ _ _ _ _ SU)) as ((_ & _ & LC & LM) & _ & KK & UU).
  assert (TT : is_tile c 0 i) by (split; [pose proof (ms_nodes _ SH); lia|exact N]).
  assert (K8 : 0 <= k < y_cores c).
  { split; [exact HK|]. rewrite <- (LC 0 i TT). assert (Z.to_nat k < length (at_cores (tile_at a 0 i)))%nat by (apply nth_error_Some; congruence). unfold zlen. lia. }
  assert (IC : is_core c 0 i k) by now split. specialize (LM 0 i k IC). destruct (KK 0 i k IC) as (K1 & K2 & K3).
  assert (CA : core_at c a 0 i k = (K, p)) by (unfold core_at, znth; now rewrite (nth_error_nth _ _ _ E)).
  rewrite CA in LM, K1, K2, K3. cbn [fst snd] in *. pose proof N as N5. unfold on_node in N5. rewrite (ms_tiles _ SH) in N5. rewrite (ms_cores _ SH) in K8.
  assert (UN : forall n U, nth_error (co_mvmus K) n = Some U -> Z.of_nat n < 6 /\
            forall ws, arrays_for 0 i k (Z.of_nat n) file ws -> U = loaded (k_mv (y_core c)) ws (mvmu_init (k_mv (y_core c)))).
  { intros n U H. assert (L6 : Z.of_nat n < k_mvmus (y_core c)).
    { rewrite <- LM. assert (n < length (co_mvmus K))%nat by (apply nth_error_Some; congruence). unfold zlen. lia. }
    split; [pose proof (ms_units _ SH); lia|]. intros ws A. assert (IU : is_unit c 0 i k (Z.of_nat n)) by (split; [exact IC|lia]).
    rewrite <- (UU 0 i k (Z.of_nat n) ws IU A). unfold unit_at. rewrite CA. cbn [fst]. unfold znth. rewrite Nat2Z.id. symmetry. now apply nth_error_nth. }
  split.
  - constructor.
    + apply loaded_reached; [exact K2|exact K3|unfold zlen in LM; lia|]. intros n U H. destruct (UN n U H) as [_ A].
      destruct (arrays_for_total 0 i k (Z.of_nat n) file) as (ws & AF). eauto.
    + cbn [mlp_core sc_regs]. rewrite zlen_repeat' by lia. rewrite ex_total. reflexivity.
    + intros ad pl P. cbn [mlp_core sc_regs].
      assert (B : 0 <= ad < 5632).
      { unfold CoreSpec.place_of in P. cbv zeta in P. rewrite (ms_units _ SH), (ms_size _ SH), (ms_cache _ SH) in P. destruct (ad <? 0) eqn:B0; [discriminate P|].
        destruct (ad <? 6 * 128) eqn:B1; [lia|]. destruct (ad <? 2 * (6 * 128)) eqn:B2; [lia|]. destruct (ad <? 2 * (6 * 128) + 4096) eqn:B3; [lia|discriminate P]. }
      rewrite znth_repeat by lia. intros y [= <-].
      assert (Z0 : content K pl = 0).
      { destruct pl as [u o|u o|o]; cbn [content].
        - destruct (nth_error (co_mvmus K) (Z.to_nat u)) as [U|] eqn:E'; [|reflexivity]. destruct (UN _ _ E') as [_ A].
          destruct (arrays_for_total 0 i k (Z.of_nat (Z.to_nat u)) file) as (ws & AF). rewrite (A ws AF).
          destruct (loaded_keeps (k_mv (y_core c)) ws (mvmu_init (k_mv (y_core c)))) as (I1 & I2 & _). unfold inputs. rewrite I1. apply znth_zeros.
        - destruct (nth_error (co_mvmus K) (Z.to_nat u)) as [U|] eqn:E'; [|reflexivity]. destruct (UN _ _ E') as [_ A].
          destruct (arrays_for_total 0 i k (Z.of_nat (Z.to_nat u)) file) as (ws & AF). rewrite (A ws AF).
          destruct (loaded_keeps (k_mv (y_core c)) ws (mvmu_init (k_mv (y_core c)))) as (I1 & I2 & _). unfold outputs. rewrite I2. apply znth_zeros.
        - rewrite K2. apply znth_zeros. }
      destruct pl; cbn [visible]; rewrite Z0; [reflexivity|apply Z.div_0_l|reflexivity].
      pose proof (ok_frac _ _ _ (su_units _ _ _ _ _ _ _ SU)). apply Z.pow_nonzero; lia.
    + intros u l G U. cbn [g_in mlp_geo] in G. unfold used_unit in G. destruct (_ && _) eqn:E' in G; [|discriminate].
      destruct (nth_error (co_mvmus K) (Z.to_nat u)) as [V|] eqn:EV; [|apply nth_error_None in EV; unfold zlen in LM; lia].
      exists V. split; [reflexivity|]. destruct (UN _ _ EV) as [_ A]. rewrite Z2Nat.id in A by lia.
      destruct (su_weights _ _ _ _ _ _ _ SU (unit_no i k u)) as ((earlier & AF) & LD); [unfold unit_no in *; lia|].
      replace (2 + unit_no i k u / 48) with i in AF by (unfold unit_no in *; Z.to_euclidean_division_equations; lia).
      replace (unit_no i k u mod 48 / 6) with k in AF by (unfold unit_no in *; Z.to_euclidean_division_equations; lia).
      replace (unit_no i k u mod 6) with u in AF by (unfold unit_no in *; Z.to_euclidean_division_equations; lia).
      rewrite (A _ AF). rewrite <- (ms_size _ SH) in LD.
      pose proof (proj2 (load_accepts cfg ww (k_mv (y_core c)) (mvmu_init (k_mv (y_core c))) _ (su_units _ _ _ _ _ _ _ SU)) LD) as LO.
      rewrite last_wins by exact LO. destruct (load_weights (k_mv (y_core c)) (mvmu_init (k_mv (y_core c))) (w (unit_no i k u))) as [r U1] eqn:LE. cbn [fst snd] in *. subst r.
      eapply load_holds; [apply SU|apply SU|eapply init_shaped; apply SU|exact LE].
  - rewrite <- (for_core_eq c SH i k N5 K8). rewrite <- (mlp_valid x (su_lax _ _ _ _ _ _ _ SU)). exact K1.
Qed.

Lemma start_memory now i : on_node c i ->
  drel (k_vfu (y_core c)) ei eu mlp_geo (st_mem (mlp_tile i)) [] [] 0 true (start_dram c now act i).
Proof.
  intros N. pose proof (ms_memory _ SH) as SZ.
  assert (E : start_dram c now act i = if i =? 0 then MkDram (MkMem (y_size c) (blit (repeat 0 (Z.to_nat (y_size c))) 0 (map wrap32 act)) (mstat (mem_init (y_size c))))
     (set_valid (repeat false (Z.to_nat (y_size c))) 0 784) true [] [] [] None dstats0 now None [] [EPreload act] [] []
     else dc_run now (dram_init (y_size c))).
  { unfold start_dram. destruct (i =? 0); [|reflexivity]. unfold dc_preload. cbn [dram_init d_mem mem_init msize]. rewrite LA. replace (y_size c <? 784) with false by lia. reflexivity. }
  rewrite E. destruct (i =? 0) eqn:I0.
  - constructor; [reflexivity|reflexivity|reflexivity|reflexivity|reflexivity|reflexivity|reflexivity| | |].
    + cbn [mlp_tile st_mem]. rewrite zlen_map, zlen_zrange by lia. reflexivity.
    + intros ad B. cbn [g_l mlp_geo] in B. cbn [mlp_tile st_mem d_valid d_mem cells]. rewrite znth_map_zrange by lia. rewrite I0. cbn [andb].
      assert (LV : zlen (repeat false (Z.to_nat (y_size c))) = y_size c) by (apply zlen_repeat'; lia).
      rewrite znth_set_valid by lia. rewrite LV. rewrite (slice_exact (y_size c) 0), (slice_exact (y_size c) 784) by lia.
      replace (0 <=? ad) with true by lia. cbn [andb]. destruct (ad <? 784) eqn:E7.
      * split; [reflexivity|]. intros y [= <-]. unfold e_in.
        rewrite znth_blit; rewrite ?zlen_map, ?zlen_repeat', ?LA; try lia. replace ((0 <=? ad) && (ad <? 0 + 784)) with true by lia.
        rewrite Z.sub_0_r. rewrite (znth_map _ 0) by lia. apply wrap32_id. rewrite Forall_forall in IA. apply IA. unfold znth. apply nth_In. unfold zlen in LA. lia.
      * apply znth_repeat. lia.
    + intros h1 e1 h2 e2 h3 ad EH. destruct h1 as [|? [|? ?]]; try discriminate EH. destruct h2; discriminate EH.
  - constructor; [reflexivity|reflexivity|reflexivity|reflexivity|reflexivity|reflexivity|reflexivity| | |].
    + cbn [mlp_tile st_mem]. rewrite zlen_map, zlen_zrange by lia. reflexivity.
    + intros ad B. cbn [g_l mlp_geo] in B. cbn [mlp_tile st_mem]. rewrite znth_map_zrange by lia. rewrite I0. cbn [andb].
      cbn [dc_run dram_init d_running d_valid]. apply znth_repeat. lia.
    + intros h1 e1 h2 e2 h3 ad EH. destruct h1; discriminate EH.
Qed.

Lemma start_srel : srel 0 mlp_start.
Proof.
  destruct (construct_ok _ _ _ _ _ ex_sized (su_made _ _ _ _ _ _ _ SU)) as ((_ & _ & LC & LM) & PP & KK & UU).
  exists (s_tile (sys_start c 0 j)), net_init. split; [|split].
  - exists (sys_start c 0 j). repeat split. constructor.
  - unfold mlp_start. rewrite zlen_map, zlen_zrange by lia. symmetry. apply SH.
  - intros i t T. apply guard_some in T as [T1 T2]. cbn [g_t mlp_geo] in T1. unfold mlp_start in T2.
    assert (I5 : 0 <= i < 5) by lia. assert (N : on_node c i) by (unfold on_node; rewrite (ms_tiles _ SH); exact I5).
    assert (t = mlp_tile i) as ->.
    { assert (X : nth (Z.to_nat i) (map mlp_tile (zrange 5)) t = t) by now apply nth_error_nth.
      rewrite nth_map_zrange in X by lia. rewrite Z2Nat.id in X by lia. congruence. }
    assert (TT : is_tile c 0 i) by (split; [pose proof (ms_nodes _ SH); lia|exact N]).
    constructor.
    + exact (start_memory 0 i N).
    + cbn [sys_start s_tile t_cores job_of j_cores mlp_tile st_cores]. rewrite !map_length. fold (tile_at a 0 i). pose proof (LC 0 i TT) as L. rewrite (ms_cores _ SH) in L.
      unfold zlen in L. pose proof (zlen_zrange 8 ltac:(lia)) as Z8. unfold zlen in Z8. lia.
    + intros k s CO. apply guard_some in CO as [C1 C2]. cbn [mlp_tile st_cores] in C2. cbn [sys_start s_tile t_cores job_of j_cores]. fold (tile_at a 0 i).
      assert (K8 : 0 <= k < 8).
      { assert (Z.to_nat k < length (map (mlp_core i) (zrange 8)))%nat by (apply nth_error_Some; congruence). rewrite map_length in H.
        pose proof (zlen_zrange 8 ltac:(lia)) as Z8. unfold zlen in Z8. lia. }
      assert (s = mlp_core i k) as ->.
      { assert (X : nth (Z.to_nat k) (map (mlp_core i) (zrange 8)) s = s) by now apply nth_error_nth.
        rewrite nth_map_zrange in X by lia. rewrite Z2Nat.id in X by lia. congruence. }
      pose proof (LC 0 i TT) as L. rewrite (ms_cores _ SH) in L.
      destruct (nth_error (at_cores (tile_at a 0 i)) (Z.to_nat k)) as [[K p]|] eqn:EK; [|apply nth_error_None in EK; unfold zlen in L; lia].
      destruct (start_core i k K p N ltac:(lia) EK) as [CR PE]. exists (MkCProc K p PReady []). split; [now rewrite nth_error_map, EK|].
      constructor; [exact CR|exact PE|reflexivity].
    + cbn [sys_start s_tile t_prog job_of j_prog mlp_tile st_prog]. fold (tile_at a 0 i). rewrite (PP 0 i TT), (mlp_valid x (su_lax _ _ _ _ _ _ _ SU)). now apply for_tile_eq.
    + exact Logic.I.
    + constructor; reflexivity.
Qed.

Lemma ex_run l s : brun mlp_geo l mlp_start = Some s -> exists t, srel t s.
Proof.
  intros B. pose proof (ms_memory _ SH). apply (ok_brun c j cfg ww ex_core_ok (su_ideal _ _ _ _ _ _ _ SU) (su_vfu _ _ _ _ _ _ _ SU) mlp_geo) with (l := l) (t := 0) (s := mlp_start); cbn [g_n g_m g_q g_t g_nodes g_l mlp_geo]; try lia;
    try (symmetry; apply SH); try apply SH.
  - apply SU.
  - exact ex_inputs.
  - exact start_srel.
  - exact B.
Qed.
End Example.
