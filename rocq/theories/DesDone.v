(** The example mlp_l4_mnist completes in the event simulation, with the shipped latencies: the run of the machine without data
    is computed, and the code's run has the same events. *)
From Verif Require Import PyBase PyLemmas ConfigModel MemoryModel VfuModel FloatModel MvmuModel MvmuSpec MvmuLoad CoreModel CoreSpec CoreProofs
  DramModel RouterModel SystemModel SystemSpec LoaderModel LoaderSpec LoaderProofs LoaderClaims LoaderAct SymMachine SymCore MlpProgram MlpRun MlpSpec MlpLoad MlpProofs MlpClaims
  DesModel DesSpec DesClaims DesMlp DesShipped DesShape DesSkel DesDoneSpec.
From Coq Require Import ZifyBool ZifyNat.
Open Scope Z_scope.

Definition sk_mv : mvmu_cfg := MkMvmuCfg 128 128 (MkStorage [] [] [] [] [] 0 0 false false) 1 8 1 100 true 16 12 (f_of_Z 0) (f_of_Z 0) (f_of_Z 0) (fun _ _ => f_of_Z 0).
Definition sk_core : core_cfg := MkCoreCfg 6 sk_mv 4096 (MkVfu 12 16 (fun _ x => x)) 1 1 1 12.
Definition sk_cfg (inter : Z) : sys_cfg := MkSysCfg (MkNetCfg 5 1 31 inter 1) sk_core 8 0 50.
Definition sk_flags (t : Z) : list bool := if t =? 0 then repeat true (Z.to_nat 784) ++ repeat false (Z.to_nat 3416) else repeat false (Z.to_nat 4200).
Definition sk_tile (t : Z) : dtile (list (Z * Z)) (list bool) :=
  tile_new (sk_flags t) (map (fun k => ([], of_core t k mlp_list)) (zrange 8)) (of_tile t mlp_list).
Definition sk_start : des := des_begin 0 (map sk_tile (zrange 5)).
Definition is_over {K M} (r : @next K M) : bool := match r with NOver => true | _ => false end.
Lemma sk_run size inter : let r := des_run (skel size) (sk_cfg inter) (Z.to_nat 200000) sk_start in numbers (fst r) = mlp_numbers /\ is_over (snd r) = true.
Proof. vm_compute. split; reflexivity. Qed.

Lemma numbers_alike {K1 M1 K2 M2} (RK : K1 -> K2 -> list cop -> Prop) (RM : M1 -> M2 -> Prop) s s' : des_alike RK RM s s' -> numbers s = numbers s'.
Proof.
  intros [t q n n' [l l' b nx y m f H]]. unfold numbers. cbn [w_now w_node z_busy z_tiles]. f_equal.
  induction H as [|x z l l' HX _ IH]; [reflexivity|]. cbn [map]. rewrite IH. f_equal. destruct HX as [g d d' u u' ks ks' p f1 f2 cy e HD HU HK HP].
  cbn [x_cycles x_ctl x_rt x_cores]. replace (c_stat d') with (c_stat d) by (now destruct HD). replace (u_stat u') with (u_stat u) by (now destruct HU). f_equal.
  clear - HK. induction HK as [|a b ks ks' HA _ IH]; [reflexivity|]. cbn [map]. rewrite IH. f_equal. now destruct HA.
Qed.
Lemma run_over {K M} (P : machine K M) c f s : is_over (snd (des_run P c f s)) = true -> des_step P c (fst (des_run P c f s)) = NOver.
Proof. revert s; induction f as [|f IH]; intros s; [discriminate|]. cbn [des_run]. destruct (des_step P c s) eqn:E; cbn [fst snd is_over]; try discriminate; auto. Qed.
Lemma steps_run {K M} (P : machine K M) c s e : steps_to P c s e -> des_step P c e = NOver -> exists n, des_run P c n s = (e, NOver).
Proof.
  induction 1 as [s|s r e E _ IH]; intros O; [exists 1%nat; cbn [des_run]; now rewrite O|]. destruct (IH O) as (n & EN). exists (S n). cbn [des_run]. now rewrite E.
Qed.
Lemma reach_steps c j t0 e : steps_to (real c) c (des_first c t0 j) e -> returned c e -> forall s, sim_reach c j t0 s -> steps_to (real c) c s e.
Proof.
  intros S O s R. induction R as [|s s' R IH E]; [exact S|]. inversion IH as [|x r y E' S' Ex]; subst; [unfold returned in O; congruence|].
  assert (r = s') by congruence. now subst r.
Qed.
Lemma steps_reach c j t0 s e : steps_to (real c) c s e -> sim_reach c j t0 s -> sim_reach c j t0 e.
Proof. induction 1 as [s|s r e E _ IH]; intros R; [exact R|]. apply IH. now apply (sim_step c j t0 s). Qed.

Lemma pad_false a b : 0 <= a -> 0 <= b -> repeat false (Z.to_nat a) ++ repeat false (Z.to_nat b) = repeat false (Z.to_nat (a + b)).
Proof. intros HA HB. rewrite <- repeat_app. f_equal. lia. Qed.

Lemma forall2_nths {A B} (R : A -> B -> Prop) l l' : length l = length l' -> (forall n x y, nth_error l n = Some x -> nth_error l' n = Some y -> R x y) -> Forall2 R l l'.
Proof.
  revert l'; induction l as [|a l IH]; intros [|b l'] L H; try discriminate; constructor; [now apply (H 0%nat)|]. apply IH; [now injection L|]. intros n. exact (H (S n)).
Qed.

Section Example.
Context (x : lax) (c : sys_cfg) (cfg : list bitcfg) (ww : Z) (file : list (String.string * list (list f64))) (w : Z -> list (list f64)) (a : arch).
Context (SU : mlp_setup x c cfg ww file w a) (ST : shipped_times c).
Context (act : list Z) (LA : zlen act = 784).
Notation j := (job_of a 0 act).
Let SH := su_shape _ _ _ _ _ _ _ SU.
Notation RK := (knows cfg c).
Notation RL := (fun s K (_ : list cop) => knows cfg c s K).
Notation RM := (cells_of c).

Lemma start_cells i : RM (sk_flags i) (cells_new c act i).
Proof.
  pose proof (ms_memory _ SH) as SZ. unfold cells_new, dram_init, mem_init.
  assert (F : all_flags (y_size c) (repeat false (Z.to_nat 4200)) = repeat false (Z.to_nat (y_size c))).
  { unfold all_flags. rewrite pad_false by lia. f_equal. lia. }
  unfold sk_flags. destruct (i =? 0).
  - unfold dc_preload. cbn [d_mem msize]. replace (y_size c <? zlen act) with false by lia. cbn [d_mem d_valid]. split; [reflexivity|].
    cbn [y_mem y_valid cells msize]. split; [|split].
    + rewrite zlen_blit; [apply zlen_repeat'; lia|lia|]. rewrite zlen_map, zlen_repeat' by lia. lia.
    + unfold zlen. rewrite app_length, !repeat_length. lia.
    + unfold set_valid, slice_bound, blit. rewrite zlen_repeat' by lia. rewrite LA. cbn [Z.ltb Z.compare].
      rewrite !Z.min_l by lia. change (Z.max 0 (784 - 0)) with 784. change (Z.to_nat 0) with O. cbn [firstn app Nat.add]. rewrite repeat_length.
      unfold all_flags. rewrite <- app_assoc. f_equal. rewrite pad_false by lia.
      replace (Z.to_nat (y_size c)) with (Z.to_nat 784 + Z.to_nat (3416 + (y_size c - 4200)))%nat by lia. rewrite repeat_app, skipn_app, repeat_length.
      rewrite skipn_all2 by (rewrite repeat_length; lia). now replace (Z.to_nat 784 - Z.to_nat 784)%nat with 0%nat by lia.
  - cbn [d_mem d_valid]. split; [reflexivity|]. cbn [y_mem y_valid cells]. split; [apply zlen_repeat'; lia|]. split; [apply zlen_repeat'; lia|]. now symmetry.
Qed.
Lemma start_knows i k K p : on_node c i -> 0 <= k -> nth_error (at_cores (tile_at a 0 i)) (Z.to_nat k) = Some (K, p) -> RK [] K /\ p = of_core i k mlp_list.
Proof.
  intros N HK E. destruct (start_core _ _ _ _ _ _ _ SU act i k K p N HK E) as [R ->]. split; [|reflexivity].
  exists (sc_regs (mlp_core i k)). split; [|discriminate]. destruct R as [R1 R2 R3 R4]. constructor; [exact R1|exact R2| |discriminate].
  intros ad pl P. specialize (R3 ad pl P). cbn [mlp_core sc_regs] in *. destruct (Z.lt_ge_cases ad 5632) as [L|L].
  - assert (0 <= ad) by (unfold CoreSpec.place_of in P; cbv zeta in P; destruct (ad <? 0) eqn:B0; [discriminate P|lia]).
    rewrite znth_repeat in * by lia. intros y Hy. apply R3. exact Hy.
  - unfold znth. rewrite nth_overflow by (rewrite repeat_length; lia). intros y. discriminate.
Qed.
Lemma start_cores i : on_node c i -> Forall2 (core_alike RL []) (map core_new (map (fun k => ([], of_core i k mlp_list)) (zrange 8))) (map core_new (j_cores j i)).
Proof.
  intros N. destruct (construct_ok _ _ _ _ _ (shape_sized c SH) (su_made _ _ _ _ _ _ _ SU)) as ((_ & _ & LC & _) & _).
  assert (TT : is_tile c 0 i) by (split; [pose proof (ms_nodes _ SH); lia|exact N]). specialize (LC 0 i TT). rewrite (ms_cores _ SH) in LC.
  cbn [job_of j_cores]. fold (tile_at a 0 i).
  assert (Q : Forall2 (fun u v => RK (fst u) (fst v) /\ snd u = snd v) (map (fun k => ([], of_core i k mlp_list)) (zrange 8)) (at_cores (tile_at a 0 i))).
  { apply forall2_nths; [rewrite map_length, length_zrange; unfold zlen in LC; lia|]. intros n u [K p] E1 E2.
    assert (L : (n < length (map (fun k => ([] : list (Z * Z), of_core i k mlp_list)) (zrange 8)))%nat) by (apply nth_error_Some; congruence).
    rewrite map_length, length_zrange in L.
    destruct (start_knows i (Z.of_nat n) K p N ltac:(lia) ltac:(now rewrite Nat2Z.id)) as [HK ->].
    rewrite nth_error_map in E1. rewrite (nth_error_nth' _ 0) in E1 by (rewrite length_zrange; lia). rewrite nth_zrange in E1 by lia. injection E1 as <-. now split. }
  clear LC. induction Q as [|u v l l' [HK HP] _ IH]; [constructor|]. cbn [map]. constructor; [|exact IH]. unfold core_new. rewrite HP. constructor; [exact HK|exact I|constructor].
Qed.
Lemma start_alike : des_alike RL RM sk_start (des_first c 0 j).
Proof.
  unfold sk_start, des_first, des_begin. rewrite (ms_tiles _ SH). rewrite !map_length. cbn [zrange map]. constructor. constructor.
  assert (Q : forall l, Forall (fun i => 0 <= i < 5) l -> Forall2 (tile_alike RL RM) (map sk_tile l)
     (map (fun i => tile_new (cells_new c (j_activation j) i) (j_cores j i) (j_prog j i)) l)).
  { induction 1 as [|i l Hi _ IH]; [constructor|]. cbn [map]. constructor; [|exact IH]. assert (N : on_node c i) by (unfold on_node; now rewrite (ms_tiles _ SH)).
    unfold sk_tile, tile_new. rewrite (ex_tile _ _ _ _ _ _ _ SU act i N). apply (ta _ _ []); [| |now apply start_cores|constructor].
    - constructor; [apply start_cells|..]; try constructor.
    - constructor; constructor. }
  apply Q. apply Forall_forall. intros i I. now apply in_zrange.
Qed.
Lemma times_same : same_times (sk_cfg (w_inter_lat (y_net c))) c.
Proof.
  destruct ST as [T1 T2 T3 T4 T5 T6 T7 T8 T9 T10 T11 T12 T13]. constructor; cbn [sk_cfg y_net y_lat y_core]; try (now symmetry).
  - destruct (y_net c) as [t n i e d]. cbn in *. now subst.
  - intros o. destruct o; cbn [exec_time sk_core k_data_lat k_alu_lat k_alus k_mv sk_mv c_adc_lat c_act_width c_dac_res]; try reflexivity; now rewrite ?T8, ?T9, ?T10, ?T11, ?T12, ?T13.
Qed.
Theorem ex_runs : exists e, sim_reach c j 0 e /\ returned c e /\ numbers e = mlp_numbers /\
  forall s, sim_reach c j 0 s -> exists n, des_run (real c) c n s = (e, NOver).
Proof.
  destruct (sk_run (y_size c) (w_inter_lat (y_net c))) as [HN HO]. set (r := des_run _ _ _ _) in *.
  pose proof (run_steps (skel (y_size c)) (sk_cfg (w_inter_lat (y_net c))) (Z.to_nat 200000) sk_start) as S. fold r in S.
  assert (F : follows (skel (y_size c)) (real c) (fun _ => False) RL RM).
  { apply (skel_follows cfg ww); [exact (ex_core_ok _ _ _ _ _ _ _ SU)|apply SU|apply SU|apply SH|apply SH|apply SH|apply SH]. }
  destruct (steps_alike _ _ _ _ _ _ _ times_same F _ _ S _ start_alike) as [(e & SE & HE)|(e & y & _ & _ & [])].
  assert (O : returned c e). { apply (over_alike (skel (y_size c)) (real c) (sk_cfg (w_inter_lat (y_net c))) c RL RM _ _ HE). now apply run_over. }
  exists e. split; [apply (steps_reach c j 0 _ e SE); constructor|]. split; [exact O|]. split; [rewrite <- HN; symmetry; exact (numbers_alike _ _ _ _ HE)|].
  intros s R. apply steps_run; [|exact O]. now apply (reach_steps c j 0).
Qed.
End Example.

Theorem mlp_done x c cfg ww file w a : mlp_setup x c cfg ww file w a -> shipped_times c -> forall frac v, vlen v = 784 ->
  exists e, sim_reach c (job_of a 0 (fixed_activation frac v)) 0 e /\ returned c e /\ numbers e = mlp_numbers /\
    (exists T, the_tile (w_node e) 1 = Some T /\ firstn 10 (cells (y_mem (c_mem (x_ctl T)))) = mlp (y_core c) cfg w (fixed_activation frac v)) /\
    forall s, sim_reach c (job_of a 0 (fixed_activation frac v)) 0 s -> exists n, des_run (real c) c n s = (e, NOver).
Proof.
  intros SU ST frac v LV. destruct (ex_runs _ _ _ _ _ _ _ SU ST (fixed_activation frac v)) as (e & R & O & N & A); [now rewrite zlen_fixed|].
  exists e. repeat (split; [assumption|]). split; [|exact A]. exact (proj2 (mlp_simulated _ _ _ _ _ _ _ SU frac v LV 0 e R) O).
Qed.
Corollary mlp_ends x c cfg ww file w a : mlp_setup x c cfg ww file w a -> shipped_times c -> forall frac v s, vlen v = 784 ->
  sim_reach c (job_of a 0 (fixed_activation frac v)) 0 s -> returned c s ->
  numbers s = mlp_numbers /\ exists T, the_tile (w_node s) 1 = Some T /\ firstn 10 (cells (y_mem (c_mem (x_ctl T)))) = mlp (y_core c) cfg w (fixed_activation frac v).
Proof.
  intros SU ST frac v s LV R O. destruct (mlp_done _ _ _ _ _ _ _ SU ST frac v LV) as (e & _ & _ & N & _ & A). destruct (A s R) as (n & E).
  assert (s = e). { destruct n; [discriminate|]. cbn [des_run] in E. unfold returned in O. rewrite O in E. congruence. } subst e. split; [assumption|].
  exact (proj2 (mlp_simulated _ _ _ _ _ _ _ SU frac v LV 0 s R) O).
Qed.
