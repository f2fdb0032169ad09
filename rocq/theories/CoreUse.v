(** Programs on one core: a neural network layer; the statements of PropCore. *)
From Verif Require Import PyBase PyLemmas ConfigModel MemoryModel MemorySpec MemoryProofs VfuModel VfuSpec VfuProofs
  FloatModel MvmuModel MvmuSpec MvmuLists MvmuLoad MvmuRun MvmuProofs MvmuUse MvmuCount MvmuExamples MvmuTop CoreModel CoreSpec CoreProofs.
From Coq Require Import ZifyBool ZifyNat.
Ltac Zify.zify_post_hook ::= Z.div_mod_to_equations.
Open Scope Z_scope.

Section Layer.
Context (cfg : list bitcfg) (ww : Z) (c : core_cfg) (OK : core_ok cfg ww c).
Notation n := (c_size (k_mv c)).
Notation m := (k_mvmus c).

Lemma cells_int32 k : core_reached c k -> forall o, 0 <= o < k_cache c -> int32 (content k (PCache o)).
Proof. intros (ops & ->) o Ho. apply (cache_history cfg ww c OK ops o Ho). Qed.

Lemma zlen_eq_length {A B} (l1 : list A) (l2 : list B) : zlen l1 = zlen l2 <-> length l1 = length l2.
Proof. unfold zlen. lia. Qed.

Lemma nth_map_in {A B} (f : A -> B) l i d d' : (i < length l)%nat -> nth i (map f l) d' = f (nth i l d).
Proof. intros H. rewrite (nth_indep _ d' (f d)) by (now rewrite map_length). apply map_nth. Qed.

Lemma loaded_reached' cc W u : loaded cc W u -> reached cc u.
Proof.
  intros (b & a & _ & _ & ->). exists ((b ++ [OLoad W]) ++ a). unfold mv_run. now rewrite !fold_left_app.
Qed.

Theorem layer k i W u a b :
  core_reached c k -> 0 <= i < m -> nth_error (co_mvmus k) (Z.to_nat i) = Some u ->
  ideal cfg (k_mv c) -> c_dac_res (k_mv c) = 1 -> loaded (k_mv c) W u ->
  0 <= a -> a + n <= k_cache c -> 0 <= b -> b + n <= k_cache c -> 0 <= v_width (k_vfu c) ->
  let x := map (fun j => content k (PCache (a + j))) (zrange n) in
  Forall (fun row => no_saturation (k_mv c) cfg row x) W ->
  Forall (fun z => 0 <= z < 2 ^ c_act_width (k_mv c)) x ->
  Forall (Forall (fun w => weight_mag (c_weight_frac (k_mv c)) w < 2 ^ ww)) W ->
  exists k', exec_all c k (layer_program c i a b) = (Ok tt, k') /\
    (forall j, 0 <= j < n ->
       clamped (v_width (k_vfu c))
         (Z.max 0 (wrap32 (dot (map (fixed_weight (c_weight_frac (k_mv c))) (znth [] W j)) x) / 2 ^ c_weight_frac (k_mv c)))
         (content k' (PCache (b + j)))) /\
    (forall o, 0 <= o < k_cache c -> o < b \/ b + n <= o -> content k' (PCache o) = content k (PCache o)).
Proof.
  intros R Hi U ID R1 L Ha Ha' Hb Hb' Hw x NS HX HW.
  pose proof (n_pos cfg ww c OK) as N. pose proof (mn_pos cfg ww c OK) as MN. pose proof (m_pos cfg ww c OK) as M.
  pose proof (q_nonneg cfg ww c OK) as Q.
  assert (IN : i * n + n <= m * n) by nia.
  assert (DIV : i * n / n = i) by (apply Z.div_mul; lia).
  assert (MOD : i * n mod n = 0) by (apply Z.mod_mul; lia).
  assert (LX : zlen x = n) by (unfold x, zlen; rewrite map_length, length_zrange; lia).
  assert (X32 : map wrap32 x = x).
  { transitivity (map (fun z => z) x); [|apply map_id]. apply map_ext_in. intros z Hz. apply wrap32_id.
    unfold x in Hz. apply in_map_iff in Hz. destruct Hz as (j & <- & Hj). apply in_zrange in Hj. apply cells_int32; [assumption|lia]. }
  unfold layer_program. cbn [exec_all exec_local].
  (* copy *)
  assert (AC : all_cache c (2 * (m * n) + a) n) by (apply (all_cache_iff cfg ww c OK); lia).
  unfold exec_copy.
  destruct (proj1 (read_decided cfg ww c OK k (2 * (m * n) + a) n R ltac:(lia)) (or_introl AC)) as (v & k1 & E1 & LV & PV).
  pose proof (reached_snoc c k (KRead (2 * (m * n) + a) n) R) as RR1. cbn [core_step] in RR1.
  destruct (read_effect cfg ww c OK k (2 * (m * n) + a) n R) as [C1 _].
  assert (M1 : co_mvmus k1 = co_mvmus k).
  { pose proof (read_cases cfg ww c OK k (2 * (m * n) + a) n (reached_inv _ _ R) ltac:(lia)) as RC.
    destruct RC as [(_ & m' & _ & _ & W1)|[(NO & _)|[NA _]]].
    - rewrite W1 in E1. injection E1 as _ <-. reflexivity.
    - exfalso. apply (one_output_iff cfg ww c OK) in NO; lia.
    - exfalso. apply NA. now left. }
  rewrite E1 in *. cbn [snd] in *.
  assert (EV : v = x).
  { apply (list_ext 0); [apply zlen_eq_length; lia|]. intros j Hj. unfold x. rewrite nth_map_zrange by (unfold zlen in LV; lia).
    specialize (PV (Z.of_nat j) (PCache (a + Z.of_nat j)) ltac:(unfold zlen in LV; lia)).
    unfold znth in PV. rewrite Nat2Z.id in PV. apply PV. apply (place_cache cfg ww c OK). unfold zlen in LV; lia. }
  subst v.
  assert (LX0 : 0 < zlen x) by lia.
  destruct (write_cases cfg ww c OK k1 (i * n) x (reached_inv _ _ RR1) LX0)
    as [[C _]|[(_ & u0 & u1 & Hu0 & _ & WI & HI & HO & HS & WR)|[NW _]]].
  { exfalso. apply (all_cache_iff cfg ww c OK) in C; [|lia]. lia. }
  2:{ exfalso. apply NW. right. apply (one_input_iff cfg ww c OK); [lia|]. rewrite MOD. lia. }
  rewrite DIV, MOD in *. rewrite M1, U in Hu0. injection Hu0 as <-.
  rewrite WR.
  assert (RR2 : core_reached c (set_mvmu k1 i u1)).
  { pose proof (reached_snoc c k1 (KWrite (i * n) x) RR1) as T. cbn [core_step] in T. now rewrite WR in T. }
  assert (L1 : loaded (k_mv c) W u1).
  { pose proof (loaded_step (k_mv c) W u (OWrite 0 x) I L) as T. cbn [mv_step] in T. now rewrite WI in T. }
  assert (INP : inputs u1 = x).
  { rewrite HI, X32. unfold blit. change (Z.to_nat 0) with 0%nat. cbn [firstn app Nat.add].
    rewrite skipn_all2; [apply app_nil_r|].
    pose proof (sh_inl _ _ _ (unit_shaped cfg ww c OK k _ u (reached_inv _ _ R) U)) as SI. unfold inputs. rewrite SI.
    unfold zlen in LX. lia. }
  (* mvm *)
  assert (U1 : nth_error (co_mvmus (set_mvmu k1 i u1)) (Z.to_nat i) = Some u1).
  { rewrite nth_error_set_mvmu; [now rewrite Nat.eqb_refl|lia|]. rewrite M1. apply nth_error_Some. congruence. }
  rewrite (exec_mvm_single c _ i u1 (reached_inv _ _ RR2) Hi U1).
  pose proof (reached_snoc c _ (KMvm [i]) RR2) as RR3. cbn [core_step] in RR3.
  rewrite (exec_mvm_single c _ i u1 (reached_inv _ _ RR2) Hi U1) in RR3. cbn [snd] in RR3.
  set (u2 := execute_mvm (k_mv c) u1) in *. set (k3 := set_mvmu (set_mvmu k1 i u1) i u2) in *.
  assert (OUT : outputs u2 = map (fun row => wrap32 (dot (map (fixed_weight (c_weight_frac (k_mv c))) row) x)) W).
  { unfold u2. rewrite <- INP. apply (mixed_exact' cfg ww); try assumption; try (rewrite INP; assumption).
    exact (core_ok_mv _ _ _ OK). }
  assert (U2 : nth_error (co_mvmus k3) (Z.to_nat i) = Some u2).
  { unfold k3. rewrite nth_error_set_mvmu; [now rewrite Nat.eqb_refl|lia|]. apply nth_error_Some. congruence. }
  assert (LW : length W = Z.to_nat n).
  { pose proof (sh_outl _ _ _ (unit_shaped cfg ww c OK k3 _ u2 (reached_inv _ _ RR3) U2)) as SO. fold (outputs u2) in SO.
    rewrite OUT, map_length in SO. exact SO. }
  (* relu *)
  unfold exec_vfu.
  assert (MOD3 : (m * n + i * n) mod n = 0) by (rewrite <- Z.mul_add_distr_r; apply Z.mod_mul; lia).
  assert (OO : one_output c (m * n + i * n) n) by (apply (one_output_iff cfg ww c OK); lia).
  destruct (proj1 (read_decided cfg ww c OK k3 (m * n + i * n) n RR3 ltac:(lia)) (or_intror OO)) as (v & k4 & E4 & LV4 & PV4).
  pose proof (reached_snoc c k3 (KRead (m * n + i * n) n) RR3) as RR4. cbn [core_step] in RR4.
  destruct (read_effect cfg ww c OK k3 (m * n + i * n) n RR3) as [C4 _].
  rewrite E4 in *. cbn [snd] in *.
  set (y := fun j => wrap32 (dot (map (fixed_weight (c_weight_frac (k_mv c))) (znth [] W j)) x) / 2 ^ c_weight_frac (k_mv c)).
  assert (FP : 0 < 2 ^ c_weight_frac (k_mv c)) by (apply Z.pow_pos_nonneg; [lia|apply (ok_frac _ _ _ (core_ok_mv _ _ _ OK))]).
  assert (VY : forall j, 0 <= j < n -> znth 0 v j = y j).
  { intros j Hj. rewrite (PV4 j (POut i j) Hj) by (apply (place_out cfg ww c OK); lia). cbn [visible content]. rewrite U2, OUT.
    unfold y. f_equal. unfold znth.
    rewrite (nth_map_in _ W _ []) by lia. reflexivity. }
  unfold vfu_calculate. cbn [v_handle is_unary].
  set (r := map (clipZ (v_min_value (k_vfu c)) (v_max_value (k_vfu c))) (map (v_unary (k_vfu c) Vrelu) v)).
  set (vs := v_update_stats (co_vfu k4) Vrelu (zlen v)).
  assert (LR : zlen r = n) by (unfold r, zlen; rewrite !map_length; exact LV4).
  assert (RR5 : core_reached c (set_vfu k4 vs)).
  { pose proof (reached_snoc c k4 (KVec Vrelu v None) RR4) as T. cbn [core_step] in T. exact T. }
  assert (AB : all_cache c (2 * (m * n) + b) (zlen r)) by (apply (all_cache_iff cfg ww c OK); lia).
  destruct (proj1 (write_decided cfg ww c OK _ (2 * (m * n) + b) r RR5 ltac:(lia)) (or_introl AB)) as (k6 & W6).
  destruct (write_effect cfg ww c OK _ _ _ _ RR5 W6) as (E6 & F6 & _).
  rewrite W6. exists k6. split; [reflexivity|].
  assert (YR : forall j, int32 (Z.max 0 (y j))).
  { intros j. unfold y. pose proof (wrap32_int32 (dot (map (fixed_weight (c_weight_frac (k_mv c))) (znth [] W j)) x)) as B.
    set (z := wrap32 _) in *. unfold int32 in *.
    assert (z / 2 ^ c_weight_frac (k_mv c) <= 2147483647).
    { transitivity (2147483647 / 2 ^ c_weight_frac (k_mv c)); [apply Z.div_le_mono; lia|].
      apply Z.div_le_upper_bound; [lia|nia]. }
    lia. }
  split.
  - intros j Hj. fold (y j).
    specialize (E6 j (PCache (b + j)) ltac:(lia) ltac:(apply (place_cache cfg ww c OK); lia)).
    assert (RJ : znth 0 r j = clipZ (v_min_value (k_vfu c)) (v_max_value (k_vfu c)) (Z.max 0 (y j))).
    { unfold r, znth. rewrite (nth_map_in _ _ _ 0) by (rewrite map_length; unfold zlen in LV4; lia).
      rewrite (nth_map_in _ v _ 0) by (unfold zlen in LV4; lia). cbn [v_unary]. do 2 f_equal. exact (VY j Hj). }
    specialize (YR j). set (yy := Z.max 0 (y j)) in *.
    assert (MIN : v_min_value (k_vfu c) = - 2 ^ v_width (k_vfu c)) by (unfold v_min_value; rewrite Z.shiftl_mul_pow2; lia).
    assert (MAX : v_max_value (k_vfu c) = 2 ^ v_width (k_vfu c) - 1) by (unfold v_max_value; rewrite Z.shiftl_mul_pow2; lia).
    rewrite MIN, MAX in RJ. assert (PW : 0 < 2 ^ v_width (k_vfu c)) by (apply Z.pow_pos_nonneg; lia).
    assert (EQ : content k6 (PCache (b + j)) = znth 0 r j).
    { rewrite (is_int32_of_unique _ _ E6). apply wrap32_id. rewrite RJ. unfold int32, clipZ in *. lia. }
    rewrite EQ, RJ. unfold clamped, clipZ. lia.
  - intros o Ho Hout. destruct (F6 (PCache o)) as [E|E].
    + intros (j & Hj & Hp). apply (place_cache cfg ww c OK) in Hp. lia.
    + rewrite E, content_vfu, C4. unfold k3. cbn [content set_mvmu co_cache]. exact (C1 (PCache o)).
    + exfalso. apply (E (2 * (m * n) + o)). apply (place_cache cfg ww c OK). lia.
Qed.
End Layer.

(** ** Latency of vector instructions *)
Lemma vfu_time_value c op dest r1 r2 v t :
  0 < k_alus c -> is_ceil t v (k_alus c) ->
  exec_time c (CVfu op dest r1 r2 v) = Ok (k_alu_lat c * t + k_alu_lat c * ((v - 1) mod k_alus c) / k_alus c).
Proof.
  intros Hn Ht. unfold is_ceil in Ht. cbn [exec_time]. f_equal. set (n := k_alus c) in *. set (L := k_alu_lat c).
  assert (E : v + n - 1 = t * n + (v - 1) mod n).
  { assert (v - 1 = n * (t - 1) + (v - 1 - n * (t - 1))) by lia.
    rewrite <- (Z.mod_unique (v - 1) n (t - 1) (v - 1 - n * (t - 1))); lia. }
  rewrite E. replace (L * (t * n + (v - 1) mod n)) with (L * t * n + L * ((v - 1) mod n)) by ring.
  rewrite Z.div_add_l by lia. reflexivity.
Qed.

Lemma vfu_time_one c op dest r1 r2 v t :
  0 < k_alus c -> k_alu_lat c = 1 -> is_ceil t v (k_alus c) -> exec_time c (CVfu op dest r1 r2 v) = Ok (k_alu_lat c * t).
Proof.
  intros Hn HL Ht. rewrite (vfu_time_value c op dest r1 r2 v t) by assumption. rewrite HL, !Z.mul_1_l.
  rewrite Z.div_small; [f_equal; lia|]. apply Z.mod_pos_bound. lia.
Qed.

Lemma vfu_time_bounds c op dest r1 r2 v t :
  0 < k_alus c -> 0 <= k_alu_lat c -> is_ceil t v (k_alus c) ->
  exists x, exec_time c (CVfu op dest r1 r2 v) = Ok x /\
    k_alu_lat c * t <= x /\ (0 < k_alu_lat c -> x < k_alu_lat c * (t + 1)).
Proof.
  intros Hn HL Ht. eexists. split; [exact (vfu_time_value c op dest r1 r2 v t Hn Ht)|].
  pose proof (Z.mod_pos_bound (v - 1) (k_alus c) Hn) as B. clear Ht.
  set (r := (v - 1) mod k_alus c) in *. clearbody r. set (L := k_alu_lat c) in *. set (n := k_alus c) in *. clearbody L n.
  assert (B1 : 0 <= L * r / n) by (apply Z.div_pos; nia). split; [lia|].
  intros HL'. assert (B2 : L * r / n < L) by (apply Z.div_lt_upper_bound; nia).
  rewrite Z.mul_add_distr_l, Z.mul_1_r. lia.
Qed.

(** ** Example core: two units, 8 cache cells *)
Definition pair_core (lat alus : Z) : core_cfg := MkCoreCfg 2 mixed 8 q8_8 1 2 lat alus.
Lemma pair_ok lat alus : core_ok mixed_cfg 4 (pair_core lat alus).
Proof. split; [exact mixed_ok|cbn; lia|cbn; lia]. Qed.
(** No matrix units. *)
Definition bare_core : core_cfg := MkCoreCfg 0 mixed 8 q8_8 1 2 1 1.

Lemma vfu_time_refuted : exists c op dest r1 r2 v t,
  0 < k_alus c /\ 0 <= v /\ is_ceil t v (k_alus c) /\ exec_time c (CVfu op dest r1 r2 v) <> Ok (k_alu_lat c * t).
Proof.
  exists (pair_core 3 2), Vadd, 0, 0, None, 2, 1. unfold is_ceil. cbn. repeat split; try lia. discriminate.
Qed.

Lemma bare_refuted : exists c k,
  0 < c_size (k_mv c) /\ core_reached c k /\ all_cache c 0 1 /\
  write_to_register c k 0 [7] = (Raise IndexError, k).
Proof.
  exists bare_core, (core_init bare_core). split; [cbn; lia|]. split; [exists []; reflexivity|]. split; [|reflexivity].
  intros i Hi. assert (i = 0) as -> by lia. exists 0. reflexivity.
Qed.

(** Unit 1 of the pair loaded with mixed_w, the cache holding 5, 3 from cell 1. *)
Definition pair_ops : list kop := [KLoad 1 mixed_w; KWrite 9 [5; 3]].
Definition pair_state : core := core_run (pair_core 1 1) (core_init (pair_core 1 1)) pair_ops.
Lemma pair_reached : core_reached (pair_core 1 1) pair_state. Proof. exists pair_ops. unfold pair_state. reflexivity. Qed.

Lemma pair_layer :
  core_ok mixed_cfg 4 (pair_core 1 1) /\ core_reached (pair_core 1 1) pair_state /\
  (exists u, nth_error (co_mvmus pair_state) 1 = Some u /\ loaded mixed mixed_w u) /\
  map (fun j => content pair_state (PCache (1 + j))) (zrange 2) = [5; 3] /\
  (let r := exec_all (pair_core 1 1) pair_state (layer_program (pair_core 1 1) 1 1 5) in
   fst r = Ok tt /\ map (fun j => content (snd r) (PCache j)) (zrange 8) = [0; 5; 3; 0; 0; 0; 2; 0]).
Proof.
  split; [apply pair_ok|]. split; [exact pair_reached|]. split; [|split; vm_compute; auto].
  exists (snd (load_weights mixed (mvmu_init mixed) mixed_w)). split.
  - assert (E : core_step (pair_core 1 1) (core_init (pair_core 1 1)) (KLoad 1 mixed_w) =
                set_mvmu (core_init (pair_core 1 1)) 1 (snd (load_weights mixed (mvmu_init mixed) mixed_w))) by exact eq_refl.
    unfold pair_state, pair_ops, core_run. cbn [fold_left]. rewrite E.
    generalize (snd (load_weights mixed (mvmu_init mixed) mixed_w)) as u0. intros u0. reflexivity.
  - exists [], []. split; [|split; [constructor|]].
    + cbn [mv_run fold_left]. exact mixed_load.
    + cbn [mv_run fold_left mv_step app]. reflexivity.
Qed.

Lemma mvm_other_units c k xs k' j : core_reached c k -> exec_local c k (CMvm xs) = (Ok tt, k') ->
  ~ In (Z.of_nat j) xs -> nth_error (co_mvmus k') j = nth_error (co_mvmus k) j /\
  co_cache k' = co_cache k /\ co_vfu k' = co_vfu k.
Proof.
  intros R E NI. cbn [exec_local] in E. destruct (exec_mvm_units c xs k k' j (reached_inv _ _ R) E) as (A & B & C). auto.
Qed.

Lemma write_unchanged_outputs cfg ww c k s d : core_ok cfg ww c -> core_reached c k ->
  forall u o, content (snd (write_to_register c k s d)) (POut u o) = content k (POut u o).
Proof.
  intros OK R u o. destruct (write_to_register c k s d) as [[[]|e] k'] eqn:E; cbn [snd].
  - unfold write_to_register in E. destruct ((s <? 0) || _); [discriminate|]. destruct (overlaps_output _ _ _); [discriminate|].
    destruct (cache_start c <=? s).
    + destruct (mem_write _ _ _ _) as [r m']. injection E as -> <-. reflexivity.
    + destruct (mvmu_id_of _ _ _) as [i|]; [|discriminate].
      destruct (nth_error (co_mvmus k) (Z.to_nat i)) as [x|] eqn:U; [|discriminate].
      destruct (write_to_inreg x (s mod c_size (k_mv c)) d) as [r x'] eqn:WI. injection E as -> <-.
      assert (outputs x' = outputs x) by (unfold write_to_inreg in WI; destruct (inreg_write _ _ _); now injection WI as _ <-).
      cbn [content set_mvmu co_mvmus]. rewrite nth_error_upd. destruct (Z.to_nat i =? Z.to_nat u)%nat eqn:J; [|reflexivity].
      apply Nat.eqb_eq in J. rewrite <- J, U. now rewrite H.
  - unfold write_to_register in E. destruct ((s <? 0) || _); [now injection E as _ <-|]. destruct (overlaps_output _ _ _); [now injection E as _ <-|].
    destruct (cache_start c <=? s).
    + destruct (mem_write _ _ _ _) as [r m']. injection E as -> <-. reflexivity.
    + destruct (mvmu_id_of _ _ _) as [i|]; [|now injection E as _ <-].
      destruct (nth_error (co_mvmus k) (Z.to_nat i)) as [x|] eqn:U; [|now injection E as _ <-].
      destruct (write_to_inreg x (s mod c_size (k_mv c)) d) as [r x'] eqn:WI. injection E as -> <-.
      assert (outputs x' = outputs x) by (unfold write_to_inreg in WI; destruct (inreg_write _ _ _); now injection WI as _ <-).
      cbn [content set_mvmu co_mvmus]. rewrite nth_error_upd. destruct (Z.to_nat i =? Z.to_nat u)%nat eqn:J; [|reflexivity].
      apply Nat.eqb_eq in J. rewrite <- J, U. now rewrite H.
Qed.

(** Every instruction is a sequence of the calls of [core_step]. *)
Lemma exec_decomposes c k o : is_memory_op o = false ->
  exists ops, snd (exec_local c k o) = core_run c k ops.
Proof.
  intros _. destruct o as [| |dest imm vec|dest read vec|xs|op dest r1 r2 vec|]; cbn [exec_local]; try (exists []; reflexivity).
  - unfold exec_set. destruct (vec <? 0); [exists []; reflexivity|].
    exists [KWrite dest (repeat imm (Z.to_nat vec))]. reflexivity.
  - unfold exec_copy. destruct (read_from_register c k read vec) as [[v|e] k1] eqn:E.
    + exists [KRead read vec; KWrite dest v]. cbn. now rewrite E.
    + exists [KRead read vec]. cbn. now rewrite E.
  - exists [KMvm xs]. reflexivity.
  - unfold exec_vfu. destruct (read_from_register c k r1 vec) as [[a|e] k1] eqn:E.
    + destruct r2 as [r2|].
      * destruct (read_from_register c k1 r2 vec) as [[b|e] k2] eqn:E2.
        -- destruct (vfu_calculate (k_vfu c) (co_vfu k2) op a (Some b)) as [[r|e] s] eqn:V.
           ++ exists [KRead r1 vec; KRead r2 vec; KVec op a (Some b); KWrite dest r]. cbn. rewrite E. cbn. rewrite E2. cbn. now rewrite V.
           ++ exists [KRead r1 vec; KRead r2 vec; KVec op a (Some b)]. cbn. rewrite E. cbn. rewrite E2. cbn. now rewrite V.
        -- exists [KRead r1 vec; KRead r2 vec]. cbn. rewrite E. cbn. now rewrite E2.
      * destruct (vfu_calculate (k_vfu c) (co_vfu k1) op a None) as [[r|e] s] eqn:V.
        -- exists [KRead r1 vec; KVec op a None; KWrite dest r]. cbn. rewrite E. cbn. now rewrite V.
        -- exists [KRead r1 vec; KVec op a None]. cbn. rewrite E. cbn. now rewrite V.
    + exists [KRead r1 vec]. cbn. now rewrite E.
Qed.

Lemma exec_reached c k o : core_reached c k -> core_reached c (snd (exec_local c k o)).
Proof.
  intros (ops & ->). destruct (is_memory_op o) eqn:E.
  - exists ops. now destruct o.
  - destruct (exec_decomposes c (core_run c (core_init c) ops) o E) as [ops' ->]. exists (ops ++ ops').
    unfold core_run. now rewrite fold_left_app.
Qed.

(** ** Statements of PropCore *)
Lemma write_changes cfg ww c k s d k' : core_ok cfg ww c -> core_reached c k ->
  write_to_register c k s d = (Ok tt, k') ->
  (forall a p, s <= a < s + zlen d -> place_of c a = Some p -> is_int32_of (content k' p) (znth 0 d (a - s))) /\
  (forall a p, a < s \/ s + zlen d <= a -> place_of c a = Some p -> content k' p = content k p) /\
  same_rest k k'.
Proof.
  intros OK R E. destruct (write_effect cfg ww c OK k s d k' R E) as (A & B & C). split; [|split; [|exact C]].
  - intros a p Ha P. replace a with (s + (a - s)) in P by lia. apply (A (a - s) p); [lia|exact P].
  - intros a p Ha P. destruct (B p) as [H|H]; [|exact H|exfalso; exact (H a P)].
    intros (i & Hi & P'). pose proof (place_injective cfg ww c OK _ _ _ P P'). lia.
Qed.

Lemma write_empty cfg ww c k s : core_ok cfg ww c -> core_reached c k ->
  forall a p, place_of c a = Some p -> content (snd (write_to_register c k s [])) p = content k p.
Proof.
  intros OK R a p P. destruct (write_to_register c k s []) as [[[]|e] k'] eqn:E; cbn [snd].
  - destruct (write_changes cfg ww c k s [] k' OK R E) as (_ & B & _). apply (B a p); [unfold zlen; cbn; lia|exact P].
  - unfold write_to_register in E. destruct ((s <? 0) || _) eqn:E0; [now injection E as _ <-|].
    destruct (overlaps_output _ _ _); [now injection E as _ <-|].
    destruct (cache_start c <=? s) eqn:E1.
    + pose proof (cache_wf cfg ww c OK k (reached_inv _ _ R)) as [W S].
      unfold mem_write in E. rewrite S in E. unfold zlen, total_registers in *. cbn in E, E0.
      destruct ((s - cache_start c <? 0) || (k_cache c <? s - cache_start c + 0)) eqn:E2; [|discriminate]. lia.
    + destruct (mvmu_id_of _ _ _) as [i|]; [|now injection E as _ <-].
      destruct (nth_error (co_mvmus k) (Z.to_nat i)) as [x|] eqn:U; [|now injection E as _ <-].
      unfold write_to_inreg, inreg_write in E.
      destruct ((s mod c_size (k_mv c) <? 0) || _) eqn:E2; [|discriminate].
      injection E as _ <-. rewrite set_mvmu_self; [reflexivity|]. rewrite U. now destruct x.
Qed.

Lemma read_visible cfg ww c k s l v k' : core_ok cfg ww c -> core_reached c k -> 0 < l ->
  read_from_register c k s l = (Ok v, k') ->
  zlen v = l /\ (forall a p, s <= a < s + l -> place_of c a = Some p ->
     (forall u o, p <> PIn u o) /\ znth 0 v (a - s) = visible c k p).
Proof.
  intros OK R Hl E. destruct (read_decided cfg ww c OK k s l R Hl) as [A B].
  assert (D : all_cache c s l \/ one_output c s l).
  { destruct (read_cases cfg ww c OK k s l (reached_inv _ _ R) Hl) as [(H & _)|[(H & _)|(H & W)]]; [now left|now right|congruence]. }
  destruct (A D) as (v' & k1 & E' & L & P). rewrite E in E'. injection E' as <- <-. split; [exact L|].
  intros a p Ha Pa. replace a with (s + (a - s)) in Pa by lia. split.
  - intros u o ->. destruct D as [D|[w D]]; destruct (D (a - s) ltac:(lia)) as [o' D']; congruence.
  - apply P; [lia|exact Pa].
Qed.

Lemma output_read cfg ww c k s l u : core_ok cfg ww c -> core_reached c k -> 0 < l ->
  (forall a, s <= a < s + l -> exists o, place_of c a = Some (POut u o)) ->
  exists v k', read_from_register c k s l = (Ok v, k') /\ zlen v = l /\
    (forall a o, s <= a < s + l -> place_of c a = Some (POut u o) ->
       znth 0 v (a - s) = content k (POut u o) / 2 ^ c_weight_frac (k_mv c)) /\
    (forall p, content k' p = content k p).
Proof.
  intros OK R Hl H.
  assert (D : one_output c s l). { exists u. intros i Hi. apply H. lia. }
  destruct (proj1 (read_decided cfg ww c OK k s l R Hl) (or_intror D)) as (v & k' & E & L & P).
  exists v, k'. split; [exact E|]. split; [exact L|]. split.
  - intros a o Ha Pa. replace a with (s + (a - s)) in Pa by lia. apply (P (a - s) _ ltac:(lia) Pa).
  - pose proof (proj1 (read_effect cfg ww c OK k s l R)) as C. now rewrite E in C.
Qed.

Lemma read_unchanged cfg ww c k s l : core_ok cfg ww c -> core_reached c k ->
  (forall p, content (snd (read_from_register c k s l)) p = content k p) /\ same_rest k (snd (read_from_register c k s l)).
Proof. intros OK R. exact (read_effect cfg ww c OK k s l R). Qed.

Lemma iter_in {A} (f : A -> A) n x : Nat.iter n f (f x) = Nat.iter (S n) f x.
Proof. induction n as [|n IH]; [reflexivity|]. change (f (Nat.iter n f (f x)) = f (Nat.iter (S n) f x)). now rewrite IH. Qed.

(** Registers and weights of one unit after any list of multiplies agree with multiplying that unit
    as often as it is named. *)
Lemma mvm_in_order c xs : forall k k' j u, core_inv c k -> exec_mvm c k xs = (Ok tt, k') ->
  nth_error (co_mvmus k) j = Some u ->
  nth_error (co_mvmus k') j = Some (Nat.iter (count_occ Z.eq_dec xs (Z.of_nat j)) (execute_mvm (k_mv c)) u).
Proof.
  induction xs as [|i xs IH]; intros k k' j u I E U; cbn [exec_mvm] in E.
  - injection E as <-. exact U.
  - destruct (get_mvmu k i) as [x|e] eqn:G; [|discriminate]. apply get_mvmu_ok in G. destruct G as [G1 G2].
    pose proof (inv_set_mvmu c k i x OMvm I G2) as I'. cbn [mv_step] in I'.
    cbn [count_occ]. destruct (Z.eq_dec i (Z.of_nat j)) as [->|N].
    + rewrite Nat2Z.id in G2. rewrite U in G2. injection G2 as <-.
      rewrite (IH _ _ j (execute_mvm (k_mv c) u) I' E).
      * f_equal. apply iter_in.
      * cbn. rewrite nth_error_upd, Nat2Z.id, Nat.eqb_refl, U. reflexivity.
    + apply (IH _ _ j u I' E). cbn. rewrite nth_error_upd.
      replace (Z.to_nat i =? j)%nat with false; [exact U|]. symmetry. apply Nat.eqb_neq. lia.
Qed.

Lemma mvm_units c k xs k' j u : core_reached c k -> exec_local c k (CMvm xs) = (Ok tt, k') ->
  nth_error (co_mvmus k) j = Some u ->
  nth_error (co_mvmus k') j = Some (Nat.iter (count_occ Z.eq_dec xs (Z.of_nat j)) (execute_mvm (k_mv c)) u) /\
  co_cache k' = co_cache k /\ co_vfu k' = co_vfu k.
Proof.
  intros R E U. cbn [exec_local] in E. split; [exact (mvm_in_order c xs k k' j u (reached_inv _ _ R) E U)|].
  destruct (exec_mvm_units c xs k k' j (reached_inv _ _ R) E) as (A & B & _). auto.
Qed.
Lemma vfu_failure_wrap cfg ww c k op dest r1 r2 vec a b :
  core_ok cfg ww c -> core_reached c k ->
  fst (read_from_register c k r1 vec) = Ok a ->
  (forall r, r2 = Some r -> exists v, fst (read_from_register c k r vec) = Ok v /\ b = Some v) ->
  (r2 = None -> b = None) ->
  succeeds op a b = false ->
  exists e k', exec_local c k (CVfu op dest r1 r2 vec) = (Raise e, k') /\
    (forall p, content k' p = content k p) /\ same_rest k k'.
Proof. intros OK. exact (vfu_unit_failure cfg ww c OK k op dest r1 r2 vec a b). Qed.
