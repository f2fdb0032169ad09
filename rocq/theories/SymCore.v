(** The symbolic machine and the cores: an instruction the machine executes on expressions succeeds, with the values of these expressions. *)
From Verif Require Import PyBase PyLemmas ConfigModel MemoryModel MemorySpec MemoryProofs VfuModel FloatModel
  MvmuModel MvmuSpec MvmuLists MvmuLoad MvmuRun MvmuProofs CoreModel CoreSpec CoreProofs CoreUse CoreInstr DramModel SystemModel SymMachine.
From Coq Require Import ZifyBool ZifyNat.
Open Scope Z_scope.

Lemma sv_eqb_eq a b : sv_eqb a b = true -> a = b.
Proof.
  revert b; induction a as [z|i|t k u j|a1 IH1 a2 IH2|a IH|]; intros [z'|i'|t' k' u' j'|b1 b2|b|]; cbn [sv_eqb]; try discriminate; intros H.
  - f_equal; lia.
  - f_equal; lia.
  - f_equal; lia.
  - apply andb_prop in H as [H1 H2]. f_equal; auto.
  - f_equal; auto.
Qed.
Lemma svs_eqb_eq a b : svs_eqb a b = true -> a = b.
Proof.
  revert b; induction a as [|x a IH]; intros [|y b]; cbn [svs_eqb]; try discriminate; intros H; [reflexivity|].
  apply andb_prop in H as [H1 H2]. apply sv_eqb_eq in H1. f_equal; auto.
Qed.

(** The value of an expression, given the inputs and the outputs of the units. *)
Section Den.
Context (v : vfu_cfg) (e_in : Z -> Z) (e_u : Z -> Z -> Z -> Z -> Z).
Definition vclip (x : Z) : Z := clipZ (v_min_value v) (v_max_value v) x.
Definition vadd (a b : Z) : Z := vclip (wrap32 (a + b)).
Definition vrelu (a : Z) : Z := vclip (Z.max 0 a).
Fixpoint den (x : sv) : option Z :=
  match x with
  | VC z => Some z
  | VIn i => Some (e_in i)
  | VU t k u j => Some (e_u t k u j)
  | VAdd a b => match den a, den b with Some p, Some q => Some (vadd p q) | _, _ => None end
  | VRelu a => match den a with Some p => Some (vrelu p) | None => None end
  | VX => None
  end.
Definition shows (x : sv) (z : Z) : Prop := forall y, den x = Some y -> z = y.
Definition is (x : sv) (z : Z) : Prop := int32 z /\ shows x z.

Lemma shows_add a b x y : shows a x -> shows b y -> shows (VAdd a b) (vadd x y).
Proof.
  intros A B z. cbn [den]. destruct (den a) as [p|] eqn:EA; [|discriminate]. destruct (den b) as [q|] eqn:EB; [|discriminate].
  intros [= <-]. now rewrite (A p EA), (B q EB).
Qed.
Lemma shows_relu a x : shows a x -> shows (VRelu a) (vrelu x).
Proof. intros A z. cbn [den]. destruct (den a) as [p|] eqn:EA; [|discriminate]. intros [= <-]. now rewrite (A p EA). Qed.

Lemma vclip_int32 x : 0 <= v_width v <= 31 -> int32 x -> int32 (vclip x).
Proof.
  clear e_in e_u. intros HW HX. unfold vclip, v_min_value, v_max_value. rewrite Z.shiftl_mul_pow2 by lia.
  assert (2 ^ v_width v <= 2 ^ 31) by (apply Z.pow_le_mono_r; lia). assert (0 < 2 ^ v_width v) by (apply Z.pow_pos_nonneg; lia).
  pose proof (clipZ_range (-1 * (1 * 2 ^ v_width v)) (1 * 2 ^ v_width v - 1) x ltac:(lia)).
  change (2 ^ 31) with 2147483648 in *. unfold int32. lia.
Qed.
End Den.

Lemma forall2_znth {A B} (d : A) (d' : B) (P : A -> B -> Prop) l l' : Forall2 P l l' <->
  zlen l = zlen l' /\ forall i, 0 <= i < zlen l -> P (znth d l i) (znth d' l' i).
Proof.
  split.
  - induction 1 as [|x y l l' H _ [IH1 IH2]]; [split; [reflexivity|cbn; lia]|].
    unfold zlen in *. cbn [length]. split; [lia|]. intros i Hi. unfold znth. destruct (Z.to_nat i) as [|j] eqn:E; [exact H|].
    cbn [nth]. specialize (IH2 (Z.of_nat j) ltac:(lia)). unfold znth in IH2. now rewrite Nat2Z.id in IH2.
  - revert l'; induction l as [|x l IH]; intros [|y l'] [L H]; unfold zlen in *; cbn [length] in *; try lia; constructor.
    + apply (H 0). lia.
    + apply IH. split; [lia|]. intros i Hi. specialize (H (i + 1) ltac:(lia)). unfold znth in *.
      replace (Z.to_nat (i + 1)) with (S (Z.to_nat i)) in H by lia. exact H.
Qed.
Lemma znth_map {A B} (f : A -> B) (d : A) (d' : B) l i : 0 <= i < zlen l -> znth d' (map f l) i = f (znth d l i).
Proof. intros H. unfold znth, zlen in *. apply nth_map_lt. lia. Qed.
Lemma znth_repeat {A} (x d : A) n i : 0 <= i < n -> znth d (repeat x (Z.to_nat n)) i = x.
Proof. intros H. unfold znth. apply nth_repeat_lt. lia. Qed.
Lemma zlen_map {A B} (f : A -> B) l : zlen (map f l) = zlen l.
Proof. unfold zlen. now rewrite map_length. Qed.
Lemma zlen_block {A} (l : list A) s n : 0 <= s -> 0 <= n -> s + n <= zlen l -> zlen (block l s n) = n.
Proof. intros H1 H2 H3. unfold zlen. rewrite (length_block l s n H1 H2 H3). lia. Qed.
Lemma znth_block {A} (d : A) l s n i : 0 <= s -> 0 <= i < n -> znth d (block l s n) i = znth d l (s + i).
Proof. intros H1 H2. unfold znth. rewrite nth_block by lia. f_equal. lia. Qed.
Lemma zlen_zipwith {A B C} (f : A -> B -> C) a b : zlen a = zlen b -> zlen (zipwith f a b) = zlen a.
Proof. unfold zlen, zipwith. intros H. rewrite map_length, combine_length. lia. Qed.
Lemma znth_zipwith {A B C} (f : A -> B -> C) da db dc a b i : zlen a = zlen b -> 0 <= i < zlen a ->
  znth dc (zipwith f a b) i = f (znth da a i) (znth db b i).
Proof.
  unfold zlen, zipwith, znth. intros H Hi. rewrite (nth_map_lt _ _ _ (da, db)) by (rewrite combine_length; lia).
  rewrite combine_nth by lia. reflexivity.
Qed.
Lemma zlen_repeat' {A} (x : A) n : 0 <= n -> zlen (repeat x (Z.to_nat n)) = n.
Proof. intros H. unfold zlen. rewrite repeat_length. lia. Qed.
Lemma zlen_zrange n : 0 <= n -> zlen (zrange n) = n.
Proof. intros H. unfold zlen. rewrite length_zrange. lia. Qed.
Lemma znth_map_zrange {A} (f : Z -> A) d n i : 0 <= i < n -> znth d (map f (zrange n)) i = f i.
Proof. intros H. unfold znth. rewrite nth_map_zrange by lia. f_equal. lia. Qed.

Lemma guard_some {A} b (x : option A) y : guard b x = Some y -> b = true /\ x = Some y.
Proof. unfold guard. now destruct b. Qed.

Section Core.
Context (cfg : list bitcfg) (ww : Z) (c : core_cfg) (OK : core_ok cfg ww c) (ID : ideal cfg (k_mv c)).
Context (HW : 0 <= v_width (k_vfu c) <= 31).
Context (g : geo) (Hn : g_n g = c_size (k_mv c)) (Hm : g_m g = k_mvmus c) (Hq : g_q g = k_cache c).
Context (e_in : Z -> Z) (e_u : Z -> Z -> Z -> Z -> Z) (W : Z -> Z -> Z -> list (list f64)).
Notation shows := (shows (k_vfu c) e_in e_u).
Notation is := (is (k_vfu c) e_in e_u).
(** The outputs are those of the unit for the expected inputs. *)
Context (HE : forall i k u l xs, g_in g i k u = Some l -> zlen xs = c_size (k_mv c) -> Forall2 is l xs ->
  forall j, 0 <= j < c_size (k_mv c) -> e_u i k u j = wrap32 (mvm_value (k_mv c) cfg (znth [] (W i k u) j) xs) / 2 ^ c_weight_frac (k_mv c)).
Notation n := (c_size (k_mv c)).
Notation m := (k_mvmus c).

Record crel (i k : Z) (r : list sv) (K : core) : Prop := {
  cr_reached : core_reached c K;
  cr_len : zlen r = total_registers c;
  cr_val : forall a p, place_of c a = Some p -> shows (znth VX r a) (visible c K p);
  cr_units : forall u l, g_in g i k u = Some l -> 0 <= u < m ->
    exists U, nth_error (co_mvmus K) (Z.to_nat u) = Some U /\ holds cfg (k_mv c) (W i k u) U }.

Lemma total_eq : total_registers c = 2 * (m * n) + k_cache c.
Proof. unfold total_registers, cache_start, outreg_start. lia. Qed.
Lemma n_mn : 0 < n /\ n <= m * n.
Proof.
  pose proof (ok_size _ _ _ (core_ok_mv _ _ _ OK)). pose proof (core_ok_mvmus _ _ _ OK). nia.
Qed.

Lemma sreadable_ok s l : sreadable g s l = true -> 0 < l /\ readable c s l /\ 0 <= s /\ s + l <= total_registers c.
Proof.
  unfold sreadable, in_cache. rewrite Hn, Hm, Hq, total_eq. intros H. pose proof n_mn. pose proof (core_ok_cache _ _ _ OK).
  assert (L : 0 < l) by lia. split; [exact L|]. unfold readable.
  rewrite (all_cache_iff cfg ww c OK s l L), (one_output_iff cfg ww c OK s l L). lia.
Qed.
Lemma swritable_ok s l : swritable g s l = true -> 0 < l /\ writable c s l /\ 0 <= s /\ s + l <= total_registers c.
Proof.
  unfold swritable, in_cache. rewrite Hn, Hm, Hq, total_eq. intros H. pose proof n_mn. pose proof (core_ok_cache _ _ _ OK).
  assert (L : 0 < l) by lia. split; [exact L|]. unfold writable.
  rewrite (all_cache_iff cfg ww c OK s l L), (one_input_iff cfg ww c OK s l L). lia.
Qed.
Lemma place_nonneg a p : place_of c a = Some p -> 0 <= a < total_registers c.
Proof.
  rewrite total_eq. unfold place_of. pose proof n_mn. pose proof (core_ok_cache _ _ _ OK).
  destruct (a <? 0) eqn:E; [discriminate|]. destruct (a <? m * n) eqn:E2; [lia|].
  destruct (a <? 2 * (m * n)) eqn:E3; [lia|]. destruct (a <? 2 * (m * n) + k_cache c) eqn:E4; [lia|discriminate].
Qed.
Lemma writable_place s l i p : writable c s l -> 0 <= i < l -> place_of c (s + i) = Some p -> forall K, visible c K p = content K p.
Proof.
  intros [H|[u H]] Hi P K; destruct (H i Hi) as [o E]; rewrite P in E; injection E as ->; reflexivity.
Qed.

Lemma units_same i k r K K' : crel i k r K -> Forall2 same_cells (co_mvmus K) (co_mvmus K') ->
  forall u l, g_in g i k u = Some l -> 0 <= u < m ->
    exists U, nth_error (co_mvmus K') (Z.to_nat u) = Some U /\ holds cfg (k_mv c) (W i k u) U.
Proof.
  intros R S u l G Hu. destruct (cr_units _ _ _ _ R u l G Hu) as (U & E & H).
  assert (Q : forall a b j x, Forall2 same_cells a b -> nth_error a j = Some x -> exists y, nth_error b j = Some y /\ same_cells x y).
  { intros a b j x F; revert j; induction F as [|p q a b Hpq F IH]; intros [|j]; cbn [nth_error]; try discriminate.
    - intros [= <-]. eauto.
    - apply IH. }
  destruct (Q _ _ _ _ S E) as (U' & E' & C1 & C2 & C3 & C4). exists U'. split; [exact E'|]. now apply (holds_frame _ _ _ U).
Qed.

Lemma crel_frame i k r K K' : crel i k r K -> core_reached c K' -> (forall p, content K' p = content K p) ->
  Forall2 same_cells (co_mvmus K) (co_mvmus K') -> crel i k r K'.
Proof.
  intros R R' C S. constructor; [exact R'|apply R| |exact (units_same _ _ _ _ _ R S)].
  intros a p P. rewrite (visible_ext c K K' p C). now apply R.
Qed.

Lemma crel_stored i k r K K' s vs good : crel i k r K -> core_reached c K' -> 0 < zlen vs -> writable c s (zlen vs) ->
  stored c K K' s (zlen vs) good ->
  (forall j z, 0 <= j < zlen vs -> good j z -> shows (znth VX vs j) z) -> 0 <= s -> s + zlen vs <= total_registers c ->
  crel i k (blit r s vs) K'.
Proof.
  intros R R' Hl HD (S1 & S2 & S3) G H0 H1. constructor; [exact R'| | |exact (units_same _ _ _ _ _ R S3)].
  - rewrite zlen_blit; [apply R|exact H0|]. now rewrite (cr_len _ _ _ _ R).
  - intros a p P. pose proof (place_nonneg a p P) as Ha. rewrite (znth_blit VX) by (rewrite ?(cr_len _ _ _ _ R); lia).
    destruct ((s <=? a) && (a <? s + zlen vs)) eqn:E.
    + assert (HA : s + (a - s) = a) by lia.
      rewrite (writable_place s (zlen vs) (a - s) p HD ltac:(lia)) by (now rewrite HA).
      apply G; [lia|]. apply S1; [lia|]. now rewrite HA.
    + replace (visible c K' p) with (visible c K p); [now apply R|].
      assert (C : content K' p = content K p) by (apply (S2 a p); [lia|exact P]). destruct p; cbn [visible]; now rewrite C.
Qed.

(** Reading. *)
Lemma crel_read i k r K s l : crel i k r K -> sreadable g s l = true ->
  exists v K', read_from_register c K s l = (Ok v, K') /\ Forall2 is (block r s l) v /\ crel i k r K'.
Proof.
  intros R H. destruct (sreadable_ok s l H) as (Hl & RD & H0 & H1).
  destruct (read_good cfg ww c OK K s l (cr_reached _ _ _ _ R) Hl RD) as (v & K' & E & L & V32 & V & R' & C & S).
  exists v, K'. split; [exact E|]. split.
  - apply (forall2_znth VX 0). rewrite zlen_block by (rewrite ?(cr_len _ _ _ _ R); lia). split; [lia|].
    intros j Hj. rewrite znth_block by lia. destruct (readable_place c s l j RD Hj) as [p P].
    rewrite (V j p Hj P). split; [now apply (visible_int32 cfg ww c OK); apply R|now apply R].
  - apply (crel_frame i k r K K' R R' C). apply S.
Qed.

Lemma crel_address i k r K s a : crel i k r K -> reg_address g r s = Some a ->
  exists K', load_address c K s = (Ok a, K') /\ (exists v, read_from_register c K s 1 = (Ok (a :: v), K')) /\ crel i k r K'.
Proof.
  intros R H. apply guard_some in H as [H1 H2]. destruct (crel_read i k r K s 1 R H1) as (v & K' & E & F & R').
  destruct (sreadable_ok s 1 H1) as (_ & _ & H0 & H3).
  apply (forall2_znth VX 0) in F as [L F]. rewrite zlen_block in L, F by (rewrite ?(cr_len _ _ _ _ R); lia).
  specialize (F 0 ltac:(lia)). rewrite znth_block in F by lia. rewrite Z.add_0_r in F.
  destruct (znth VX r s) as [z| | | | |] eqn:Z0; try discriminate. injection H2 as ->.
  destruct v as [|b v]; [cbn in L; lia|]. destruct F as [_ F]. specialize (F a eq_refl). cbn in F. subst b.
  exists K'. split; [|split; [now exists v|exact R']]. unfold load_address. now rewrite E.
Qed.

Lemma crel_write i k r K s vs zs : crel i k r K -> swritable g s (zlen zs) = true -> Forall2 is vs zs ->
  exists K', write_to_register c K s zs = (Ok tt, K') /\ crel i k (blit r s vs) K'.
Proof.
  intros R H F. destruct (swritable_ok s _ H) as (Hl & WR & H0 & H1).
  destruct (write_good cfg ww c OK K s zs (cr_reached _ _ _ _ R) Hl WR) as (K' & E & S & ST).
  exists K'. split; [exact E|]. pose proof (reached_snoc c K (KWrite s zs) (cr_reached _ _ _ _ R)) as R'. cbn [core_step] in R'. rewrite E in R'.
  apply (forall2_znth VX 0) in F as [L F].
  apply (crel_stored i k r K K' s vs (fun i v => is_int32_of v (znth 0 zs i))); rewrite ?L; try assumption.
  intros j z Hj Z. apply is_int32_of_unique in Z. destruct (F j ltac:(lia)) as [F1 F2]. rewrite (wrap32_id _ F1) in Z. now subst z.
Qed.

Lemma local_reached K o K' r : core_reached c K -> exec_local c K o = (r, K') -> core_reached c K'.
Proof. intros R E. pose proof (exec_reached c K o R) as Q. now rewrite E in Q. Qed.

Lemma crel_vfu i k r K op d s1 s2 v vs :
  crel i k r K -> swritable g d v = true -> sreadable g s1 v = true -> (forall s, s2 = Some s -> sreadable g s v = true) ->
  zlen vs = v ->
  (forall a b, zlen a = v -> Forall2 is (block r s1 v) a ->
     match s2, b with Some s, Some b => zlen b = v /\ Forall2 is (block r s v) b | None, None => True | _, _ => False end ->
     exists z, v_handle (k_vfu c) op a b = Ok z /\ Forall2 is vs (map (vclip (k_vfu c)) z)) ->
  exists K', exec_local c K (CVfu op d s1 s2 v) = (Ok tt, K') /\ crel i k (blit r d vs) K'.
Proof.
  intros R HD H1 H2 HL HV. destruct (sreadable_ok s1 v H1) as (Hl & RD1 & P0 & P1).
  assert (RD2 : forall s, s2 = Some s -> readable c s v) by (intros s E; now apply sreadable_ok, H2).
  destruct (vfu_good cfg ww c OK K op d s1 s2 v (cr_reached _ _ _ _ R) Hl RD1 RD2) as (a & b & K1 & L & A32 & A & B & R1 & C1 & S1 & E).
  assert (FA : forall s x, sreadable g s v = true -> zlen x = v -> Forall int32 x ->
    (forall j p, 0 <= j < v -> place_of c (s + j) = Some p -> znth 0 x j = visible c K p) -> Forall2 is (block r s v) x).
  { intros s x HS LX X32 X. destruct (sreadable_ok s v HS) as (_ & RD & Q0 & Q1). apply (forall2_znth VX 0).
    rewrite zlen_block by (rewrite ?(cr_len _ _ _ _ R); lia). split; [lia|]. intros j Hj. rewrite znth_block by lia.
    destruct (readable_place c s v j RD Hj) as [p P]. rewrite (X j p Hj P).
    split; [now apply (visible_int32 cfg ww c OK); apply R|now apply R]. }
  destruct (HV a b L (FA s1 a H1 L A32 A)) as (z & VH & FZ).
  { destruct s2 as [s2|], b as [b|]; try exact B. destruct B as (LB & B32 & B). split; [exact LB|]. apply FA; auto. }
  unfold vfu_calculate in E. rewrite VH in E.
  assert (RV : core_reached c (set_vfu K1 (v_update_stats (co_vfu K) op (zlen a)))).
  { pose proof (vfu_reached c K1 op a b R1) as Q. replace (co_vfu K1) with (co_vfu K) in Q by (apply S1).
    unfold vfu_calculate in Q. now rewrite VH in Q. }
  assert (RR : crel i k r (set_vfu K1 (v_update_stats (co_vfu K) op (zlen a)))).
  { apply (crel_frame i k r K _ R RV); [|apply S1]. intros p. rewrite content_vfu. apply C1. }
  destruct (crel_write i k r _ d vs (map (vclip (k_vfu c)) z) RR) as (K' & E' & R'); [|exact FZ|].
  - apply (forall2_znth VX 0) in FZ as [LZ _]. rewrite <- LZ, HL. exact HD.
  - exists K'. split; [|exact R']. rewrite E. exact E'.
Qed.

(** A multiply. *)
Lemma crel_mvm i k r K u l : crel i k r K -> g_in g i k u = Some l -> 0 <= u < m -> block r (u * n) n = l ->
  exists K', exec_local c K (CMvm [u]) = (Ok tt, K') /\
    crel i k (blit (blit r (m * n + u * n) (map (VU i k u) (zrange n))) (u * n) (repeat VX (Z.to_nat n))) K'.
Proof.
  intros R G Hu HB. destruct (cr_units _ _ _ _ R u l G Hu) as (U & EU & HU).
  pose proof (reached_inv _ _ (cr_reached _ _ _ _ R)) as I. pose proof n_mn as [N0 N1].
  assert (UN : u * n + n <= m * n) by nia. assert (U0 : 0 <= u * n) by nia.
  pose proof (core_ok_cache _ _ _ OK) as Q0.
  pose proof (unit_shaped cfg ww c OK K _ U I EU) as SH.
  cbn [exec_local]. rewrite (exec_mvm_single c K u U I Hu EU). set (U' := execute_mvm (k_mv c) U).
  exists (set_mvmu K u U'). split; [reflexivity|].
  assert (ML : (Z.to_nat u < length (co_mvmus K))%nat) by (rewrite (ki_len _ _ I); lia).
  assert (IN : Forall2 is l (inputs U)).
  { subst l. apply (forall2_znth VX 0). rewrite zlen_block by (rewrite ?(cr_len _ _ _ _ R), ?total_eq; lia).
    assert (LI : zlen (inputs U) = n) by (unfold zlen, inputs; rewrite (sh_inl _ _ _ SH); lia).
    split; [lia|]. intros j Hj. rewrite znth_block by lia.
    assert (P : place_of c (u * n + j) = Some (PIn u j)) by (apply (place_in cfg ww c OK); lia).
    pose proof (cr_val _ _ _ _ R _ _ P) as V. cbn [visible content] in V. rewrite EU in V. split; [|exact V].
    unfold znth. apply Forall_nth_ok; [apply SH|unfold int32; lia]. }
  assert (LI : zlen (inputs U) = n) by (unfold zlen, inputs; rewrite (sh_inl _ _ _ SH); lia).
  assert (OUT : outputs U' = map (fun row => wrap32 (mvm_value (k_mv c) cfg row (inputs U))) (W i k u)).
  { now apply (mvm_exact cfg ww (k_mv c) (core_ok_mv _ _ _ OK)). }
  assert (LW : zlen (W i k u) = n) by (unfold zlen; rewrite (h_rows _ _ _ _ HU); lia).
  assert (LZ : zlen (map (VU i k u) (zrange n)) = n) by (rewrite zlen_map, zlen_zrange; lia).
  assert (LX : zlen (repeat VX (Z.to_nat n)) = n) by (apply zlen_repeat'; lia).
  assert (LB : zlen (blit r (m * n + u * n) (map (VU i k u) (zrange n))) = total_registers c).
  { rewrite zlen_blit; [apply R|lia|]. rewrite LZ, (cr_len _ _ _ _ R), total_eq. lia. }
  constructor.
  - apply (local_reached K (CMvm [u]) _ (Ok tt)); [apply R|]. cbn [exec_local]. now apply exec_mvm_single.
  - rewrite zlen_blit; [exact LB|lia|]. rewrite LX, LB, total_eq. lia.
  - intros a p P. pose proof (place_nonneg a p P) as HA.
    rewrite (znth_blit VX) by (rewrite ?LX, ?LB, ?total_eq; lia). rewrite LX.
    destruct ((u * n <=? a) && (a <? u * n + n)) eqn:E1.
    { rewrite znth_repeat by lia. intros y. discriminate. }
    rewrite (znth_blit VX) by (rewrite ?LZ, ?(cr_len _ _ _ _ R), ?total_eq; lia). rewrite LZ.
    destruct ((m * n + u * n <=? a) && (a <? m * n + u * n + n)) eqn:E2.
    + assert (P' : place_of c a = Some (POut u (a - (m * n + u * n)))) by (apply (place_out cfg ww c OK); lia).
      rewrite P in P'. injection P' as ->. rewrite znth_map_zrange by lia. intros y. cbn [den]. intros [= <-].
      cbn [visible content]. rewrite nth_error_set_mvmu by lia. rewrite Nat.eqb_refl. fold (outputs U'). rewrite OUT.
      rewrite (znth_map _ []) by lia. symmetry. apply (HE i k u l (inputs U) G LI IN). lia.
    + replace (visible c (set_mvmu K u U') p) with (visible c K p); [now apply R|].
      destruct p as [w o|w o|o]; cbn [visible content]; [| |reflexivity].
      * apply (place_in cfg ww c OK) in P. rewrite nth_error_set_mvmu by lia.
        destruct (Z.to_nat w =? Z.to_nat u)%nat eqn:EW; [|reflexivity]. exfalso. assert (w = u) by lia. subst w. lia.
      * apply (place_out cfg ww c OK) in P. rewrite nth_error_set_mvmu by lia.
        destruct (Z.to_nat w =? Z.to_nat u)%nat eqn:EW; [|reflexivity]. exfalso. assert (w = u) by lia. subst w. lia.
  - intros w lw GW Hw. destruct (cr_units _ _ _ _ R w lw GW Hw) as (V & EV & HV).
    rewrite nth_error_set_mvmu by lia. destruct (Z.to_nat w =? Z.to_nat u)%nat eqn:EW; [|now exists V].
    assert (w = u) by lia. subst w. rewrite EU in EV. injection EV as <-. exists U'. split; [reflexivity|].
    destruct (mvm_frame cfg ww (k_mv c) (core_ok_mv _ _ _ OK) U SH) as (_ & _ & M2 & M3 & M4 & M5 & _).
    now apply (holds_frame _ _ _ U).
Qed.

Lemma crel_local i k r K o r' : crel i k r K -> slocal g i k r o = Some r' ->
  exists K', exec_local c K o = (Ok tt, K') /\ crel i k r' K'.
Proof.
  intros R. destruct o as [d a w v|d a w v|d imm v|d s v|xbar|op d s1 s2 v|]; cbn [slocal]; try discriminate.
  - intros H. apply guard_some in H as [H [= <-]]. apply andb_prop in H as [H HI]. apply int32b_spec in HI.
    destruct (swritable_ok d v H) as (Hl & WR & H0 & H1). cbn [exec_local]. unfold exec_set. replace (v <? 0) with false by lia.
    apply crel_write; [exact R|rewrite zlen_repeat' by lia; exact H|].
    apply (forall2_znth VX 0). rewrite !zlen_repeat' by lia. split; [reflexivity|]. intros j Hj. rewrite !znth_repeat by lia.
    split; [exact HI|]. intros y. cbn [den]. congruence.
  - intros H. apply guard_some in H as [H [= <-]]. apply andb_prop in H as [HD HS].
    destruct (crel_read i k r K s v R HS) as (z & K1 & E & F & R1). cbn [exec_local]. unfold exec_copy. rewrite E.
    apply crel_write; [exact R1| |exact F].
    apply (forall2_znth VX 0) in F as [L _]. destruct (sreadable_ok s v HS) as (Hl & _ & H0 & H1).
    rewrite zlen_block in L by (rewrite ?(cr_len _ _ _ _ R); lia). rewrite <- L. exact HD.
  - destruct xbar as [|u [|]]; try discriminate. destruct (g_in g i k u) as [l|] eqn:G; [|discriminate].
    intros H. apply guard_some in H as [H [= <-]]. rewrite Hm, Hn in *. apply andb_prop in H as [H B]. apply svs_eqb_eq in B.
    apply (crel_mvm i k r K u l R G); [lia|exact B].
  - assert (LEN : forall s, sreadable g s v = true -> zlen (block r s v) = v).
    { intros s HS. destruct (sreadable_ok s v HS) as (Hl & _ & H0 & H1). apply zlen_block; rewrite ?(cr_len _ _ _ _ R); lia. }
    destruct op; try discriminate; destruct s2 as [s2|]; try discriminate; intros H; apply guard_some in H as [H [= <-]].
    + apply andb_prop in H as [H H2]. apply andb_prop in H as [HD H1].
      apply crel_vfu; try assumption; [now intros s [= <-]|rewrite zlen_zipwith; rewrite !LEN; auto|].
      intros a [b|] LA FA FB; [|contradiction]. destruct FB as [LB FB].
      exists (zipwith (v_binary (k_vfu c) Vadd) a b). split.
      { unfold v_handle, broadcast2. cbn [is_unary]. now replace (zlen a =? zlen b) with true by lia. }
      apply (forall2_znth VX 0) in FA as [LA' FA]. apply (forall2_znth VX 0) in FB as [LB' FB].
      apply (forall2_znth VX 0). rewrite zlen_map, !zlen_zipwith by lia. split; [lia|]. intros j Hj.
      rewrite (znth_map _ 0) by (rewrite zlen_zipwith; lia). rewrite (znth_zipwith _ VX VX) by lia.
      rewrite (znth_zipwith _ 0 0) by lia. cbn [v_binary].
      destruct (FA j ltac:(lia)) as [A32 A], (FB j ltac:(lia)) as [B32 B].
      split; [apply vclip_int32; [exact HW|apply wrap32_int32]|]. now apply shows_add.
    + apply andb_prop in H as [HD H1].
      apply crel_vfu; try assumption; [discriminate|rewrite zlen_map; now apply LEN|].
      intros a [b|] LA FA FB; [contradiction|].
      exists (map (v_unary (k_vfu c) Vrelu) a). split; [reflexivity|].
      apply (forall2_znth VX 0) in FA as [LA' FA]. apply (forall2_znth VX 0). rewrite !zlen_map. split; [lia|].
      intros j Hj. rewrite (znth_map _ VX) by lia. rewrite (znth_map _ 0) by (rewrite zlen_map; lia). rewrite (znth_map _ 0) by lia.
      cbn [v_unary]. destruct (FA j ltac:(lia)) as [A32 A].
      split; [apply vclip_int32; [exact HW|unfold int32 in *; lia]|]. now apply shows_relu.
Qed.

Lemma crel_store i k r K d a s w v : crel i k r K -> reg_address g r d = Some a -> sreadable g s (w * v) = true -> 0 <= w -> 0 <= v ->
  exists z K', store_request c K d s w v = (Ok (a, z), K') /\ Forall2 is (block r s (w * v)) z /\ crel i k r K'.
Proof.
  intros R HA HS Hw Hv. destruct (crel_address i k r K d a R HA) as (K1 & _ & (x & E) & R1).
  destruct (crel_read i k r K1 s (w * v) R1 HS) as (z & K2 & E2 & F & R2).
  exists z, K2. split; [|split; assumption]. unfold store_request. rewrite E, E2.
  now replace ((w <? 0) || (v <? 0)) with false by lia.
Qed.
End Core.
