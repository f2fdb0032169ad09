(** The real machine on two sets of data. *)
From Verif Require Import PyBase PyLemmas ConfigModel MemoryModel MemorySpec MemoryProofs VfuModel FloatModel MvmuModel MvmuSpec MvmuLists MvmuLoad MvmuRun MvmuProofs MvmuCount
  CoreModel CoreSpec CoreProofs CoreUse CoreInstr DramModel RouterModel SystemModel SystemSpec SymCore DesModel DesSpec DesShape DesDoneSpec DesDataSpec.
From Coq Require Import ZifyBool ZifyNat.
Open Scope Z_scope.

Lemma nth_of_map {A B} (f : A -> B) (l l' : list A) n x : map f l = map f l' -> nth_error l n = Some x -> exists y, nth_error l' n = Some y /\ f x = f y.
Proof.
  intros H E. assert (Q : nth_error (map f l') n = Some (f x)) by (rewrite <- H, nth_error_map, E; reflexivity).
  rewrite nth_error_map in Q. destruct (nth_error l' n) as [y|]; [|discriminate]. exists y. split; [reflexivity|]. cbn in Q. congruence.
Qed.
Lemma none_of_map {A B} (f : A -> B) (l l' : list A) n : map f l = map f l' -> nth_error l n = None -> nth_error l' n = None.
Proof. intros H. rewrite !nth_error_None. assert (length (map f l) = length (map f l')) by now rewrite H. rewrite !map_length in H0. lia. Qed.
Lemma map_upd {A B} (f : A -> B) l n x : map f (upd l n x) = upd (map f l) n (f x).
Proof. revert n; induction l as [|a l IH]; intros [|n]; cbn [upd map]; auto. now rewrite IH. Qed.

Section Data.
Context (cfg : list bitcfg) (ww : Z) (c : core_cfg) (OK : core_ok cfg ww c).
Notation reached := (core_reached c).

Lemma size_cache k : reached k -> msize (co_cache k) = k_cache c /\ zlen (cells (co_cache k)) = k_cache c.
Proof.
  intros R. destruct (cache_wf cfg ww c OK k (reached_inv _ _ R)) as [[H0 W] S]. split; [exact S|congruence].
Qed.
Lemma size_unit k i u : reached k -> nth_error (co_mvmus k) i = Some u -> in_size (mv_in u) = c_size (k_mv c) /\ out_size (mv_out u) = c_size (k_mv c).
Proof. intros R E. pose proof (unit_shaped cfg ww c OK k i u (reached_inv _ _ R) E) as S. split; apply S. Qed.

Lemma activity_unit k k' i u u' : same_activity k k' -> unit_counts u = unit_counts u' -> same_activity (set_mvmu k i u) (set_mvmu k' i u').
Proof. intros [A B C] H. constructor; cbn; auto. now rewrite !map_upd, C, H. Qed.
Lemma activity_cache k k' m m' : same_activity k k' -> mstat m = mstat m' -> same_activity (set_cache k m) (set_cache k' m').
Proof. intros [A B C] H. now constructor. Qed.
Lemma activity_vfu k k' v : same_activity k k' -> same_activity (set_vfu k v) (set_vfu k' v).
Proof. intros [A B C]. now constructor. Qed.

(** What is known of the cache. *)
Definition holds (m : known_regs) (k : core) : Prop :=
  forall a z, m a = Some z -> cache_start c <= a < total_registers c -> znth 0 (cells (co_cache k)) (a - cache_start c) = z.
Lemma holds_nothing k : holds nothing k.
Proof. intros a z H. discriminate. Qed.

(** *** Reading *)
Lemma read_both k k' s l v x : reached k -> reached k' -> same_activity k k' -> read_from_register c k s l = (Ok v, x) ->
  exists v' x', read_from_register c k' s l = (Ok v', x') /\ alike v v' /\ zlen v = Z.max 0 l /\ same_activity x x'.
Proof.
  intros R R' A. destruct (size_cache k R) as [S L], (size_cache k' R') as [S' L']. unfold read_from_register.
  destruct ((s <? 0) || _) eqn:E1; [discriminate|]. destruct (s <? outreg_start c); [discriminate|]. destruct (cache_start c <=? s) eqn:E3.
  - unfold mem_read. rewrite S, S'. destruct ((s - cache_start c <? 0) || _) eqn:E4; [discriminate|]. destruct (l <=? 0) eqn:E5; [discriminate|].
    intros [= <- <-]. eexists _, _. split; [reflexivity|]. split; [|split].
    + unfold alike. rewrite !length_block; unfold zlen in *; lia.
    + rewrite zlen_block; lia.
    + apply activity_cache; [exact A|]. cbn [mstat]. now rewrite (sac_cache _ _ A).
  - destruct (mvmu_id_of c s (s + l)) as [i|]; [|discriminate]. destruct (nth_error (co_mvmus k) (Z.to_nat i)) as [u|] eqn:U; [|discriminate].
    destruct (nth_of_map _ _ _ _ _ (sac_units _ _ A) U) as (u' & U' & HU). rewrite U'. destruct (size_unit _ _ _ R U) as [_ SO], (size_unit _ _ _ R' U') as [_ SO'].
    unfold read_from_outreg, outreg_read. rewrite SO, SO'. destruct (bad_index _ _); [discriminate|]. intros [= <- <-]. eexists _, _. split; [reflexivity|]. split; [|split].
    + unfold alike. now rewrite !map_length.
    + unfold zlen. rewrite !map_length, length_zrange. lia.
    + apply activity_unit; [exact A|]. unfold unit_counts in *. cbn [mv_in mv_out mv_stat out_stat]. congruence.
Qed.
Lemma read_keeps k s l v x : read_from_register c k s l = (Ok v, x) -> cells (co_cache x) = cells (co_cache k).
Proof.
  unfold read_from_register. destruct ((s <? 0) || _); [discriminate|]. destruct (s <? outreg_start c); [discriminate|]. destruct (cache_start c <=? s).
  - unfold mem_read. destruct ((s - cache_start c <? 0) || _); [discriminate|]. destruct (l <=? 0); [discriminate|]. now intros [= _ <-].
  - destruct (mvmu_id_of c s (s + l)) as [i|]; [|discriminate]. destruct (nth_error (co_mvmus k) (Z.to_nat i)) as [u|]; [|discriminate].
    destruct (read_from_outreg _ u _ _) as [r u']. now intros [= _ <-].
Qed.
Lemma read_reached k s l v x : reached k -> read_from_register c k s l = (Ok v, x) -> reached x.
Proof. intros R E. pose proof (reached_snoc c k (KRead s l) R) as Q. cbn [core_step] in Q. now rewrite E in Q. Qed.
Lemma holds_same m k x : cells (co_cache x) = cells (co_cache k) -> holds m k -> holds m x.
Proof. intros E H a z. rewrite E. apply H. Qed.
(** An address is read from a known register. *)
Lemma read_known m k s v x : reached k -> holds m k -> is_fixed c m s = true -> read_from_register c k s 1 = (Ok v, x) -> exists z, m s = Some z /\ v = [z].
Proof.
  intros R H F. destruct (size_cache k R) as [S L]. unfold is_fixed in F. apply andb_prop in F as [F1 F2]. destruct (m s) as [z|] eqn:M; [|discriminate].
  unfold read_from_register. rewrite F1. destruct ((s <? 0) || (total_registers c <? s + 1)) eqn:E1; [discriminate|]. destruct (s <? outreg_start c); [discriminate|].
  specialize (H s z M ltac:(lia)). unfold mem_read. destruct ((s - cache_start c <? 0) || _) eqn:E4; [discriminate|]. cbn [Z.leb Z.compare].
  intros [= <- _]. exists z. split; [reflexivity|]. assert (LB : zlen (block (cells (co_cache k)) (s - cache_start c) 1) = 1) by (apply zlen_block; lia).
  assert (ZB : znth 0 (block (cells (co_cache k)) (s - cache_start c) 1) 0 = z) by (rewrite znth_block by lia; now rewrite Z.add_0_r).
  destruct (block (cells (co_cache k)) (s - cache_start c) 1) as [|b [|b' l]]; unfold zlen in LB; cbn [length] in LB; try lia. cbn in ZB. now rewrite ZB.
Qed.

(** *** Writing *)
Lemma write_both k k' s d d' x : reached k -> reached k' -> same_activity k k' -> alike d d' -> write_to_register c k s d = (Ok tt, x) ->
  exists x', write_to_register c k' s d' = (Ok tt, x') /\ same_activity x x'.
Proof.
  intros R R' A HD. assert (LD : zlen d = zlen d') by (unfold zlen; now rewrite HD). destruct (size_cache k R) as [S L], (size_cache k' R') as [S' L'].
  unfold write_to_register. rewrite LD. destruct ((s <? 0) || _); [discriminate|]. destruct (overlaps_output _ _ _); [discriminate|]. destruct (cache_start c <=? s).
  - unfold mem_write. rewrite S, S', LD. destruct ((s - cache_start c <? 0) || _); [discriminate|]. intros [= <-]. eexists. split; [reflexivity|].
    apply activity_cache; [exact A|]. cbn [mstat]. now rewrite (sac_cache _ _ A).
  - destruct (mvmu_id_of c s (s + zlen d')) as [i|]; [|discriminate]. destruct (nth_error (co_mvmus k) (Z.to_nat i)) as [u|] eqn:U; [|discriminate].
    destruct (nth_of_map _ _ _ _ _ (sac_units _ _ A) U) as (u' & U' & HU). rewrite U'. destruct (size_unit _ _ _ R U) as [SI _], (size_unit _ _ _ R' U') as [SI' _].
    unfold write_to_inreg, inreg_write. rewrite SI, SI', LD. destruct ((s mod _ <? 0) || _); [discriminate|]. intros [= <-]. eexists. split; [reflexivity|].
    apply activity_unit; [exact A|]. unfold unit_counts in *. cbn [mv_in mv_out mv_stat in_stat]. congruence.
Qed.
Lemma write_reached k s d x : reached k -> write_to_register c k s d = (Ok tt, x) -> reached x.
Proof. intros R E. pose proof (reached_snoc c k (KWrite s d) R) as Q. cbn [core_step] in Q. now rewrite E in Q. Qed.
Lemma write_cells_at k s d x a : reached k -> write_to_register c k s d = (Ok tt, x) -> cache_start c <= a < total_registers c ->
  znth 0 (cells (co_cache x)) (a - cache_start c) = if between s (zlen d) a then wrap32 (znth 0 d (a - s)) else znth 0 (cells (co_cache k)) (a - cache_start c).
Proof.
  intros R. destruct (size_cache k R) as [S L]. unfold write_to_register, overlaps_output, total_registers, between in *. pose proof (zlen_nonneg d) as LN.
  pose proof (n_pos cfg ww c OK) as NP. pose proof (m_pos cfg ww c OK) as MP. assert (OP : 0 < outreg_start c) by (unfold outreg_start; nia).
  assert (CP : cache_start c = outreg_start c * 2) by reflexivity.
  destruct ((s <? 0) || _) eqn:E1; [discriminate|]. destruct (_ || (_ <=? _) && (_ <=? _)) eqn:E2; [discriminate|]. destruct (cache_start c <=? s) eqn:E3.
  - unfold mem_write. rewrite S. destruct ((s - cache_start c <? 0) || _) eqn:E4; [discriminate|]. intros [= <-] HA. cbn [co_cache set_cache cells].
    rewrite znth_blit; [|lia|rewrite zlen_map; lia|lia]. rewrite zlen_map.
    replace ((s - cache_start c <=? a - cache_start c) && (a - cache_start c <? s - cache_start c + zlen d)) with ((s <=? a) && (a <? s + zlen d)) by lia.
    destruct ((s <=? a) && (a <? s + zlen d)); [|reflexivity]. rewrite znth_map_wrap. f_equal. f_equal. lia.
  - destruct (mvmu_id_of c s (s + zlen d)) as [i|]; [|discriminate]. destruct (nth_error (co_mvmus k) (Z.to_nat i)) as [u|]; [|discriminate].
    destruct (write_to_inreg u _ d) as [r u']. intros [= _ <-] HA. replace ((s <=? a) && (a <? s + zlen d)) with false by lia. reflexivity.
Qed.
Lemma holds_hidden m k s d x n : reached k -> holds m k -> write_to_register c k s d = (Ok tt, x) -> zlen d = Z.max 0 n -> holds (put_known m s n None) x.
Proof.
  intros R H E LD a z HM HA. unfold put_known in HM. destruct (between s n a) eqn:B; [discriminate|]. rewrite (write_cells_at k s d x a R E HA).
  unfold between in *. replace ((s <=? a) && (a <? s + zlen d)) with false by lia. now apply H.
Qed.
Lemma holds_set m k s imm n x : reached k -> holds m k -> write_to_register c k s (repeat imm (Z.to_nat n)) = (Ok tt, x) -> 0 <= n ->
  holds (put_known m s n (Some (wrap32 imm))) x.
Proof.
  intros R H E N a z HM HA. rewrite (write_cells_at k s _ x a R E HA). rewrite zlen_repeat by exact N. unfold put_known in HM. destruct (between s n a) eqn:B; [|now apply H].
  injection HM as <-. unfold between in B. f_equal. unfold znth. apply nth_repeat_lt. lia.
Qed.


(** *** Matrix units *)
Lemma mvm_unit k k' i j u u' : reached k -> reached k' -> nth_error (co_mvmus k) i = Some u -> nth_error (co_mvmus k') j = Some u' -> unit_counts u = unit_counts u' ->
  unit_counts (execute_mvm (k_mv c) u) = unit_counts (execute_mvm (k_mv c) u').
Proof.
  intros R R' U U' H. pose proof (core_ok_mv _ _ _ OK) as OM.
  pose proof (reached_inv _ _ R) as IV. pose proof (reached_inv _ _ R') as IV'.
  assert (RU : MvmuSpec.reached (k_mv c) u) by (apply (proj1 (Forall_forall _ _) (ki_units _ _ IV)); exact (nth_error_In _ _ U)).
  assert (RU' : MvmuSpec.reached (k_mv c) u') by (apply (proj1 (Forall_forall _ _) (ki_units _ _ IV')); exact (nth_error_In _ _ U')).
  pose proof (mvm_counters cfg ww (k_mv c) u OM RU) as Q. pose proof (mvm_counters cfg ww (k_mv c) u' OM RU') as Q'. cbv zeta in Q, Q'.
  destruct Q as (A1 & A2 & A3 & A4 & A5 & A6 & A7 & A8 & A9 & A10 & A11 & A12 & (I1 & I2 & I3 & I4 & I5 & I6) & (O1 & O2 & O3 & O4 & O5 & O6)).
  destruct Q' as (B1 & B2 & B3 & B4 & B5 & B6 & B7 & B8 & B9 & B10 & B11 & B12 & (J1 & J2 & J3 & J4 & J5 & J6) & (P1 & P2 & P3 & P4 & P5 & P6)).
  unfold unit_counts in *. injection H as HI HO H1 H2 H3 H4 H5 H6 H7 H8 H9 H10 H11 H12. rewrite HI in *. rewrite HO in *.
  assert (MS : forall a b : mstats, read_operations a = read_operations b -> read_cells a = read_cells b -> write_operations a = write_operations b ->
    write_cells a = write_cells b -> total_operations a = total_operations b -> total_operated_cells a = total_operated_cells b -> a = b) by (intros [] []; cbn; congruence).
  f_equal; [f_equal; apply MS; congruence|].
  rewrite A1, A2, A3, A4, A5, A6, A7, A8, A9, A10, A11, A12, B1, B2, B3, B4, B5, B6, B7, B8, B9, B10, B11, B12. congruence.
Qed.
Lemma mvm_both xs : forall k k' x, reached k -> reached k' -> same_activity k k' -> exec_mvm c k xs = (Ok tt, x) ->
  exists x', exec_mvm c k' xs = (Ok tt, x') /\ same_activity x x'.
Proof.
  induction xs as [|i xs IH]; intros k k' x R R' A E; cbn [exec_mvm] in *; [injection E as <-; eauto|].
  destruct (get_mvmu k i) as [u|] eqn:G; [|discriminate]. pose proof G as G0. apply get_mvmu_ok in G as (G1 & G3).
  destruct (nth_of_map _ _ _ _ _ (sac_units _ _ A) G3) as (u' & U' & HU).
  assert (G' : get_mvmu k' i = Ok u').
  { apply get_mvmu_ok. split; [|exact U']. assert (L : length (map unit_counts (co_mvmus k)) = length (map unit_counts (co_mvmus k'))) by now rewrite (sac_units _ _ A).
    rewrite !map_length in L. unfold zlen in *. lia. }
  rewrite G'. apply (IH _ _ _) with (4 := E).
  - pose proof (reached_snoc c k (KMvm [i]) R) as Q. cbn [core_step exec_mvm] in Q. rewrite G0 in Q. exact Q.
  - pose proof (reached_snoc c k' (KMvm [i]) R') as Q. cbn [core_step exec_mvm] in Q. rewrite G' in Q. exact Q.
  - apply activity_unit; [exact A|]. exact (mvm_unit _ _ _ _ _ _ R R' G3 U' HU).
Qed.
Lemma mvm_keeps xs : forall k x, exec_mvm c k xs = (Ok tt, x) -> co_cache x = co_cache k.
Proof.
  induction xs as [|i xs IH]; intros k x E; cbn [exec_mvm] in E; [now injection E as <-|]. destruct (get_mvmu k i); [|discriminate]. exact (IH _ _ E).
Qed.

(** *** Vector unit *)
Lemma handle_both op a b a' b' r : alike a a' -> opt_alike alike b b' -> (forall l, b = Some l -> zlen l = zlen a) -> v_handle (k_vfu c) op a b = Ok r ->
  zlen r = zlen a /\ ((exists r', v_handle (k_vfu c) op a' b' = Ok r' /\ alike r r') \/ (op = Vdiv /\ v_handle (k_vfu c) op a' b' = Raise ZeroDivisionError)).
Proof.
  intros HA HB LB. unfold v_handle. destruct (is_unary op).
  { intros [= <-]. split; [apply zlen_map|]. left. eexists. split; [reflexivity|]. unfold alike in *. now rewrite !map_length. }
  destruct HB as [l l' HL|]; [|discriminate]. specialize (LB l eq_refl).
  assert (Q : forall f g r, broadcast2 f a l = Ok r -> zlen r = zlen a /\ exists r', broadcast2 g a' l' = Ok r' /\ alike r r').
  { intros f g q. unfold broadcast2. assert (E1 : zlen a' = zlen a) by (unfold zlen; now rewrite HA). assert (E2 : zlen l' = zlen l) by (unfold zlen; now rewrite HL).
    rewrite E1, E2, LB, Z.eqb_refl. intros [= <-]. split; [apply zlen_zipwith; now symmetry|]. eexists. split; [reflexivity|]. unfold alike.
    unfold zipwith. rewrite !map_length, !combine_length. unfold alike in *. lia. }
  destruct op; try (match goal with |- context [broadcast2 ?g a' l'] => intros E; destruct (Q _ g _ E) as [Z0 Q']; split; [exact Z0|now left] end).
  destruct (existsb (fun x => x =? 0) l); [discriminate|]. intros E. destruct (Q _ (v_binary (k_vfu c) Vdiv) _ E) as [Z0 Q']. split; [exact Z0|].
  destruct (existsb (fun x => x =? 0) l'); [now right|now left].
Qed.

(** *** Instructions *)
Definition tracked (D : Prop) (k k' : core) (l : list cop) : Prop :=
  exists m, reached k /\ reached k' /\ same_activity k k' /\ holds m k /\ holds m k' /\ fixed_addresses c m l = true /\ forall o, In o l -> is_div o = true -> D.
Definition div_error (D : Prop) (e : exn) : Prop := e = ZeroDivisionError /\ D.

Lemma local_both (D : Prop) m k k' o x : reached k -> reached k' -> same_activity k k' -> holds m k -> holds m k' -> (is_div o = true -> D) -> is_memory_op o = false -> exec_local c k o = (Ok tt, x) ->
  (exists x', exec_local c k' o = (Ok tt, x') /\ reached x /\ reached x' /\ same_activity x x' /\ holds (learn o m) x /\ holds (learn o m) x') \/
  (exists x', exec_local c k' o = (Raise ZeroDivisionError, x') /\ D).
Proof.
  intros R R' A H H' HD NM E. pose proof (exec_reached c k o R) as RX. pose proof (exec_reached c k' o R') as RX'. rewrite E in RX. cbn [snd] in RX.
  destruct o as [| |dest imm vec|dest read vec|xs|op dest r1 r2 vec|]; try discriminate; cbn [exec_local learn] in *.
  - left. unfold exec_set in *. destruct (vec <? 0) eqn:V; [discriminate|]. destruct (write_both k k' dest _ _ x R R' A (eq_refl (length (repeat imm (Z.to_nat vec)))) E) as (x' & E' & A').
    rewrite E' in RX' |- *. exists x'. split; [reflexivity|]. split; [exact RX|]. split; [exact RX'|]. split; [exact A'|]. split; [exact (holds_set _ _ _ _ _ _ R H E ltac:(lia))|exact (holds_set _ _ _ _ _ _ R' H' E' ltac:(lia))].
  - left. unfold exec_copy in *. destruct (read_from_register c k read vec) as [[v|] k1] eqn:E1; [|discriminate].
    destruct (read_both _ _ _ _ _ _ R R' A E1) as (v' & k1' & E1' & HV & LV & A1). rewrite E1' in *.
    pose proof (read_reached _ _ _ _ _ R E1) as R1. pose proof (read_reached _ _ _ _ _ R' E1') as R1'.
    destruct (write_both k1 k1' dest v v' x R1 R1' A1 HV E) as (x' & E' & A'). rewrite E' in RX' |- *. exists x'. split; [reflexivity|]. split; [exact RX|]. split; [exact RX'|]. split; [exact A'|].
    split; [exact (holds_hidden _ _ _ _ _ vec R1 (holds_same _ _ _ (read_keeps _ _ _ _ _ E1) H) E LV)|].
    refine (holds_hidden _ _ _ _ _ vec R1' (holds_same _ _ _ (read_keeps _ _ _ _ _ E1') H') E' _). unfold zlen in *. now rewrite <- HV.
  - left. destruct (mvm_both xs _ _ _ R R' A E) as (x' & E' & A'). rewrite E' in RX' |- *. exists x'. split; [reflexivity|]. split; [exact RX|]. split; [exact RX'|]. split; [exact A'|].
    split; [apply (holds_same m k); [now rewrite (mvm_keeps _ _ _ E)|exact H]|apply (holds_same m k'); [now rewrite (mvm_keeps _ _ _ E')|exact H']].
  - unfold exec_vfu in *. destruct (read_from_register c k r1 vec) as [[a|] k1] eqn:E1; [|discriminate].
    destruct (read_both _ _ _ _ _ _ R R' A E1) as (a' & k1' & E1' & HA & LA & A1). rewrite E1' in *.
    pose proof (read_reached _ _ _ _ _ R E1) as R1. pose proof (read_reached _ _ _ _ _ R' E1') as R1'.
    pose proof (holds_same m _ _ (read_keeps _ _ _ _ _ E1) H) as H1. pose proof (holds_same m _ _ (read_keeps _ _ _ _ _ E1') H') as H1'.
    assert (CALC : forall b b' k2 k2', reached k2 -> reached k2' -> same_activity k2 k2' -> holds m k2 -> holds m k2' -> opt_alike alike b b' -> (forall l, b = Some l -> zlen l = zlen a) ->
      match vfu_calculate (k_vfu c) (co_vfu k2) op a b with (Ok r, s) => write_to_register c (set_vfu k2 s) dest r | (Raise e, s) => (Raise e, set_vfu k2 s) end = (Ok tt, x) ->
      (exists x', match vfu_calculate (k_vfu c) (co_vfu k2') op a' b' with (Ok r, s) => write_to_register c (set_vfu k2' s) dest r | (Raise e, s) => (Raise e, set_vfu k2' s) end = (Ok tt, x') /\
         same_activity x x' /\ holds (put_known m dest vec None) x /\ holds (put_known m dest vec None) x') \/
      (exists x', match vfu_calculate (k_vfu c) (co_vfu k2') op a' b' with (Ok r, s) => write_to_register c (set_vfu k2' s) dest r | (Raise e, s) => (Raise e, set_vfu k2' s) end = (Raise ZeroDivisionError, x') /\ D)).
    { intros b b' k2 k2' R2 R2' A2 H2 H2' HB LB W. pose proof (vfu_reached c k2 op a b R2) as V2. pose proof (vfu_reached c k2' op a' b' R2') as V2'. unfold vfu_calculate in *.
      destruct (v_handle (k_vfu c) op a b) as [r|] eqn:EH; [|discriminate]. destruct (handle_both op a b a' b' r HA HB LB EH) as [LR [(r' & EH' & HR)|[-> EH']]]; rewrite EH' in *; cbn [snd] in *; [left|right].
      - assert (EZ : zlen a' = zlen a) by (unfold zlen; now rewrite HA). rewrite EZ in *. rewrite (sac_vfu _ _ A2) in *.
        assert (HC : alike (map (clipZ (v_min_value (k_vfu c)) (v_max_value (k_vfu c))) r) (map (clipZ (v_min_value (k_vfu c)) (v_max_value (k_vfu c))) r')) by (unfold alike in *; now rewrite !map_length).
        destruct (write_both _ _ dest _ _ x V2 V2' (activity_vfu _ _ _ A2) HC W) as (x' & W' & A'). exists x'. split; [exact W'|]. split; [exact A'|].
        assert (LZ : zlen (map (clipZ (v_min_value (k_vfu c)) (v_max_value (k_vfu c))) r) = Z.max 0 vec) by (rewrite zlen_map; congruence).
        split; [exact (holds_hidden _ _ _ _ _ vec V2 (holds_same m k2 _ eq_refl H2) W LZ)|]. refine (holds_hidden _ _ _ _ _ vec V2' (holds_same m k2' _ eq_refl H2') W' _).
        unfold zlen in *. now rewrite <- HC.
      - eexists. split; [reflexivity|]. now apply HD. }
    destruct r2 as [r2|].
    + destruct (read_from_register c k1 r2 vec) as [[b|] k2] eqn:E2; [|discriminate].
      destruct (read_both _ _ _ _ _ _ R1 R1' A1 E2) as (b' & k2' & E2' & HB & LB & A2). rewrite E2' in *.
      destruct (CALC (Some b) (Some b') k2 k2' (read_reached _ _ _ _ _ R1 E2) (read_reached _ _ _ _ _ R1' E2') A2
        (holds_same m _ _ (read_keeps _ _ _ _ _ E2) H1) (holds_same m _ _ (read_keeps _ _ _ _ _ E2') H1') ltac:(now constructor) ltac:(intros l [= <-]; congruence) E) as [(x' & W & A' & Q & Q')|(x' & W & Q)]; [left|right; eauto].
      rewrite W in RX' |- *. exists x'. now repeat (split; [first [reflexivity|assumption]|]).
    + destruct (CALC None None k1 k1' R1 R1' A1 H1 H1' ltac:(constructor) ltac:(discriminate) E) as [(x' & W & A' & Q & Q')|(x' & W & Q)]; [left|right; eauto].
      rewrite W in RX' |- *. exists x'. now repeat (split; [first [reflexivity|assumption]|]).
  - left. injection E as <-. exists k'. now repeat (split; [first [reflexivity|assumption]|]).
Qed.
End Data.
