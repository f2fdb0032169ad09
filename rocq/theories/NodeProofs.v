(** Proofs about reset and a second run. *)
From Verif Require Import PyBase PyLemmas ConfigModel MemoryModel VfuModel FloatModel MvmuModel CoreModel DramModel DramSpec DramProofs RouterModel RouterSpec
  SystemModel SystemSpec SystemBase SystemInv SystemClaims NodeModel NodeSpec.
From Coq Require Import ZifyBool ZifyNat FunctionalExtensionality.

(** ** Execution does not look at the SRAM counters *)
Notation hs := stats_without_sram. Notation hu := unit_without_sram. Notation hk := core_without_sram. Notation hp := proc_without_sram.

Lemma upd_map {A B} (f : A -> B) l n x : upd (map f l) n (f x) = map f (upd l n x).
Proof. revert n. induction l as [|y l IH]; intros [|n]; cbn; auto. now rewrite IH. Qed.

Lemma fold_rel {A B} (R : A -> A -> Prop) (f : A -> B -> A) l : (forall a a' b, R a a' -> R (f a b) (f a' b)) ->
  forall a a', R a a' -> R (fold_left f l a) (fold_left f l a').
Proof. intros H. induction l as [|b l IH]; cbn; auto. Qed.

Lemma hs_eq st st' : hs st = hs st' <->
  dac_conversions st = dac_conversions st' /\ dac_active_cycles st = dac_active_cycles st' /\ rram_mvm_operations st = rram_mvm_operations st' /\
  snh_pos_samples st = snh_pos_samples st' /\ snh_neg_samples st = snh_neg_samples st' /\ mux_pos_selections st = mux_pos_selections st' /\
  mux_neg_selections st = mux_neg_selections st' /\ adc_conversions st = adc_conversions st' /\ adc_overflow_times st = adc_overflow_times st' /\
  adc_active_cycles st = adc_active_cycles st' /\ sna_operations st = sna_operations st'.
Proof. unfold hs. split; [intros [= ]; tauto|]. intros (-> & -> & -> & -> & -> & -> & -> & -> & -> & -> & ->). reflexivity. Qed.

Lemma hs_slice c st st' : hs st = hs st' -> hs (count_slice c st) = hs (count_slice c st').
Proof. rewrite !hs_eq. unfold count_slice. cbn. intros (-> & -> & -> & -> & -> & -> & -> & -> & -> & -> & ->). tauto. Qed.
Lemma hs_column c st st' : hs st = hs st' -> hs (count_column c st) = hs (count_column c st').
Proof. rewrite !hs_eq. unfold count_column. cbn. intros (-> & -> & -> & -> & -> & -> & -> & -> & -> & -> & ->). tauto. Qed.
Lemma hs_adc c steps pos neg st st' : hs st = hs st' ->
  fst (adc_convert c steps pos neg st) = fst (adc_convert c steps pos neg st') /\ hs (snd (adc_convert c steps pos neg st)) = hs (snd (adc_convert c steps pos neg st')).
Proof. rewrite !hs_eq. unfold adc_convert. cbn [fst snd]. intros (E1 & E2 & E3 & E4 & E5 & E6 & E7 & E8 & E9 & E10 & E11). cbn. rewrite E1, E2, E3, E4, E5, E6, E7, E8, E9, E10, E11. tauto. Qed.

Lemma mvm_column_hu c i xp xn so a a' j : fst a = fst a' /\ hs (snd a) = hs (snd a') ->
  fst (mvm_column c i xp xn so a j) = fst (mvm_column c i xp xn so a' j) /\ hs (snd (mvm_column c i xp xn so a j)) = hs (snd (mvm_column c i xp xn so a' j)).
Proof.
  destruct a as (o & st), a' as (o' & st'). cbn [fst snd]. intros (<- & E). unfold mvm_column.
  destruct (have_rram (c_storage c)).
  - destruct (hs_adc c (map (adc_step c) (rram_bits (c_storage c))) (mux_select c f0 xp j) (mux_select c f0 xn j) _ _ E) as (A1 & A2).
    destruct (adc_convert _ _ _ _ st) as (x1 & s1), (adc_convert _ _ _ _ st') as (x2 & s2). cbn [fst snd] in *. subst x2.
    destruct (outreg_read o (adc_mask c j)) as ([cur|e] & o1); cbn [fst snd]; auto using hs_column.
  - destruct (outreg_read o (adc_mask c j)) as ([cur|e] & o1); cbn [fst snd]; auto using hs_column.
Qed.
Lemma mvm_slice_hu c u u' i : hu u = hu u' -> hu (mvm_slice c u i) = hu (mvm_slice c u' i).
Proof.
  intros E. pose proof (f_equal mv_stat E) as HS. pose proof (f_equal mv_in E) as E1. pose proof (f_equal mv_out E) as E2. pose proof (f_equal rram_pos E) as E3.
  pose proof (f_equal rram_neg E) as E4. pose proof (f_equal sram_pos E) as E5. pose proof (f_equal sram_neg E) as E6. clear E.
  destruct u as [a1 a2 a3 a4 a5 a6 st], u' as [b1 b2 b3 b4 b5 b6 st']. cbn [mv_in mv_out rram_pos rram_neg sram_pos sram_neg mv_stat unit_without_sram] in *. subst a1 a2 a3 a4 a5 a6.
  unfold mvm_slice. cbn [mv_in mv_out rram_pos rram_neg sram_pos sram_neg mv_stat].
  destruct (inreg_read b1 (c_dac_res c)) as (d & in1).
  match goal with |- context [fold_left ?f ?l (b2, count_slice c st)] =>
    pose proof (fold_rel (fun a a' => fst a = fst a' /\ hs (snd a) = hs (snd a')) f l (fun a a' j => mvm_column_hu c i _ _ _ a a' j)
      (b2, count_slice c st) (b2, count_slice c st') (conj eq_refl (hs_slice c _ _ HS))) as F;
    destruct (fold_left f l (b2, count_slice c st)) as (o & s1), (fold_left f l (b2, count_slice c st')) as (o' & s2) end.
  cbn [fst snd] in F. destruct F as (-> & F). unfold hu. cbn [mv_in mv_out rram_pos rram_neg sram_pos sram_neg mv_stat]. now rewrite F.
Qed.
Lemma execute_mvm_hu c u u' : hu u = hu u' -> hu (execute_mvm c u) = hu (execute_mvm c u').
Proof.
  intros E. unfold execute_mvm. apply (fold_rel (fun a b => hu a = hu b) (mvm_slice c)); [intros; now apply mvm_slice_hu|].
  pose proof (f_equal mv_stat E) as HS. pose proof (f_equal mv_in E) as E1. pose proof (f_equal mv_out E) as E2. pose proof (f_equal rram_pos E) as E3.
  pose proof (f_equal rram_neg E) as E4. pose proof (f_equal sram_pos E) as E5. pose proof (f_equal sram_neg E) as E6. clear E.
  destruct u as [a1 a2 a3 a4 a5 a6 st], u' as [b1 b2 b3 b4 b5 b6 st']. cbn [mv_in mv_out rram_pos rram_neg sram_pos sram_neg mv_stat unit_without_sram] in *. subst a1 a2 a3 a4 a5 a6.
  unfold unit_without_sram. cbn [mv_in mv_out rram_pos rram_neg sram_pos sram_neg mv_stat]. now rewrite HS.
Qed.

Lemma hk_set_cache k m : hk (set_cache k m) = set_cache (hk k) m. Proof. reflexivity. Qed.
Lemma hk_set_vfu k m : hk (set_vfu k m) = set_vfu (hk k) m. Proof. reflexivity. Qed.
Lemma hk_set_mvmu k i u : hk (set_mvmu k i u) = set_mvmu (hk k) i (hu u).
Proof. unfold hk, set_mvmu. cbn. now rewrite upd_map. Qed.
Lemma nth_hk k i : nth_error (co_mvmus (hk k)) i = option_map hu (nth_error (co_mvmus k) i).
Proof. apply nth_error_map. Qed.

Definition keeps {A} (f : core -> res A * core) : Prop := forall k, f (hk k) = (fst (f k), hk (snd (f k))).

Lemma read_hk c s l : keeps (fun k => read_from_register c k s l).
Proof.
  intros k. unfold read_from_register. destruct (_ || _); [reflexivity|]. destruct (s <? _); [reflexivity|]. destruct (_ <=? s).
  - cbn [co_cache hk]. destruct (mem_read _ _ _ _). reflexivity.
  - destruct (mvmu_id_of c s (s + l)) as [i|e]; [|reflexivity]. rewrite nth_hk. destruct (nth_error (co_mvmus k) (Z.to_nat i)) as [u|]; [|reflexivity]. cbn [option_map].
    unfold read_from_outreg. cbn [mv_out hu]. destruct (outreg_read _ _) as (r & o). cbn [fst snd]. rewrite hk_set_mvmu. reflexivity.
Qed.
Lemma write_hk c s d : keeps (fun k => write_to_register c k s d).
Proof.
  intros k. unfold write_to_register. destruct (_ || _); [reflexivity|]. destruct (overlaps_output _ _ _); [reflexivity|]. destruct (_ <=? s).
  - cbn [co_cache hk]. destruct (mem_write _ _ _ _). reflexivity.
  - destruct (mvmu_id_of c s (s + zlen d)) as [i|e]; [|reflexivity]. rewrite nth_hk. destruct (nth_error (co_mvmus k) (Z.to_nat i)) as [u|]; [|reflexivity]. cbn [option_map].
    unfold write_to_inreg. cbn [mv_in hu]. destruct (inreg_write _ _ _) as (r & o). cbn [fst snd]. rewrite hk_set_mvmu. reflexivity.
Qed.
Lemma copy_hk c d r v : keeps (fun k => exec_copy c k d r v).
Proof.
  intros k. unfold exec_copy. rewrite (read_hk c r v k). destruct (read_from_register c k r v) as ([x|e] & k1); cbn [fst snd]; [|reflexivity]. apply (write_hk c d x k1).
Qed.
Lemma set_hk c d i v : keeps (fun k => exec_set c k d i v).
Proof. intros k. unfold exec_set. destruct (_ <? _); [reflexivity|]. apply write_hk. Qed.
Lemma calc_hk c op a b dest k2 :
  match vfu_calculate (k_vfu c) (co_vfu (hk k2)) op a b with (Raise e, s) => (Raise e, set_vfu (hk k2) s) | (Ok r, s) => write_to_register c (set_vfu (hk k2) s) dest r end =
  let x := match vfu_calculate (k_vfu c) (co_vfu k2) op a b with (Raise e, s) => (Raise e, set_vfu k2 s) | (Ok r, s) => write_to_register c (set_vfu k2 s) dest r end in
  (fst x, hk (snd x)).
Proof.
  cbv zeta. cbn [co_vfu hk]. destruct (vfu_calculate _ _ _ _ _) as ([r|e] & s); [|reflexivity]. rewrite <- hk_set_vfu. exact (write_hk c dest r (set_vfu k2 s)).
Qed.
Lemma vfu_hk c op d r1 r2 v : keeps (fun k => exec_vfu c k op d r1 r2 v).
Proof.
  intros k. unfold exec_vfu. rewrite (read_hk c r1 v k). destruct (read_from_register c k r1 v) as ([x|e] & k1); cbn [fst snd]; [|reflexivity].
  destruct r2 as [r2|].
  - rewrite (read_hk c r2 v k1). destruct (read_from_register c k1 r2 v) as ([y|e] & k2); cbn [fst snd]; [|reflexivity]. apply calc_hk.
  - apply calc_hk.
Qed.
Lemma mvm_hk c xs : forall k k', hk k = hk k' -> fst (exec_mvm c k xs) = fst (exec_mvm c k' xs) /\ hk (snd (exec_mvm c k xs)) = hk (snd (exec_mvm c k' xs)).
Proof.
  induction xs as [|i xs IH]; intros k k' E; cbn [exec_mvm]; [auto|].
  assert (G : match get_mvmu k i, get_mvmu k' i with Ok u, Ok u' => hu u = hu u' | Raise e, Raise e' => e = e' | _, _ => False end).
  { assert (L : map hu (co_mvmus k) = map hu (co_mvmus k')) by (unfold hk in E; congruence).
    unfold get_mvmu. replace (zlen (co_mvmus k')) with (zlen (co_mvmus k)) by (apply (f_equal (@length _)) in L; rewrite !map_length in L; unfold zlen; lia).
    destruct (_ || _); [auto|]. pose proof (f_equal (fun l => nth_error l (Z.to_nat i)) L) as N. cbv beta in N. rewrite !nth_error_map in N.
    destruct (nth_error (co_mvmus k) (Z.to_nat i)), (nth_error (co_mvmus k') (Z.to_nat i)); cbn in N; congruence. }
  destruct (get_mvmu k i) as [u|e], (get_mvmu k' i) as [u'|e']; cbn [fst snd]; try contradiction; [|subst; auto].
  apply IH. rewrite !hk_set_mvmu, E. f_equal. now apply execute_mvm_hu.
Qed.
Lemma local_hk c o k k' : hk k = hk k' -> fst (exec_local c k o) = fst (exec_local c k' o) /\ hk (snd (exec_local c k o)) = hk (snd (exec_local c k' o)).
Proof.
  assert (K : forall f : core -> res unit * core, keeps f -> hk k = hk k' -> fst (f k) = fst (f k') /\ hk (snd (f k)) = hk (snd (f k'))).
  { intros f KF E. pose proof (KF k) as A. pose proof (KF k') as B. rewrite E in A. rewrite A in B. split; [exact (f_equal fst B)|exact (f_equal snd B)]. }
  intros E. destruct o; cbn [exec_local]; auto.
  - apply (K (fun k => exec_set c k dest imm vec)); auto using set_hk.
  - apply (K (fun k => exec_copy c k dest read vec)); auto using copy_hk.
  - now apply mvm_hk.
  - apply (K (fun k => exec_vfu c k op dest read1 read2 vec)); auto using vfu_hk.
Qed.

(** ** Steps *)
Lemma dest_hp p p' : hp p = hp p' -> hk (cp_core p) = hk (cp_core p') /\ cp_prog p = cp_prog p' /\ cp_phase p = cp_phase p' /\ cp_writes p = cp_writes p'.
Proof.
  intros E. exact (conj (f_equal cp_core E) (conj (f_equal cp_prog E) (conj (f_equal cp_phase E) (f_equal cp_writes E)))).
Qed.
Lemma make_hp k k' l h w : hk k = hk k' -> hp (MkCProc k l h w) = hp (MkCProc k' l h w).
Proof. intros E. unfold hp. cbn. now rewrite E. Qed.

Definition same_go (x y : outcome (dram * cproc)) : Prop :=
  match x, y with
  | Blocked, Blocked => True
  | Crash e, Crash e' => e = e'
  | Go (d, p), Go (d', p') => d = d' /\ hp p = hp p'
  | _, _ => False
  end.
Lemma keeps_two {A} (f : core -> res A * core) k k' : keeps f -> hk k = hk k' -> fst (f k) = fst (f k') /\ hk (snd (f k)) = hk (snd (f k')).
Proof. intros KF E. pose proof (KF k) as X. pose proof (KF k') as Y. rewrite E, Y in X. split; [exact (f_equal fst (eq_sym X))|exact (f_equal snd (eq_sym X))]. Qed.

Lemma core_step_same c now i d p p' : hp p = hp p' -> same_go (core_step_sys c now i d p) (core_step_sys c now i d p').
Proof.
  intros E. apply dest_hp in E as (EK & EP & EH & EW). unfold core_step_sys. rewrite EP, EH, EW.
  destruct (cp_phase p') as [|id a|a rows|id|]; [| | | |exact I].
  - destruct (cp_prog p') as [|o rest]; [exact I|].
    assert (LOC : same_go
       (match exec_local (y_core c) (cp_core p) o with (Raise e, _) => Crash e | (Ok _, k1) => Go (d, MkCProc k1 rest PReady (cp_writes p')) end)
       (match exec_local (y_core c) (cp_core p') o with (Raise e, _) => Crash e | (Ok _, k1) => Go (d, MkCProc k1 rest PReady (cp_writes p')) end)).
    { destruct (local_hk (y_core c) o _ _ EK) as (A & B). destruct (exec_local (y_core c) (cp_core p) o) as (r & k1), (exec_local (y_core c) (cp_core p') o) as (r' & k1'). cbn [fst snd] in *. subst r'.
      destruct r; cbn; auto using make_hp. }
    destruct o as [dest read width vec|dest read width vec| | | | |]; try exact LOC.
    + clear LOC. unfold load_address.
      destruct (keeps_two (fun k => read_from_register (y_core c) k read 1) _ _ (read_hk _ _ _) EK) as (A & B).
      destruct (read_from_register (y_core c) (cp_core p) read 1) as (r & k1), (read_from_register (y_core c) (cp_core p') read 1) as (r' & k1'). cbn [fst snd] in *. subst r'.
      destruct r as [[|a0 l]|e]; cbn; auto. destruct (dc_submit now i a0 (RRead width vec) d) as ([q|e] & d'); cbn; auto using make_hp.
    + clear LOC. unfold store_request.
      destruct (keeps_two (fun k => read_from_register (y_core c) k dest 1) _ _ (read_hk _ _ _) EK) as (A & B).
      destruct (read_from_register (y_core c) (cp_core p) dest 1) as (r & k1), (read_from_register (y_core c) (cp_core p') dest 1) as (r' & k1'). cbn [fst snd] in *. subst r'.
      destruct r as [[|a0 l]|e]; cbn; auto.
      destruct (keeps_two (fun k => read_from_register (y_core c) k read (width * vec)) _ _ (read_hk _ _ _) B) as (A2 & B2).
      destruct (read_from_register (y_core c) k1 read (width * vec)) as (r & k2), (read_from_register (y_core c) k1' read (width * vec)) as (r' & k2'). cbn [fst snd] in *. subst r'.
      destruct r; [|reflexivity]. destruct (_ || _); [reflexivity|]. split; [reflexivity|now apply make_hp].
    + cbn. auto using make_hp.
  - destruct (result_of id (d_history d)) as [data|]; [|exact I]. destruct (cp_prog p') as [|[dest r w v| | | | | |] rest]; try exact I.
    unfold load_finish. destruct (keeps_two (fun k => write_to_register (y_core c) k dest data) _ _ (write_hk _ _ _) EK) as (A & B).
    destruct (write_to_register (y_core c) (cp_core p) dest data) as (r0 & k1), (write_to_register (y_core c) (cp_core p') dest data) as (r' & k1'). cbn [fst snd] in *. subst r'.
    destruct r0; cbn; auto using make_hp.
  - destruct (dc_submit now i a (RWrite rows) d) as ([q|e] & d'); cbn; auto using make_hp.
  - destruct (result_of id (d_history d)) as [data|]; [|exact I]. destruct (cp_prog p') as [|o rest]; [exact I|]. cbn. auto using make_hp.
Qed.

Definition same_gon (x y : outcome (net * tile)) : Prop :=
  match x, y with
  | Blocked, Blocked => True
  | Crash e, Crash e' => e = e'
  | Go (n, t), Go (n', t') => n = n' /\ same_tile t t'
  | _, _ => False
  end.
Lemma halted_same l l' : map hp l = map hp l' -> forallb halted l = forallb halted l'.
Proof.
  revert l'. induction l as [|p l IH]; intros [|p' l']; cbn [map]; intros E; try discriminate E; [reflexivity|].
  apply (f_equal (fun x => (hd (hp p) x, tl x))) in E. cbn [hd tl] in E. pose proof (f_equal fst E) as E1. pose proof (f_equal snd E) as E2. cbn [fst snd] in E1, E2.
  cbn [forallb]. rewrite (IH _ E2). apply dest_hp in E1 as (_ & _ & EH & _). unfold halted. now rewrite EH.
Qed.
Lemma with_net_same cap c now a n t t' : same_tile t t' -> same_gon (with_net cap c now a n t) (with_net cap c now a n t').
Proof. intros H. unfold with_net. destruct (nstep_cap _ _ _ _ _) as [n'|]; [|exact I]. destruct (n_crash n'); cbn; auto. Qed.

Lemma tile_step_same cap c now i n t t' : same_tile t t' -> same_gon (tile_step cap c now i n t) (tile_step cap c now i n t').
Proof.
  destruct t as [d ps pr ph lg], t' as [d' ps' pr' ph' lg']. unfold same_tile at 1. cbn [t_dram t_cores t_prog t_phase t_log].
  intros (<- & <- & <- & <- & E). unfold tile_step. cbn [t_dram t_cores t_prog t_phase t_log].
  assert (MK : forall d pr ph lg, same_tile (MkTile d ps pr ph lg) (MkTile d ps' pr ph lg)) by (intros; repeat split; auto).
  destruct pr as [|op rest]; [exact I|]. destruct ph, op; try exact I.
  - destruct (dc_submit _ _ _ _ _) as ([q|e] & d'); cbn; auto.
  - destruct (_ || _); cbn; auto; split; auto; apply MK.
  - rewrite <- (halted_same _ _ E). destruct (forallb halted ps); [|exact I]. apply with_net_same, MK.
  - destruct (result_of _ _); [|exact I]. destruct (_ || _); cbn; auto.
  - destruct (r_client _); try exact I. destruct rows; [cbn; split; auto; apply MK|apply with_net_same, MK].
  - destruct (r_client _); try exact I.
    + destruct (_ <? _); [apply with_net_same, MK|]. destruct (dc_submit _ _ _ _ _) as ([q|e] & d'); cbn; auto.
    + destruct (_ =? _); apply with_net_same, MK.
  - destruct (result_of _ _); [|exact I]. cbn; auto; split; auto; apply MK.
  - destruct (r_client _); try exact I. destruct (_ && _); cbn; auto.
Qed.

Lemma same_refl s : same_state s s.
Proof. repeat split. Qed.
Lemma net_ext (a b : net) : n_crash a = n_crash b -> (forall i, n_router a i = n_router b i) -> a = b.
Proof. destruct a, b. cbn. intros -> H. f_equal. now apply functional_extensionality. Qed.
Lemma same_set f f' i t t' : (forall i, same_tile (f i) (f' i)) -> same_tile t t' -> forall x, same_tile (set_fun f i t x) (set_fun f' i t' x).
Proof. intros H Ht x. unfold set_fun. destruct (x =? i); auto. Qed.
Definition same_opt (x y : option sys) : Prop := match x, y with None, None => True | Some s, Some s' => same_state s s' | _, _ => False end.
Lemma nth_same l l' k : map hp l = map hp l' ->
  match nth_error l k, nth_error l' k with None, None => True | Some p, Some p' => hp p = hp p' | _, _ => False end.
Proof.
  intros E. pose proof (f_equal (fun x => nth_error x k) E) as N. cbv beta in N. rewrite !nth_error_map in N.
  destruct (nth_error l k), (nth_error l' k); cbn in N; try discriminate N; auto. apply (f_equal (fun o => match o with Some x => x | None => hp c end)) in N. exact N.
Qed.

Lemma sstep_same cap c now a s s' : same_state s s' -> same_opt (sstep_cap cap c now a s) (sstep_cap cap c now a s').
Proof.
  destruct s as [n f cr], s' as [n' f' cr']. unfold same_state at 1. cbn [s_net s_tile s_crash]. intros (<- & HC & HR & HT).
  assert (n = n') by now apply net_ext. subst n'. clear HC HR. unfold sstep_cap. cbn [s_net s_tile s_crash]. destruct cr; [exact I|]. destruct a as [i a|a|i k|i].
  - destruct (_ || _); [exact I|]. destruct (HT i) as (E1 & E2 & E3 & E4 & E5). rewrite <- E1. destruct (dstep _ _ _ _) as [d|]; [|exact I]. cbn.
    split; [reflexivity|]. split; [reflexivity|]. split; [reflexivity|]. cbn [s_tile]. apply same_set; auto. repeat split; auto.
  - destruct (negb _); [exact I|]. destruct (nstep_cap _ _ _ _ _) as [m|]; [|exact I]. cbn. repeat split; apply HT.
  - destruct (_ || _); [exact I|]. destruct (HT i) as (E1 & E2 & E3 & E4 & E5). pose proof (nth_same _ _ (Z.to_nat k) E5) as N.
    destruct (nth_error (t_cores (f i)) (Z.to_nat k)) as [p|], (nth_error (t_cores (f' i)) (Z.to_nat k)) as [p'|]; try contradiction; [|exact I].
    rewrite <- E1. pose proof (core_step_same c now k (t_dram (f i)) _ _ N) as G. unfold same_go in G.
    destruct (core_step_sys c now k (t_dram (f i)) p) as [|e|(d1 & p1)], (core_step_sys c now k (t_dram (f i)) p') as [|e'|(d2 & p2)]; try contradiction; [exact I| |].
    + subst. cbn. split; [reflexivity|]. split; [reflexivity|]. split; [reflexivity|exact HT].
    + destruct G as (<- & G). cbn. split; [reflexivity|]. split; [reflexivity|]. split; [reflexivity|]. cbn [s_tile]. apply same_set; auto.
      repeat split; cbn; auto. now rewrite <- !upd_map, E5, G.
  - destruct (negb _); [exact I|]. pose proof (tile_step_same cap c now i n _ _ (HT i)) as G. unfold same_gon in G.
    destruct (tile_step cap c now i n (f i)) as [|e|(n1 & t1)], (tile_step cap c now i n (f' i)) as [|e'|(n2 & t2)]; try contradiction; [exact I| |].
    + subst. cbn. split; [reflexivity|]. split; [reflexivity|]. split; [reflexivity|exact HT].
    + destruct G as (<- & G). cbn. split; [reflexivity|]. split; [reflexivity|]. split; [reflexivity|]. cbn [s_tile]. apply same_set; auto.
Qed.
Lemma srun_same cap c l : forall s s', same_state s s' -> same_opt (srun cap c l s) (srun cap c l s').
Proof.
  induction l as [|(t, a) l IH]; intros s s' H; cbn [srun]; [exact H|].
  pose proof (sstep_same cap c t a s s' H) as G. unfold same_opt in G.
  destruct (sstep_cap cap c t a s) as [s1|], (sstep_cap cap c t a s') as [s2|]; try contradiction; [now apply IH|exact I].
Qed.
