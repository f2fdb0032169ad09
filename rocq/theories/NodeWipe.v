(** Proofs: operations keep sizes and weights, so a reset restores the state after loading. *)
From Verif Require Import PyBase PyLemmas ConfigModel MemoryModel VfuModel FloatModel MvmuModel CoreModel DramModel DramSpec DramProofs RouterModel RouterSpec
  SystemModel SystemSpec SystemBase SystemInv SystemClaims NodeModel NodeSpec NodeProofs MemoryProofs.
From Coq Require Import ZifyBool ZifyNat FunctionalExtensionality.

Definition wipe_stats (s : storage) (st : mv_stats) : mv_stats :=
  MkMvStats 0 0 0 0 0 0 0 0 0 0 (if have_sram s then 0 else sram_mac_operations st) (if have_sram s then 0 else mux_sram_selections st) 0.
Definition wipe_unit (c : mvmu_cfg) (u : mvmu) : mvmu :=
  MkMvmu (inreg_reset (mv_in u)) (outreg_reset (mv_out u)) (rram_pos u) (rram_neg u) (sram_pos u) (sram_neg u) (wipe_stats (c_storage c) (mv_stat u)).
Definition wipe (c : core_cfg) (k : core) : core := MkCore (mem_reset (co_cache k)) vstats0 (map (wipe_unit (k_mv c)) (co_mvmus k)).

(** Sizes of the registers are as they should be. *)
Definition sized (k : core) : Prop :=
  zlen (cells (co_cache k)) = msize (co_cache k) /\ Forall (fun u => zlen (in_regs (mv_in u)) = in_size (mv_in u)) (co_mvmus k).

Lemma zeros_length {A} (l l' : list A) : map (fun _ => 0) l = map (fun _ => 0) l' -> length l = length l'.
Proof. intros E. apply (f_equal (@length Z)) in E. now rewrite !map_length in E. Qed.
Lemma zeros_eq {A} (l l' : list A) : length l = length l' -> map (fun _ => 0) l = map (fun _ => 0) l'.
Proof. revert l'. induction l as [|x l IH]; intros [|y l'] E; cbn in *; try discriminate E; [reflexivity|]. f_equal. apply IH. congruence. Qed.

Lemma sized_wipe c k k0 : wipe c k = wipe c k0 -> sized k0 -> sized k.
Proof.
  intros E (S1 & S2). split.
  - pose proof (f_equal co_cache E) as E1. cbn in E1. unfold mem_reset in E1. injection E1 as E1 E2. apply zeros_length in E2. unfold zlen in *. lia.
  - pose proof (f_equal co_mvmus E) as E1. cbn [co_mvmus wipe] in E1. clear E. revert E1 S2. generalize (co_mvmus k0) as l'. induction (co_mvmus k) as [|u l IH]; intros [|u' l'] E F; try discriminate E; constructor.
    + inversion F as [|? ? F1 F2]; subst. cbn [map] in E. pose proof (f_equal (fun l => mv_in (hd (wipe_unit (k_mv c) u) l)) E) as X. cbn in X. unfold inreg_reset in X. injection X as X1 X2. apply zeros_length in X2. unfold zlen in *. lia.
    + inversion F as [|? ? F1 F2]; subst. apply (IH l'); auto. exact (f_equal (@tl _) E).
Qed.

Lemma mem_read_wipe m a b n : mem_reset (snd (mem_read m a b n)) = mem_reset m.
Proof. unfold mem_read. destruct (_ || _); [reflexivity|]. destruct (_ <=? _); reflexivity. Qed.
Lemma mem_write_wipe m a v n : zlen (cells m) = msize m -> mem_reset (snd (mem_write m a v n)) = mem_reset m.
Proof.
  intros S. unfold mem_write. destruct (_ || _) eqn:E; [reflexivity|]. cbn [snd]. unfold mem_reset. cbn. f_equal. apply zeros_eq.
  pose proof (zlen_blit (cells m) a (map wrap32 v)) as Z. rewrite zlen_map in Z. unfold zlen in *. lia.
Qed.
Lemma scatter_length i : forall r v, length (scatter r i v) = length r.
Proof.
  intros r v. unfold scatter. revert r. induction (combine i v) as [|x l IH]; intros r; cbn [fold_left]; [reflexivity|]. rewrite IH. apply length_upd.
Qed.
Lemma outreg_read_wipe o i : outreg_reset (snd (outreg_read o i)) = outreg_reset o.
Proof. unfold outreg_read. destruct (bad_index _ _); reflexivity. Qed.
Lemma outreg_write_wipe o v i : outreg_reset (snd (outreg_write o v i)) = outreg_reset o.
Proof. unfold outreg_write. destruct (bad_index _ _); [reflexivity|]. unfold outreg_reset. cbn. f_equal. apply zeros_eq, scatter_length. Qed.

Lemma mvm_column_wipe c i xp xn so a j :
  outreg_reset (fst (mvm_column c i xp xn so a j)) = outreg_reset (fst a) /\ wipe_stats (c_storage c) (snd (mvm_column c i xp xn so a j)) = wipe_stats (c_storage c) (snd a).
Proof.
  destruct a as (o & st). unfold mvm_column.
  set (X := if have_rram (c_storage c) then _ else _). assert (SX : wipe_stats (c_storage c) (snd X) = wipe_stats (c_storage c) st).
  { unfold X. destruct (have_rram (c_storage c)); reflexivity. }
  destruct X as (ao & st1). cbn [snd] in SX.
  pose proof (outreg_read_wipe o (adc_mask c j)) as RW. destruct (outreg_read o (adc_mask c j)) as ([cur|e] & o1); cbn [fst snd] in *; [|auto].
  rewrite outreg_write_wipe. split; [exact RW|]. rewrite <- SX. unfold wipe_stats, count_column. cbn. destruct (have_sram (c_storage c)); f_equal; lia.
Qed.
Lemma fold_keep {A B C} (f : A -> C) (g : A -> B -> A) l : (forall a b, f (g a b) = f a) -> forall a, f (fold_left g l a) = f a.
Proof. intros H. induction l as [|b l IH]; intros a; cbn; [reflexivity|]. now rewrite IH, H. Qed.
Lemma mvm_slice_wipe c u i : wipe_unit c (mvm_slice c u i) = wipe_unit c u.
Proof.
  unfold mvm_slice. destruct (inreg_read (mv_in u) (c_dac_res c)) as (d & in1) eqn:E.
  match goal with |- context [fold_left ?f ?l ?a] =>
    pose proof (fold_keep (fun x => outreg_reset (fst x)) f l (fun b j => proj1 (mvm_column_wipe c i _ _ _ b j)) a) as F1;
    pose proof (fold_keep (fun x => wipe_stats (c_storage c) (snd x)) f l (fun b j => proj2 (mvm_column_wipe c i _ _ _ b j)) a) as F2;
    destruct (fold_left f l a) as (o & s1) end.
  cbn [fst snd] in F1, F2. unfold wipe_unit. cbn [mv_in mv_out rram_pos rram_neg sram_pos sram_neg mv_stat]. rewrite F1, F2. f_equal.
  - unfold inreg_read in E. injection E as <- <-. unfold inreg_reset. cbn. now rewrite map_map.
  - unfold wipe_stats, count_slice. cbn. destruct (have_sram (c_storage c)); f_equal; lia.
Qed.
Lemma execute_mvm_wipe c u : wipe_unit c (execute_mvm c u) = wipe_unit c u.
Proof.
  unfold execute_mvm. rewrite (fold_keep (wipe_unit c)) by (intros; apply mvm_slice_wipe). unfold wipe_unit. cbn. f_equal. unfold outreg_reset. cbn. now rewrite map_map.
Qed.

Lemma wipe_set_cache c k m : mem_reset m = mem_reset (co_cache k) -> wipe c (set_cache k m) = wipe c k.
Proof. intros E. unfold wipe, set_cache. cbn. now rewrite E. Qed.
Lemma upd_id {A} (l : list A) n x : nth_error l n = Some x -> upd l n x = l.
Proof. revert n. induction l as [|y l IH]; intros [|n] E; cbn in *; try discriminate E; [congruence|]. now rewrite IH. Qed.
Lemma wipe_set_mvmu c k i u u' : nth_error (co_mvmus k) (Z.to_nat i) = Some u -> wipe_unit (k_mv c) u' = wipe_unit (k_mv c) u -> wipe c (set_mvmu k i u') = wipe c k.
Proof.
  intros N E. unfold wipe, set_mvmu. cbn. f_equal. rewrite <- upd_map, E, upd_map. now rewrite upd_id.
Qed.
Lemma read_wipe c k s l : wipe c (snd (read_from_register c k s l)) = wipe c k.
Proof.
  unfold read_from_register. destruct (_ || _); [reflexivity|]. destruct (s <? _); [reflexivity|]. destruct (_ <=? s).
  - match goal with |- context [mem_read ?a ?b ?x ?y] => pose proof (mem_read_wipe a b x y) as M; destruct (mem_read a b x y) end. cbn [snd] in *. now apply wipe_set_cache.
  - destruct (mvmu_id_of c s (s + l)) as [i|e]; [|reflexivity]. destruct (nth_error (co_mvmus k) (Z.to_nat i)) as [u|] eqn:N; [|reflexivity].
    unfold read_from_outreg. match goal with |- context [outreg_read ?a ?b] => pose proof (outreg_read_wipe a b) as M; destruct (outreg_read a b) as (r & o) end.
    cbn [fst snd] in *. apply (wipe_set_mvmu _ _ _ u); auto. unfold wipe_unit. cbn. now rewrite M.
Qed.
Lemma write_wipe c k s d : sized k -> wipe c (snd (write_to_register c k s d)) = wipe c k.
Proof.
  intros (S1 & S2). unfold write_to_register. destruct (_ || _); [reflexivity|]. destruct (overlaps_output _ _ _); [reflexivity|]. destruct (_ <=? s).
  - match goal with |- context [mem_write ?a ?b ?x ?y] => pose proof (mem_write_wipe a b x y S1) as M; destruct (mem_write a b x y) end. cbn [snd] in *. now apply wipe_set_cache.
  - destruct (mvmu_id_of c s (s + zlen d)) as [i|e]; [|reflexivity]. destruct (nth_error (co_mvmus k) (Z.to_nat i)) as [u|] eqn:N; [|reflexivity].
    unfold write_to_inreg, inreg_write. destruct (_ || _) eqn:E; cbn [snd]; (apply (wipe_set_mvmu _ _ _ u); [auto|]); [destruct u; reflexivity|].
    unfold wipe_unit. cbn. f_equal. unfold inreg_reset. cbn. f_equal. apply zeros_eq.
    rewrite Forall_forall in S2. specialize (S2 u (nth_error_In _ _ N)).
    match goal with |- length (blit ?a ?b ?v) = _ => pose proof (zlen_blit a b v) as Z; rewrite zlen_map in Z; unfold zlen in * end. lia.
Qed.
Lemma calc_wipe c op a b dest k : sized k ->
  wipe c (snd (match vfu_calculate (k_vfu c) (co_vfu k) op a b with (Raise e, s) => (Raise e, set_vfu k s) | (Ok r, s) => write_to_register c (set_vfu k s) dest r end)) = wipe c k.
Proof. intros S. destruct (vfu_calculate _ _ _ _ _) as ([r|e] & s); [|reflexivity]. rewrite write_wipe; [reflexivity|exact S]. Qed.
Lemma local_wipe c k o : sized k -> wipe c (snd (exec_local c k o)) = wipe c k.
Proof.
  intros S. assert (SZ : forall k', wipe c k' = wipe c k -> sized k') by (intros k' E; exact (sized_wipe _ _ _ E S)).
  destruct o; cbn [exec_local]; auto.
  - unfold exec_set. destruct (_ <? _); [reflexivity|]. now apply write_wipe.
  - unfold exec_copy. pose proof (read_wipe c k read vec) as R. destruct (read_from_register c k read vec) as ([x|e] & k1); cbn [snd] in *; [|exact R].
    rewrite write_wipe; auto.
  - clear SZ. revert k S. match goal with |- context [exec_mvm _ _ ?l] => induction l as [|i xs IH]; intros k S end; cbn [exec_mvm]; [reflexivity|]. unfold get_mvmu. destruct (_ || _); [reflexivity|].
    destruct (nth_error _ _) as [u|] eqn:N; [|reflexivity]. cbn [snd].
    assert (W : wipe c (set_mvmu k i (execute_mvm (k_mv c) u)) = wipe c k) by (apply (wipe_set_mvmu _ _ _ u); auto using execute_mvm_wipe).
    rewrite IH; [exact W|]. exact (sized_wipe _ _ _ W S).
  - unfold exec_vfu. pose proof (read_wipe c k read1 vec) as R. destruct (read_from_register c k read1 vec) as ([x|e] & k1); cbn [snd] in *; [|exact R].
    destruct read2 as [r2|].
    + pose proof (read_wipe c k1 r2 vec) as R2. destruct (read_from_register c k1 r2 vec) as ([y|e] & k2); cbn [snd] in *; [|congruence].
      rewrite calc_wipe; [congruence|]. apply SZ. congruence.
    + rewrite calc_wipe; auto.
Qed.
