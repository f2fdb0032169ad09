(** Proofs about the memory model. *)
From Verif Require Import PyBase PyLemmas MemoryModel MemorySpec.
From Coq Require Import ZifyBool ZifyNat.
Ltac Zify.zify_post_hook ::= Z.div_mod_to_equations.

Lemma wrap32_is_int32_of z : is_int32_of (wrap32 z) z.
Proof. split; [apply wrap32_int32|]. unfold wrap32. lia. Qed.

Lemma is_int32_of_unique v z : is_int32_of v z -> v = wrap32 z.
Proof. intros [H1 H2]. unfold int32 in H1. unfold wrap32. lia. Qed.

Lemma zlen_map {A B} (f : A -> B) l : zlen (map f l) = zlen l.
Proof. unfold zlen. now rewrite map_length. Qed.

Lemma znth_map_wrap vs i : znth 0 (map wrap32 vs) i = wrap32 (znth 0 vs i).
Proof. unfold znth. change 0 with (wrap32 0) at 1. apply map_nth. Qed.

(** The memory represents a history. *)
Definition mem_wf (m : memory) : Prop := 0 <= msize m /\ zlen (cells m) = msize m.

Lemma mem_init_wf size : 0 <= size -> mem_wf (mem_init size).
Proof. intros. unfold mem_wf, mem_init, zlen; cbn. rewrite repeat_length. lia. Qed.

Lemma mem_step_wf m a : mem_wf m -> mem_wf (mem_step m a) /\ msize (mem_step m a) = msize m.
Proof.
  intros [H1 H2]. destruct a as [s vs b|s n b|]; cbn.
  - unfold mem_write. destruct (_ || _) eqn:E; cbn; [unfold mem_wf; auto|].
    split; [|reflexivity]. split; cbn; [assumption|].
    rewrite zlen_blit; [assumption|lia|]. rewrite zlen_map. lia.
  - unfold mem_read. destruct (_ || _); cbn; [unfold mem_wf; auto|].
    destruct (_ <=? _); cbn; unfold mem_wf; auto.
  - unfold mem_reset, mem_wf; cbn. rewrite zlen_map. auto.
Qed.

Lemma mem_run_wf m h : mem_wf m -> mem_wf (mem_run m h) /\ msize (mem_run m h) = msize m.
Proof.
  revert m; induction h as [|a h IH]; intros m H; cbn; [auto|].
  destruct (mem_step_wf m a H) as [H' E]. destruct (IH _ H') as [H'' E']. split; [assumption|].
  change (msize (mem_run (mem_step m a) h) = msize m). now rewrite E'.
Qed.

Lemma znth_const0 (l : list Z) a : znth 0 (map (fun _ => 0) l) a = 0.
Proof.
  unfold znth. generalize (Z.to_nat a) as n. induction l as [|x l IH]; intros [|n]; cbn; auto.
Qed.

Lemma mem_step_cell m x older a :
  mem_wf m -> 0 <= a ->
  (forall a, 0 <= a -> znth 0 (cells m) a = wrap32 (last_stored (msize m) older a)) ->
  znth 0 (cells (mem_step m x)) a = wrap32 (last_stored (msize m) (x :: older) a).
Proof.
  intros [W1 W2] Ha H. destruct x as [s vs b|s n b|]; cbn [mem_step last_stored accepted].
  - unfold mem_write. destruct ((s <? 0) || (msize m <? s + zlen vs)) eqn:E; cbn [snd cells].
    + replace ((0 <=? s) && (s + zlen vs <=? msize m)) with false by lia. cbn [andb]. now apply H.
    + replace ((0 <=? s) && (s + zlen vs <=? msize m)) with true by lia. cbn [andb].
      rewrite znth_blit by (rewrite ?zlen_map; lia). rewrite zlen_map.
      destruct ((s <=? a) && (a <? s + zlen vs)); [apply znth_map_wrap|now apply H].
  - unfold mem_read. destruct (_ || _); cbn; [now apply H|]. destruct (_ <=? _); cbn; now apply H.
  - unfold mem_reset; cbn [cells]. rewrite znth_const0. reflexivity.
Qed.

Lemma mem_run_cells m h older a :
  mem_wf m -> 0 <= a ->
  (forall a, 0 <= a -> znth 0 (cells m) a = wrap32 (last_stored (msize m) older a)) ->
  znth 0 (cells (mem_run m h)) a = wrap32 (last_stored (msize m) (rev h ++ older) a).
Proof.
  revert m older; induction h as [|x h IH]; intros m older W Ha H.
  - cbn. now apply H.
  - cbn [mem_run fold_left rev]. fold (mem_run (mem_step m x) h).
    rewrite <- app_assoc. cbn [app].
    destruct (mem_step_wf m x W) as [W' E].
    rewrite (IH (mem_step m x) (x :: older)); auto.
    + now rewrite E.
    + intros a' Ha'. rewrite E. now apply mem_step_cell.
Qed.

Lemma mem_init_cell size a : znth 0 (cells (mem_init size)) a = 0.
Proof.
  unfold mem_init, znth; cbn. generalize (Z.to_nat a). induction (Z.to_nat size) as [|k IH]; intros [|n]; cbn; auto.
Qed.

Lemma mem_read_after_history size h s n b :
  0 <= size -> 0 <= s -> s + n <= size -> 0 < n ->
  exists vs, fst (mem_read (mem_run (mem_init size) h) s n b) = Ok vs /\
    zlen vs = n /\
    forall i, 0 <= i < n -> is_int32_of (znth 0 vs i) (last_stored size (rev h) (s + i)).
Proof.
  intros Hsz Hs Hb Hn.
  pose proof (mem_init_wf size Hsz) as W0.
  destruct (mem_run_wf _ h W0) as [[W1 W2] E]. cbn [msize mem_init] in E.
  unfold mem_read. rewrite E in *.
  replace ((s <? 0) || (size <? s + n)) with false by lia.
  replace (n <=? 0) with false by lia.
  eexists; split; [reflexivity|]. split.
  - unfold zlen. rewrite length_block by lia. lia.
  - intros i Hi. rewrite (block_map_zrange 0) by lia.
    unfold znth at 1. rewrite nth_map_zrange by lia.
    replace (Z.of_nat (Z.to_nat i)) with i by lia.
    rewrite (mem_run_cells _ h [] (s + i) W0); [|lia|].
    + rewrite app_nil_r. apply wrap32_is_int32_of.
    + intros a _. cbn [last_stored]. now rewrite mem_init_cell.
Qed.

Lemma mem_access_checks m a :
  mem_wf m ->
  match a with
  | MW s vs b =>
      if accepted (msize m) a then exists m', mem_write m s vs b = (Ok tt, m')
      else mem_write m s vs b = (Raise IndexError, m)
  | MR s n b =>
      if accepted (msize m) a then exists vs m', mem_read m s n b = (Ok vs, m') /\ cells m' = cells m
      else exists e, mem_read m s n b = (Raise e, m)
  | MZ => True
  end.
Proof.
  intros [W1 W2]. destruct a as [s vs b|s n b|]; cbn [accepted]; [| |exact I].
  - unfold mem_write. destruct ((s <? 0) || (msize m <? s + zlen vs)) eqn:E.
    + replace ((0 <=? s) && (s + zlen vs <=? msize m)) with false by lia. reflexivity.
    + replace ((0 <=? s) && (s + zlen vs <=? msize m)) with true by lia. eauto.
  - unfold mem_read. destruct ((s <? 0) || (msize m <? s + n)) eqn:E.
    + replace ((0 <=? s) && (s + n <=? msize m)) with false by lia. cbn [andb]. eauto.
    + replace ((0 <=? s) && (s + n <=? msize m)) with true by lia. cbn [andb].
      destruct (Z.leb_spec n 0).
      * replace (0 <? n) with false by lia. eauto.
      * replace (0 <? n) with true by lia. eauto.
Qed.

(** Counters. *)
Definition counts (size : Z) (h : list macc) (s : mstats) : Prop :=
  read_operations s = sum_over size batch_of_read h /\
  write_operations s = sum_over size batch_of_write h /\
  read_cells s = sum_over size cells_of_read h /\
  write_cells s = sum_over size cells_of_write h /\
  total_operations s = read_operations s + write_operations s /\
  total_operated_cells s = read_cells s + write_cells s.

Lemma sum_over_snoc size f h a :
  sum_over size f (h ++ [a]) = sum_over size f h + (if accepted size a then f a else 0).
Proof.
  unfold sum_over. rewrite filter_app, map_app, zsum_app. cbn [filter].
  destruct (accepted size a); cbn; lia.
Qed.

Definition is_reset (x : macc) : bool := match x with MZ => true | _ => false end.

Lemma since_reset_no h : existsb is_reset h = false -> since_reset h = h.
Proof.
  induction h as [|x h IH]; cbn; intros E; [reflexivity|].
  apply orb_false_iff in E as [E1 E2]. destruct x; try discriminate; cbn in *;
  change (existsb (fun x => match x with MZ => true | _ => false end) h) with (existsb is_reset h);
  now rewrite E2.
Qed.

Lemma since_reset_no_reset h : existsb is_reset (since_reset h) = false.
Proof.
  induction h as [|x h IH]; cbn; [reflexivity|].
  destruct x; auto;
  change (existsb (fun x => match x with MZ => true | _ => false end) h) with (existsb is_reset h);
  destruct (existsb is_reset h) eqn:E; cbn; auto.
Qed.

Lemma since_reset_app h a : a <> MZ -> since_reset (h ++ [a]) = since_reset h ++ [a].
Proof.
  intros Ha. induction h as [|x h IH]; cbn.
  - destruct a; try reflexivity. now contradiction Ha.
  - destruct x; auto;
    change (existsb (fun x => match x with MZ => true | _ => false end)) with (existsb is_reset);
    rewrite existsb_app; cbn [existsb]; (replace (is_reset a) with false by (destruct a; auto; now contradiction Ha));
    rewrite !orb_false_r; destruct (existsb is_reset h) eqn:E; cbn; auto.
Qed.

Lemma since_reset_mz h : since_reset (h ++ [MZ]) = [].
Proof.
  induction h as [|x h IH]; cbn; [reflexivity|].
  destruct x; auto;
  change (existsb (fun x => match x with MZ => true | _ => false end)) with (existsb is_reset);
  rewrite existsb_app; cbn [existsb is_reset]; rewrite orb_true_r; auto.
Qed.

Lemma mem_step_counts m x h :
  mem_wf m -> counts (msize m) (since_reset h) (mstat m) ->
  counts (msize m) (since_reset (h ++ [x])) (mstat (mem_step m x)).
Proof.
  intros W (H1 & H2 & H3 & H4 & H5 & H6).
  destruct x as [s vs b|s n b|].
  - rewrite since_reset_app by discriminate. unfold counts. rewrite !sum_over_snoc.
    cbn [mem_step]. unfold mem_write.
    cbn [accepted batch_of_read batch_of_write cells_of_read cells_of_write].
    destruct ((s <? 0) || (msize m <? s + zlen vs)) eqn:E; cbn.
    + replace ((0 <=? s) && (s + zlen vs <=? msize m)) with false by lia. lia.
    + replace ((0 <=? s) && (s + zlen vs <=? msize m)) with true by lia. lia.
  - rewrite since_reset_app by discriminate. unfold counts. rewrite !sum_over_snoc.
    cbn [mem_step]. unfold mem_read.
    cbn [accepted batch_of_read batch_of_write cells_of_read cells_of_write].
    destruct ((s <? 0) || (msize m <? s + n)) eqn:E; cbn.
    + replace ((0 <=? s) && (s + n <=? msize m)) with false by lia. cbn [andb]. lia.
    + replace ((0 <=? s) && (s + n <=? msize m)) with true by lia. cbn [andb].
      destruct (Z.leb_spec n 0); cbn.
      * replace (0 <? n) with false by lia. lia.
      * replace (0 <? n) with true by lia. lia.
  - rewrite since_reset_mz. cbn. unfold counts, sum_over; cbn. lia.
Qed.

Lemma mem_run_app m h1 h2 : mem_run m (h1 ++ h2) = mem_run (mem_run m h1) h2.
Proof. unfold mem_run. apply fold_left_app. Qed.

Lemma mem_counts_exact size h :
  0 <= size -> counts size (since_reset h) (mstat (mem_run (mem_init size) h)).
Proof.
  intros Hs. pose proof (mem_init_wf size Hs) as W0.
  induction h as [|x h IH] using rev_ind.
  - cbn. unfold counts, sum_over; cbn. lia.
  - rewrite mem_run_app. cbn [mem_run fold_left].
    destruct (mem_run_wf _ h W0) as [W E]. cbn [msize mem_init] in E.
    pose proof (mem_step_counts _ x h W) as S. rewrite E in S. now apply S.
Qed.
