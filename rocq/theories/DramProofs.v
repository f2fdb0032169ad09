(** Lemmas about the memory controller. *)
From Verif Require Import PyBase PyLemmas MemoryModel MemorySpec MemoryProofs DramModel DramSpec.
From Coq Require Import ZifyBool ZifyNat Permutation.
Open Scope Z_scope.

(** ** Slices *)
Lemma slice_in n i : 0 <= n -> 0 <= slice_bound n i <= n.
Proof. unfold slice_bound. destruct (i <? 0) eqn:E; lia. Qed.

Lemma slice_exact n i : 0 <= i <= n -> slice_bound n i = i.
Proof. unfold slice_bound. destruct (i <? 0) eqn:E; lia. Qed.

Lemma slice_mono n i j : 0 <= n -> i <= j -> 0 <= i \/ j < 0 -> slice_bound n i <= slice_bound n j.
Proof. unfold slice_bound. intros. destruct (i <? 0) eqn:E, (j <? 0) eqn:F; lia. Qed.

Lemma znth_pyslice {A} (d : A) l s e i :
  0 <= i < slice_bound (zlen l) e - slice_bound (zlen l) s ->
  znth d (pyslice l s e) i = znth d l (slice_bound (zlen l) s + i).
Proof.
  intros H. unfold pyslice, znth. pose proof (slice_in (zlen l) s (zlen_nonneg l)). pose proof (slice_in (zlen l) e (zlen_nonneg l)).
  rewrite nth_block by lia. f_equal. lia.
Qed.

Lemma zlen_pyslice {A} (l : list A) s e :
  zlen (pyslice l s e) = Z.max 0 (slice_bound (zlen l) e - slice_bound (zlen l) s).
Proof.
  unfold pyslice. pose proof (slice_in (zlen l) s (zlen_nonneg l)). pose proof (slice_in (zlen l) e (zlen_nonneg l)).
  unfold zlen at 1. unfold block. rewrite firstn_length, skipn_length. unfold zlen in *. lia.
Qed.

Lemma forallb_znth (l : list bool) : forallb (fun b => b) l = true <-> forall i, 0 <= i < zlen l -> znth false l i = true.
Proof.
  rewrite forallb_forall. split.
  - intros H i Hi. apply H. apply nth_In. unfold zlen in Hi. lia.
  - intros H x Hx. destruct (In_nth _ _ false Hx) as (n & Hn & <-).
    specialize (H (Z.of_nat n)). unfold znth in H. rewrite Nat2Z.id in H. apply H. unfold zlen. lia.
Qed.

Lemma ready_spec valid r : ready valid r = true <->
  forall a, slice_bound (zlen valid) (q_start r) <= a < slice_bound (zlen valid) (q_start r + q_length r) -> znth false valid a = true.
Proof.
  unfold ready. rewrite forallb_znth, zlen_pyslice.
  set (s := slice_bound (zlen valid) (q_start r)). set (e := slice_bound (zlen valid) (q_start r + q_length r)). split.
  - intros H a Ha. specialize (H (a - s) ltac:(lia)). rewrite znth_pyslice in H by (fold s e; lia).
    fold s in H. now replace (s + (a - s)) with a in H by lia.
  - intros H i Hi. rewrite znth_pyslice by (fold s e; lia). fold s. apply H. lia.
Qed.

Lemma zlen_repeat {A} (x : A) n : zlen (repeat x n) = Z.of_nat n.
Proof. unfold zlen. now rewrite repeat_length. Qed.

Lemma zlen_set_valid valid s e : zlen (set_valid valid s e) = zlen valid.
Proof.
  unfold set_valid. pose proof (slice_in (zlen valid) s (zlen_nonneg valid)). pose proof (slice_in (zlen valid) e (zlen_nonneg valid)).
  apply zlen_blit; [lia|]. rewrite zlen_repeat. lia.
Qed.

Lemma znth_set_valid valid s e a : 0 <= a < zlen valid ->
  znth false (set_valid valid s e) a =
  if (slice_bound (zlen valid) s <=? a) && (a <? slice_bound (zlen valid) e) then true else znth false valid a.
Proof.
  intros Ha. unfold set_valid. set (n := zlen valid) in *.
  pose proof (slice_in n s ltac:(unfold n; apply zlen_nonneg)) as Bs. pose proof (slice_in n e ltac:(unfold n; apply zlen_nonneg)) as Be.
  rewrite znth_blit; [|lia|rewrite zlen_repeat; unfold n in *; lia|unfold n in *; lia].
  rewrite zlen_repeat.
  destruct ((slice_bound n s <=? a) && (a <? slice_bound n e)) eqn:E.
  - replace ((slice_bound n s <=? a) && (a <? slice_bound n s + Z.of_nat (Z.to_nat (Z.max 0 (slice_bound n e - slice_bound n s))))) with true by lia.
    unfold znth. apply nth_repeat_lt. lia.
  - replace ((slice_bound n s <=? a) && (a <? slice_bound n s + Z.of_nat (Z.to_nat (Z.max 0 (slice_bound n e - slice_bound n s))))) with false by lia.
    reflexivity.
Qed.

Lemma ready_mono valid s e r : ready valid r = true -> ready (set_valid valid s e) r = true.
Proof.
  rewrite !ready_spec, zlen_set_valid. intros H a Ha.
  pose proof (slice_in (zlen valid) (q_start r) (zlen_nonneg _)). pose proof (slice_in (zlen valid) (q_start r + q_length r) (zlen_nonneg _)).
  rewrite znth_set_valid by lia. rewrite H by lia. now destruct (_ && _).
Qed.

Lemma ready_in_range size valid r : zlen valid = size -> in_range size r -> 0 <= q_length r ->
  (ready valid r = true <-> forall a, covers r a -> znth false valid a = true).
Proof.
  intros L [H1 H2] P. rewrite ready_spec, L. unfold covers. rewrite !slice_exact by lia. reflexivity.
Qed.

(** ** Release of waiting reads *)
Lemma remove_first_in (a : list req) r b : ~ In (q_id r) (map q_id a) ->
  remove_first (q_id r) (a ++ r :: b) = a ++ b.
Proof.
  induction a as [|x a IH]; cbn; intros H.
  - now rewrite Z.eqb_refl.
  - replace (q_id x =? q_id r) with false by (symmetry; apply Z.eqb_neq; tauto). f_equal. apply IH. tauto.
Qed.

Lemma release_loop_skip valid : forall fuel a l queue,
  NoDup (map q_id (a ++ l)) -> (length l <= fuel)%nat ->
  release_loop fuel (length a) valid (a ++ l) queue =
  (a ++ fst (skip_release (ready valid) l), queue ++ snd (skip_release (ready valid) l)).
Proof.
  induction fuel as [|f IH]; intros a l queue ND HF.
  - destruct l; [|cbn in HF; lia]. cbn. now rewrite !app_nil_r.
  - cbn [release_loop]. destruct l as [|x t].
    + rewrite app_nil_r. replace (nth_error a (length a)) with (@None req) by (symmetry; now apply nth_error_None).
      cbn. now rewrite !app_nil_r.
    + rewrite nth_error_app2, Nat.sub_diag by lia. cbn [nth_error skip_release]. destruct (ready valid x) eqn:E.
      * rewrite remove_first_in.
        2:{ rewrite map_app in ND. cbn in ND. apply NoDup_remove_2 in ND. intros H. apply ND. apply in_or_app. now left. }
        destruct t as [|y t'].
        -- rewrite app_nil_r. destruct f; cbn [release_loop].
           ++ cbn. now rewrite app_nil_r.
           ++ replace (nth_error a (S (length a))) with (@None req) by (symmetry; apply nth_error_None; lia).
              cbn. now rewrite app_nil_r.
        -- replace (S (length a)) with (length (a ++ [y])) by (rewrite app_length; cbn; lia).
           replace (a ++ y :: t') with ((a ++ [y]) ++ t') by (now rewrite <- app_assoc).
           rewrite IH.
           ++ destruct (skip_release (ready valid) t') as [k r] eqn:S. cbn [fst snd]. now rewrite <- !app_assoc.
           ++ rewrite <- app_assoc. cbn. rewrite map_app in *. cbn in *.
              apply NoDup_remove_1 in ND. exact ND.
           ++ cbn in HF. lia.
      * replace (S (length a)) with (length (a ++ [x])) by (rewrite app_length; cbn; lia).
        replace (a ++ x :: t) with ((a ++ [x]) ++ t) by (now rewrite <- app_assoc).
        rewrite IH.
        -- destruct (skip_release (ready valid) t) as [k r] eqn:S. cbn [fst snd]. now rewrite <- !app_assoc.
        -- now rewrite <- app_assoc.
        -- cbn in HF. lia.
Qed.

Lemma update_ready_skip valid pending queue : NoDup (map q_id pending) ->
  update_ready valid pending queue =
  (fst (skip_release (ready valid) pending), queue ++ snd (skip_release (ready valid) pending)).
Proof. intros ND. exact (release_loop_skip valid (length pending) [] pending queue ND (le_n _)). Qed.

Section Skip.
Context {A : Type} (f : A -> bool).

(** Two-step induction over a list. *)
Lemma list_ind2 (P : list A -> Prop) : P [] -> (forall x, P [x]) -> (forall x y l, P l -> P (y :: l) -> P (x :: y :: l)) ->
  forall l, P l.
Proof.
  intros H0 H1 H2 l. enough (P l /\ forall x, P (x :: l)) by tauto. induction l as [|y l [IH1 IH2]]; split; auto.
Qed.

Lemma skip_true x y l : f x = true -> skip_release f (x :: y :: l) = (y :: fst (skip_release f l), x :: snd (skip_release f l)).
Proof. intros E. cbn [skip_release]. rewrite E. now destruct (skip_release f l). Qed.

Lemma skip_last x : f x = true -> skip_release f [x] = ([], [x]).
Proof. intros E. cbn [skip_release]. now rewrite E. Qed.

Lemma skip_false x l : f x = false -> skip_release f (x :: l) = (x :: fst (skip_release f l), snd (skip_release f l)).
Proof. intros E. cbn [skip_release]. rewrite E. now destruct (skip_release f l). Qed.

Lemma skip_perm l : Permutation l (fst (skip_release f l) ++ snd (skip_release f l)).
Proof.
  induction l as [|x|x y l IH IH'] using list_ind2.
  - constructor.
  - destruct (f x) eqn:E; [rewrite skip_last by assumption|rewrite skip_false by assumption]; cbn; auto.
  - destruct (f x) eqn:E.
    + rewrite skip_true by assumption. cbn [fst snd app].
      transitivity (y :: x :: l); [apply perm_swap|]. apply perm_skip.
      transitivity (x :: fst (skip_release f l) ++ snd (skip_release f l)); [now apply perm_skip|]. apply Permutation_middle.
    + rewrite skip_false by assumption. cbn [fst snd app]. now apply perm_skip.
Qed.

Lemma skip_released l : Forall (fun x => f x = true) (snd (skip_release f l)).
Proof.
  induction l as [|x|x y l IH IH'] using list_ind2.
  - constructor.
  - destruct (f x) eqn:E; [rewrite skip_last by assumption|rewrite skip_false by assumption]; cbn; auto.
  - destruct (f x) eqn:E; [rewrite skip_true by assumption|rewrite skip_false by assumption]; cbn [fst snd]; auto.
Qed.

Lemma skip_kept_order l : sublist (fst (skip_release f l)) l.
Proof.
  induction l as [|x|x y l IH IH'] using list_ind2.
  - constructor.
  - destruct (f x) eqn:E; [rewrite skip_last by assumption|rewrite skip_false by assumption]; cbn; repeat constructor.
  - destruct (f x) eqn:E; [rewrite skip_true by assumption|rewrite skip_false by assumption]; cbn [fst snd].
    + apply sub_drop, sub_keep, IH.
    + apply sub_keep, IH'.
Qed.

Lemma skip_released_order l : sublist (snd (skip_release f l)) l.
Proof.
  induction l as [|x|x y l IH IH'] using list_ind2.
  - constructor.
  - destruct (f x) eqn:E; [rewrite skip_last by assumption|rewrite skip_false by assumption]; cbn; repeat constructor.
  - destruct (f x) eqn:E; [rewrite skip_true by assumption|rewrite skip_false by assumption]; cbn [fst snd].
    + apply sub_keep, sub_drop, IH.
    + apply sub_drop, IH'.
Qed.

(** The first ready element is always released. *)
Lemma skip_first l1 x l2 : forallb (fun y => negb (f y)) l1 = true -> f x = true ->
  exists r, snd (skip_release f (l1 ++ x :: l2)) = x :: r.
Proof.
  induction l1 as [|y l1 IH]; cbn [app forallb]; intros H1 H2.
  - destruct l2 as [|z l2]; [rewrite skip_last by assumption|rewrite skip_true by assumption]; eexists; reflexivity.
  - apply andb_true_iff in H1. destruct H1 as [H1 H3]. rewrite skip_false by (now destruct (f y)). exact (IH H3 H2).
Qed.

(** Something ready remains only right after a released element. *)
Lemma skip_only_after l x : In x (fst (skip_release f l)) -> f x = true ->
  exists a y b, l = a ++ y :: x :: b /\ In y (snd (skip_release f l)).
Proof.
  induction l as [|z|z y l IH IH'] using list_ind2; intros H E.
  - destruct H.
  - destruct (f z) eqn:Z; [rewrite skip_last in H by assumption; destruct H|].
    rewrite skip_false in H by assumption. destruct H as [->|[]]. congruence.
  - destruct (f z) eqn:Z.
    + rewrite skip_true in * by assumption. cbn [fst snd] in *. destruct H as [->|H].
      * exists [], z, l. cbn. auto.
      * destruct (IH H E) as (a & w & b & -> & I). exists (z :: y :: a), w, b. cbn. auto.
    + rewrite skip_false in * by assumption. cbn [fst snd] in *.
      destruct H as [->|H]; [congruence|].
      destruct (IH' H E) as (a & w & b & EQ & I). exists (z :: a), w, b. split; [cbn; now rewrite EQ|exact I].
Qed.

Lemma filter_perm (g : A -> bool) l l' : Permutation l l' -> Permutation (filter g l) (filter g l').
Proof.
  induction 1; cbn; [constructor| | |etransitivity; eassumption].
  - destruct (g x); auto.
  - destruct (g x), (g y); auto. apply perm_swap.
Qed.

Lemma filter_none (g : A -> bool) l : forallb (fun y => negb (g y)) l = true -> filter g l = [].
Proof. induction l as [|x l IH]; cbn; [reflexivity|]. destruct (g x); cbn; [discriminate|assumption]. Qed.

Lemma split_first l : {forallb (fun y => negb (f y)) l = true} +
  {exists l1 x l2, l = l1 ++ x :: l2 /\ forallb (fun y => negb (f y)) l1 = true /\ f x = true}.
Proof.
  induction l as [|y l [IH|IH]]; [now left| |].
  - destruct (f y) eqn:E; [right; exists [], y, l; auto|left; cbn; now rewrite E].
  - right. destruct (f y) eqn:E; [exists [], y, l; auto|]. destruct IH as (l1 & x & l2 & -> & H1 & H2).
    exists (y :: l1), x, l2. cbn. rewrite E. auto.
Qed.

(** Each round takes at least one ready element if there is any. *)
Lemma skip_progress l : filter f l <> [] -> (length (filter f (fst (skip_release f l))) < length (filter f l))%nat.
Proof.
  intros H. destruct (split_first l) as [N|(l1 & x & l2 & E & N & X)]; [exfalso; apply H; now apply filter_none|].
  destruct (skip_first l1 x l2 N X) as [r R]. rewrite <- E in R.
  pose proof (Permutation_length (filter_perm f _ _ (skip_perm l))) as P. rewrite filter_app, app_length in P.
  rewrite R in P. cbn in P. rewrite X in P. cbn in P. lia.
Qed.

Fixpoint rounds (n : nat) (l : list A) : list A :=
  match n with O => l | S k => rounds k (fst (skip_release f l)) end.

Lemma rounds_all : forall n l, (length (filter f l) <= n)%nat -> filter f (rounds n l) = [].
Proof.
  induction n as [|n IH]; intros l H; cbn [rounds].
  - destruct (filter f l); [reflexivity|cbn in H; lia].
  - apply IH. destruct (filter f l) as [|x t] eqn:E.
    + assert (P := Permutation_length (filter_perm f _ _ (skip_perm l))). rewrite filter_app, app_length, E in P. cbn in P. lia.
    + assert (Q := skip_progress l). rewrite E in Q. specialize (Q ltac:(discriminate)). cbn in H, Q. lia.
Qed.

Lemma skip_one l x : filter f l = [x] -> filter f (fst (skip_release f l)) = [] /\ snd (skip_release f l) = [x].
Proof.
  intros H. assert (P := skip_progress l). rewrite H in P. specialize (P ltac:(discriminate)). cbn in P.
  destruct (filter f (fst (skip_release f l))) as [|y t] eqn:E; [|cbn in P; lia]. split; [reflexivity|].
  pose proof (filter_perm f _ _ (skip_perm l)) as Q. rewrite filter_app, H, E in Q. cbn in Q.
  assert (F : filter f (snd (skip_release f l)) = snd (skip_release f l)).
  { clear Q. pose proof (skip_released l) as R. induction R as [|z r Z R IHR]; cbn; [reflexivity|]. rewrite Z. f_equal. exact IHR. }
  rewrite F in Q. now apply Permutation_length_1_inv in Q.
Qed.
End Skip.

(** ** Invariant *)
Definition entry_ok (size t : Z) (lat : Z) (h1 : list entry) (r : req) (g f : Z) (data : list Z) : Prop :=
  in_range size r /\ q_time r <= g /\ 0 <= lat * q_batches r /\ g + lat * q_batches r <= f /\ f <= t /\
  match q_kind r with
  | RRead _ _ => 0 < q_length r /\ zlen data = q_length r /\
      forall a, covers r a -> exists v, last_written (rev h1) a = Some v /\ znth 0 data (a - q_start r) = wrap32 v
  | RWrite _ => data = []
  end.

Definition finish_times (h : list entry) : list Z :=
  flat_map (fun e => match e with EDone _ _ f _ => [f] | EPreload _ => [] end) h.

Record dinv (lat size t : Z) (d : dram) : Prop := {
  i_size : msize (d_mem d) = size;
  i_cells : zlen (cells (d_mem d)) = size;
  i_valid : zlen (d_valid d) = size;
  i_mem : forall a, 0 <= a < size ->
    match last_written (rev (d_history d)) a with
    | None => znth 0 (cells (d_mem d)) a = 0 /\ znth false (d_valid d) a = false
    | Some v => znth 0 (cells (d_mem d)) a = wrap32 v /\ znth false (d_valid d) a = true
    end;
  i_hist : forall h1 r g f data h2, d_history d = h1 ++ EDone r g f data :: h2 ->
    entry_ok size t lat h1 r g f data /\ Forall (fun x => x <= g) (finish_times h1);
  i_place : Permutation (d_submitted d) (d_queue d ++ d_pending d ++ d_bus d ++ completed (d_history d));
  i_ids : map q_id (d_submitted d) = zrange (zlen (d_submitted d));
  i_times : Forall (fun r => q_time r <= t) (d_submitted d);
  i_fin : Forall (fun f => f <= t) (finish_times (d_history d));
  i_granted : forall g, d_granted d = Some g -> g <= t /\ Forall (fun f => f <= g) (finish_times (d_history d)) /\
      exists r rest, d_bus d = r :: rest /\ q_time r <= g /\ 0 <= lat * q_batches r;
  i_bus : Forall (fun r => is_read r = true -> ready (d_valid d) r = true) (d_bus d);
  i_reads : Forall (fun r => is_read r = true /\ In (q_id r) (d_waited d)) (d_pending d);
  i_waited : Forall (fun i => 0 <= i < zlen (d_submitted d)) (d_waited d);
  i_order : filter (never_waited d) (d_submitted d) =
      filter (never_waited d) (completed (d_history d)) ++ filter (never_waited d) (d_bus d) ++ filter (never_waited d) (d_queue d);
  i_rd : read_requests (d_stat d) = batches is_read (d_submitted d);
  i_wr : write_requests (d_stat d) = batches (fun r => negb (is_read r)) (d_submitted d);
  i_tot : total_requests (d_stat d) = batches (fun _ => true) (d_submitted d);
  i_op : operating_time (d_stat d) = lat * batches (fun _ => true) (completed (d_history d));
  i_wait : total_wait_time (d_stat d) = zsum (waits (d_history d));
  i_max : max_wait_time (d_stat d) = fold_right Z.max 0 (waits (d_history d))
}.

Lemma completed_app h1 h2 : completed (h1 ++ h2) = completed h1 ++ completed h2.
Proof. apply flat_map_app. Qed.
Lemma finish_times_app h1 h2 : finish_times (h1 ++ h2) = finish_times h1 ++ finish_times h2.
Proof. apply flat_map_app. Qed.
Lemma waits_app h1 h2 : waits (h1 ++ h2) = waits h1 ++ waits h2.
Proof. apply flat_map_app. Qed.
Lemma batches_app f l1 l2 : batches f (l1 ++ l2) = batches f l1 + batches f l2.
Proof. unfold batches. now rewrite filter_app, map_app, zsum_app. Qed.
Lemma fold_max_app l1 l2 : fold_right Z.max 0 (l1 ++ l2) = Z.max (fold_right Z.max 0 l1) (fold_right Z.max 0 l2).
Proof. induction l1 as [|x l IH]; cbn; [|rewrite IH; lia]. induction l2; cbn; lia. Qed.
Lemma zlen_app {A} (a b : list A) : zlen (a ++ b) = zlen a + zlen b.
Proof. unfold zlen. rewrite app_length. lia. Qed.

Lemma snoc_split {A} (h : list A) x h1 y h2 : h ++ [x] = h1 ++ y :: h2 ->
  (exists h2', h2 = h2' ++ [x] /\ h = h1 ++ y :: h2') \/ (h2 = [] /\ y = x /\ h1 = h).
Proof.
  intros E. destruct (exists_last (l := y :: h2)) as (l' & z & E2); [discriminate|].
  assert (z = x /\ h = h1 ++ l').
  { rewrite E2, app_assoc in E. apply app_inj_tail in E. destruct E as [-> ->]. auto. }
  destruct H as [-> ->]. destruct l' as [|w l']; cbn in E2.
  - right. injection E2 as -> ->. now rewrite app_nil_r.
  - left. injection E2 as -> ->. eauto.
Qed.

Lemma zrange_S n : 0 <= n -> zrange (n + 1) = zrange n ++ [n].
Proof.
  intros H. unfold zrange. replace (Z.to_nat (n + 1)) with (S (Z.to_nat n)) by lia.
  rewrite seq_S, map_app. cbn. repeat f_equal. lia.
Qed.

Lemma nodup_zrange n : NoDup (zrange n).
Proof.
  unfold zrange. apply FinFun.Injective_map_NoDup; [intros a b H; lia|apply seq_NoDup].
Qed.

Section Inv.
Variables (lat size : Z).

Lemma inv_ids_nodup t d : dinv lat size t d -> NoDup (map q_id (d_submitted d)).
Proof. intros I. rewrite (i_ids _ _ _ _ I). apply nodup_zrange. Qed.

Lemma inv_places_nodup t d : dinv lat size t d ->
  NoDup (map q_id (d_queue d ++ d_pending d ++ d_bus d ++ completed (d_history d))).
Proof.
  intros I. eapply Permutation_NoDup; [|exact (inv_ids_nodup _ _ I)]. apply Permutation_map, (i_place _ _ _ _ I).
Qed.

Lemma NoDup_app_r {A} (a b : list A) : NoDup (a ++ b) -> NoDup b.
Proof. induction a; cbn; [auto|]. intros H. inversion H. auto. Qed.
Lemma NoDup_app_l {A} (a b : list A) : NoDup (a ++ b) -> NoDup a.
Proof.
  induction a as [|x a IH]; cbn; [constructor|]. intros H. inversion H as [|? ? N D]; subst. constructor; [|auto].
  intros X. apply N, in_or_app. now left.
Qed.

Lemma inv_pending_nodup t d : dinv lat size t d -> NoDup (map q_id (d_pending d)).
Proof.
  intros I. pose proof (inv_places_nodup _ _ I) as N. rewrite map_app in N. apply NoDup_app_r in N.
  rewrite map_app in N. now apply NoDup_app_l in N.
Qed.

Lemma inv_init t : 0 <= size -> dinv lat size t (dc_run t (dram_init size)).
Proof.
  intros S. constructor; cbn; auto; try (now constructor); try (intros; discriminate).
  - rewrite zlen_repeat. lia.
  - rewrite zlen_repeat. lia.
  - intros a H. unfold znth. rewrite !nth_repeat_lt by lia. auto.
  - intros. destruct h1; discriminate.
  - rewrite Z.mul_0_r. reflexivity.
Qed.

Lemma inv_time t t' d : t <= t' -> dinv lat size t d -> dinv lat size t' d.
Proof.
  intros T I. destruct I. constructor; auto.
  - intros h1 r g f data h2 E. destruct (i_hist0 _ _ _ _ _ _ E) as [(A & B & C & D & F & G) H]. split; [|assumption].
    unfold entry_ok. repeat (split; [assumption||lia|]). assumption.
  - eapply Forall_impl; [|exact i_times0]. cbn. lia.
  - eapply Forall_impl; [|exact i_fin0]. cbn. lia.
  - intros g E. destruct (i_granted0 g E) as (A & B & C). split; [lia|]. auto.
Qed.

Lemma inv_crash t d e : dinv lat size t d -> dinv lat size t (set_crash d e).
Proof. intros I. destruct I. constructor; auto. Qed.

(** The state of the cells and flags after one more entry. *)
Definition mem_inv (h : list entry) (cs : list Z) (valid : list bool) : Prop :=
  forall a, 0 <= a < size ->
    match last_written (rev h) a with
    | None => znth 0 cs a = 0 /\ znth false valid a = false
    | Some v => znth 0 cs a = wrap32 v /\ znth false valid a = true
    end.

Lemma mem_inv_store h e cs valid s vals : zlen cs = size -> zlen valid = size ->
  0 <= s -> s + zlen vals <= size ->
  (forall a, last_written (rev (h ++ [e])) a = if (s <=? a) && (a <? s + zlen vals) then Some (znth 0 vals (a - s)) else last_written (rev h) a) ->
  mem_inv h cs valid -> mem_inv (h ++ [e]) (blit cs s (map wrap32 vals)) (set_valid valid s (s + zlen vals)).
Proof.
  intros L1 L2 S1 S2 W M a A. rewrite W. specialize (M a A).
  rewrite (znth_blit 0 cs) by (try rewrite zlen_map; lia). rewrite zlen_map.
  rewrite znth_set_valid by lia. rewrite L2, !slice_exact by (pose proof (zlen_nonneg vals); lia).
  destruct ((s <=? a) && (a <? s + zlen vals)) eqn:E.
  - split; [|reflexivity]. now rewrite znth_map_wrap.
  - exact M.
Qed.

Lemma inv_preload t d vals d' : dinv lat size t d -> dc_preload vals d = Some d' -> dinv lat size t d'.
Proof.
  intros I. unfold dc_preload. destruct (msize (d_mem d) <? zlen vals) eqn:E; [discriminate|]. intros [= <-].
  rewrite (i_size _ _ _ _ I) in E. assert (V : zlen vals <= size) by lia. clear E.
  assert (CO : completed (d_history d ++ [EPreload vals]) = completed (d_history d)) by (rewrite completed_app; apply app_nil_r).
  assert (FT : finish_times (d_history d ++ [EPreload vals]) = finish_times (d_history d)) by (rewrite finish_times_app; apply app_nil_r).
  assert (WA : waits (d_history d ++ [EPreload vals]) = waits (d_history d)) by (rewrite waits_app; apply app_nil_r).
  destruct I. constructor; cbn [d_mem d_valid d_running d_queue d_pending d_bus d_granted d_stat d_start_time d_crash d_submitted d_history d_waited d_failed msize cells];
    rewrite ?CO, ?FT, ?WA; auto.
  - rewrite zlen_blit by (try rewrite zlen_map; lia). assumption.
  - now rewrite zlen_set_valid.
  - apply (mem_inv_store (d_history d) _ _ _ 0 vals); try assumption; [lia|].
    intros a. rewrite rev_app_distr. cbn [rev app last_written]. rewrite Z.sub_0_r. reflexivity.
  - intros h1 r g f data h2 H. apply snoc_split in H. destruct H as [(h2' & -> & H)|(_ & H & _)]; [|discriminate].
    eauto.
  - eapply Forall_impl; [|exact i_bus0]. cbn. intros r R X. now apply ready_mono, R.
Qed.

Ltac proj := cbn [d_mem d_valid d_running d_queue d_pending d_bus d_granted d_stat d_start_time d_crash d_submitted d_history d_waited d_failed msize cells
  read_requests write_requests total_requests total_wait_time max_wait_time active_cycles operating_time].

Lemma inv_submit t d core start k : dinv lat size t d -> dinv lat size t (snd (dc_submit t core start k d)).
Proof.
  intros I. unfold dc_submit. destruct (negb (d_running d)); [exact I|]. cbv zeta.
  set (r := MkReq _ _ _ _ _). cbn [snd]. destruct I. constructor; proj; auto.
  - transitivity ((d_queue d ++ d_pending d ++ d_bus d ++ completed (d_history d)) ++ [r]); [now apply Permutation_app_tail|].
    rewrite <- !app_assoc. apply Permutation_app_head. cbn [app].
    transitivity (r :: (d_pending d ++ d_bus d ++ completed (d_history d))); [|reflexivity].
    rewrite !app_assoc. symmetry. apply Permutation_cons_append.
  - rewrite map_app, i_ids0, zlen_app. cbn [map]. change (zlen [r]) with 1.
    rewrite zrange_S by apply zlen_nonneg. reflexivity.
  - apply Forall_app. split; [assumption|]. repeat constructor. cbn. lia.
  - eapply Forall_impl; [|exact i_waited0]. cbn. intros i H. rewrite zlen_app. change (zlen [r]) with 1. lia.
  - unfold never_waited in *. proj. rewrite !filter_app, i_order0. now rewrite <- !app_assoc.
  - rewrite batches_app. unfold batches at 2. cbn [filter]. destruct (is_read r); cbn [read_requests map zsum fold_right]; lia.
  - rewrite batches_app. unfold batches at 2. cbn [filter]. destruct (is_read r); cbn [write_requests negb map zsum fold_right]; lia.
  - rewrite batches_app. unfold batches at 2. cbn [filter]. destruct (is_read r); cbn [total_requests map zsum fold_right]; lia.
  - destruct (is_read r); assumption.
  - destruct (is_read r); assumption.
  - destruct (is_read r); assumption.
Qed.

Lemma filter_filter {A} (f g : A -> bool) l : filter f (filter g l) = filter (fun x => g x && f x) l.
Proof. induction l as [|x l IH]; cbn; [reflexivity|]. destruct (g x); cbn; [destruct (f x)|]; now rewrite IH. Qed.

Lemma inv_id_in t d : dinv lat size t d -> forall r, In r (d_queue d ++ d_pending d ++ d_bus d ++ completed (d_history d)) ->
  0 <= q_id r < zlen (d_submitted d).
Proof.
  intros I r H. assert (J : In (q_id r) (map q_id (d_submitted d))).
  { apply in_map. eapply Permutation_in; [symmetry; exact (i_place _ _ _ _ I)|assumption]. }
  rewrite (i_ids _ _ _ _ I) in J. now apply in_zrange.
Qed.

Lemma inv_handle t d d' : dinv lat size t d -> dc_handle d = Some d' -> dinv lat size t d'.
Proof.
  intros I. unfold dc_handle. destruct (negb (d_running d)); [discriminate|].
  destruct (d_queue d) as [|r rest] eqn:Q; [discriminate|].
  pose proof (inv_id_in _ _ I) as i_id_in. rewrite Q in i_id_in.
  destruct (is_read r && negb (ready (d_valid d) r)) eqn:E; intros [= <-]; destruct I; constructor; proj; auto; rewrite Q in *.
  - etransitivity; [exact i_place0|].
    replace (rest ++ (d_pending d ++ [r]) ++ d_bus d ++ completed (d_history d))
      with ((rest ++ d_pending d) ++ r :: (d_bus d ++ completed (d_history d))) by (now rewrite <- !app_assoc).
    rewrite <- Permutation_middle. now rewrite <- !app_assoc.
  - apply andb_true_iff in E. destruct E as [E _].
    apply Forall_app. split.
    + eapply Forall_impl; [|exact i_reads0]. cbn. intros x [H1 H2]. split; [assumption|]. apply in_or_app. now left.
    + repeat constructor; [assumption|]. apply in_or_app. right. now left.
  - apply Forall_app. split; [assumption|]. repeat constructor.
    + apply (i_id_in r). cbn. now left.
    + apply (i_id_in r). cbn. now left.
  - assert (NW : forall l, filter (fun x => negb (existsb (Z.eqb (q_id x)) (d_waited d ++ [q_id r]))) l =
                 filter (fun x => negb (q_id x =? q_id r)) (filter (never_waited d) l)).
    { intros l. rewrite filter_filter. apply filter_ext. intros x. unfold never_waited. rewrite existsb_app. cbn.
      rewrite orb_false_r, negb_orb. reflexivity. }
    unfold never_waited at 1 2 3 4. cbn [d_waited]. rewrite !NW, i_order0, !filter_app. do 2 f_equal.
    cbn [filter]. destruct (never_waited d r); [|reflexivity]. cbn. now rewrite Z.eqb_refl.
  - etransitivity; [exact i_place0|].
    replace (rest ++ d_pending d ++ (d_bus d ++ [r]) ++ completed (d_history d))
      with ((rest ++ d_pending d ++ d_bus d) ++ r :: completed (d_history d)) by (now rewrite <- !app_assoc).
    rewrite <- Permutation_middle. now rewrite <- !app_assoc.
  - intros g G. destruct (i_granted0 g G) as (A & B & r' & rest' & -> & C). repeat split; auto. exists r', (rest' ++ [r]). auto.
  - apply Forall_app. split; [assumption|]. repeat constructor. intros X. rewrite X in E. now destruct (ready (d_valid d) r).
  - unfold never_waited in *. cbn [d_waited]. rewrite i_order0, !filter_app. cbn [filter]. rewrite <- app_assoc.
    destruct (existsb (Z.eqb (q_id r)) (d_waited d)); reflexivity.
Qed.

Lemma inv_grant t d d' : dinv lat size t d -> dc_grant lat t d = Some d' -> dinv lat size t d'.
Proof.
  intros I. unfold dc_grant. destruct (d_bus d) as [|r rest] eqn:B; [discriminate|].
  destruct (d_granted d) as [g|] eqn:G; [discriminate|].
  destruct (lat * q_batches r <? 0) eqn:E; intros [= <-]; [now apply inv_crash|].
  assert (T : q_time r <= t).
  { pose proof (i_times _ _ _ _ I) as F. rewrite Forall_forall in F. apply F.
    eapply Permutation_in; [symmetry; exact (i_place _ _ _ _ I)|]. rewrite B. apply in_or_app. right. apply in_or_app. right. now left. }
  destruct I. constructor; proj; auto; rewrite B in *; auto.
  intros g [= <-]. repeat split; [lia|assumption|]. exists r, rest. repeat split; lia.
Qed.

Lemma inv_stop t d : dinv lat size t d -> dinv lat size t (dc_stop t d).
Proof. intros I. unfold dc_stop. destruct (negb (d_running d)); [exact I|]. destruct I. constructor; proj; auto. Qed.

Lemma inv_finish t d d' : dinv lat size t d -> dc_finish lat t d = Some d' -> dinv lat size t d'.
Proof.
  intros I. unfold dc_finish. destruct (d_bus d) as [|r rest] eqn:B; [discriminate|].
  destruct (d_granted d) as [g|] eqn:G; [|discriminate].
  destruct (t <? g + lat * q_batches r) eqn:E; [discriminate|].
  destruct (i_granted _ _ _ _ I g G) as (G1 & G2 & r0 & rest0 & G3 & G4 & G5).
  rewrite B in G3. injection G3 as <- <-.
  pose proof (inv_pending_nodup _ _ I) as ND.
  destruct (q_kind r) as [bs nb|rows] eqn:K.
  - unfold mem_read. destruct ((q_start r <? 0) || (msize (d_mem d) <? q_start r + q_length r)) eqn:E1.
    { intros [= <-]. now apply inv_crash. }
    destruct (q_length r <=? 0) eqn:E2; [intros [= <-]; now apply inv_crash|]. intros [= <-].
    rewrite (i_size _ _ _ _ I) in E1.
    assert (IR : in_range size r) by (unfold in_range; lia).
    assert (RD : is_read r = true) by (unfold is_read; now rewrite K).
    assert (V : forall a, covers r a -> znth false (d_valid d) a = true).
    { pose proof (i_bus _ _ _ _ I) as F. rewrite B in F. inversion F as [|? ? F1 F2]; subst.
      apply (ready_in_range size (d_valid d) r (i_valid _ _ _ _ I) IR ltac:(lia)). auto. }
    destruct I. constructor; proj; auto; rewrite ?completed_app, ?finish_times_app, ?waits_app;
      cbn [completed finish_times waits flat_map app]; rewrite ?B in *.
    + intros a A. specialize (i_mem0 a A). rewrite rev_app_distr. cbn [rev app last_written]. rewrite K. exact i_mem0.
    + intros h1 r1 g1 f1 data h2 H. apply snoc_split in H. destruct H as [(h2' & -> & H)|(-> & H & ->)]; [eauto|].
      injection H as -> -> -> ->. split; [|assumption]. unfold entry_ok. rewrite K.
      repeat (split; [assumption||lia|]). split; [unfold zlen; rewrite length_block; unfold zlen, in_range in *; lia|].
      intros a A. specialize (i_mem0 a). specialize (V a A). unfold covers, in_range in *. specialize (i_mem0 ltac:(lia)).
      destruct (last_written (rev (d_history d)) a) as [v|]; [|destruct i_mem0; congruence].
      exists v. split; [reflexivity|]. destruct i_mem0 as [M _]. rewrite <- M. unfold znth. rewrite nth_block by lia. f_equal. lia.
    + etransitivity; [exact i_place0|]. apply Permutation_app_head, Permutation_app_head. cbn [app].
      etransitivity; [apply Permutation_cons_append|]. now rewrite <- app_assoc.
    + apply Forall_app. split; [assumption|repeat constructor; lia].
    + discriminate.
    + now inversion i_bus0.
    + unfold never_waited in *. proj. rewrite i_order0, filter_app. cbn [filter]. rewrite <- app_assoc. now destruct (existsb (Z.eqb (q_id r)) (d_waited d)).
    + rewrite batches_app. unfold batches at 2. cbn. lia.
    + rewrite zsum_app. cbn. lia.
    + rewrite fold_max_app. cbn. lia.
  - unfold mem_write. destruct ((q_start r <? 0) || (msize (d_mem d) <? q_start r + zlen (concat rows))) eqn:E1.
    { intros [= <-]. now apply inv_crash. }
    rewrite (update_ready_skip _ _ _ ND).
    set (valid := set_valid _ _ _). set (kept := fst _). set (rel := snd _). intros [= <-].
    rewrite (i_size _ _ _ _ I) in E1.
    assert (QL : q_length r = zlen (concat rows)) by (unfold q_length; now rewrite K).
    assert (IR : in_range size r) by (unfold in_range; lia).
    assert (SP : Permutation (d_pending d) (kept ++ rel)) by apply skip_perm.
    pose proof (i_reads _ _ _ _ I) as RS.
    assert (RK : Forall (fun x => is_read x = true /\ In (q_id x) (d_waited d)) (kept ++ rel)).
    { rewrite Forall_forall in *. intros x X. apply RS. eapply Permutation_in; [symmetry; exact SP|exact X]. }
    apply Forall_app in RK. destruct RK as [RK RR].
    assert (NR : filter (never_waited d) rel = []).
    { apply filter_none. apply forallb_forall. intros x X. rewrite Forall_forall in RR. destruct (RR x X) as [_ W].
      unfold never_waited. rewrite negb_involutive. apply existsb_exists. exists (q_id x). split; [assumption|apply Z.eqb_refl]. }
    destruct I. constructor; proj; auto; rewrite ?completed_app, ?finish_times_app, ?waits_app;
      cbn [completed finish_times waits flat_map app]; rewrite ?B in *; auto.
    + rewrite zlen_blit by (try rewrite zlen_map; lia). assumption.
    + unfold valid. now rewrite zlen_set_valid.
    + unfold valid. rewrite QL. apply mem_inv_store; try assumption; [lia|lia|].
      intros a. rewrite rev_app_distr. cbn [rev app last_written]. rewrite K. unfold coversb. rewrite QL. reflexivity.
    + intros h1 r1 g1 f1 data h2 H. apply snoc_split in H. destruct H as [(h2' & -> & H)|(-> & H & ->)]; [eauto|].
      injection H as -> -> -> ->. split; [|assumption]. unfold entry_ok. rewrite K.
      repeat (split; [assumption||lia|]). reflexivity.
    + etransitivity; [exact i_place0|].
      transitivity (d_queue d ++ (kept ++ rel) ++ rest ++ r :: completed (d_history d)).
      * apply Permutation_app_head. apply Permutation_app; [assumption|]. cbn [app]. apply Permutation_middle.
      * rewrite <- (app_assoc (d_queue d) rel). apply Permutation_app_head.
        etransitivity; [apply Permutation_app; [apply Permutation_app_comm|apply Permutation_app_head, Permutation_cons_append]|].
        now rewrite <- !app_assoc.
    + apply Forall_app. split; [assumption|repeat constructor; lia].
    + discriminate.
    + inversion i_bus0 as [|? ? F1 F2]; subst. eapply Forall_impl; [|exact F2]. cbn. intros x X Y. now apply ready_mono, X.
    + unfold never_waited in *. proj. rewrite i_order0, !filter_app. cbn [filter]. rewrite NR, app_nil_r, <- app_assoc. now destruct (existsb (Z.eqb (q_id r)) (d_waited d)).
    + rewrite batches_app. unfold batches at 2. cbn. lia.
    + rewrite zsum_app. cbn. lia.
    + rewrite fold_max_app. cbn. lia.
Qed.

Lemma dreach_inv t d : 0 <= size -> dreach lat size t d -> dinv lat size t d.
Proof.
  intros S R. induction R as [t|t t' a d d' R IH T H]; [now apply inv_init|].
  apply (inv_time t t' d T) in IH. unfold dstep in H. destruct (d_crash d); [discriminate|]. destruct a.
  - eapply inv_preload; eassumption.
  - injection H as <-. now apply inv_submit.
  - eapply inv_handle; eassumption.
  - eapply inv_grant; eassumption.
  - eapply inv_finish; eassumption.
  - injection H as <-. now apply inv_stop.
Qed.
End Inv.

(** ** C31, C32 *)
Lemma last_written_stores : forall h a v, last_written h a = Some v -> exists e, In e h /\ stores e a.
Proof.
  induction h as [|e h IH]; intros a v; cbn [last_written]; [discriminate|].
  assert (REC : last_written h a = Some v -> exists e0, In e0 (e :: h) /\ stores e0 a).
  { intros H. destruct (IH _ _ H) as (e0 & I & S). exists e0. split; [now right|assumption]. }
  destruct e as [vals|r g f data].
  - destruct ((0 <=? a) && (a <? zlen vals)) eqn:E; [|exact REC]. intros _. eexists. split; [now left|]. cbn. lia.
  - destruct (q_kind r) eqn:K; [exact REC|]. destruct (coversb r a) eqn:E; [|exact REC].
    intros _. eexists. split; [now left|]. cbn. unfold is_read, covers, coversb in *. rewrite K. split; [reflexivity|lia].
Qed.

Lemma no_store_last_written : forall h a, last_written h a = None -> forall e, In e h -> ~ stores e a.
Proof.
  induction h as [|e h IH]; intros a; cbn [last_written In]; [tauto|].
  intros H e0 [<-|I] S.
  - destruct e as [vals|r g f data]; cbn in S.
    + replace ((0 <=? a) && (a <? zlen vals)) with true in H by lia. discriminate.
    + destruct S as [S1 S2]. unfold is_read, covers, coversb in *. destruct (q_kind r); [discriminate|].
      replace ((q_start r <=? a) && (a <? q_start r + q_length r)) with true in H by lia. discriminate.
  - apply (IH a) with (e := e0); auto. destruct e as [vals|r g f data].
    + destruct ((0 <=? a) && (a <? zlen vals)); [discriminate|assumption].
    + destruct (q_kind r); [assumption|]. destruct (coversb r a); [discriminate|assumption].
Qed.

Section Results.
Variables (lat size : Z).
Hypothesis SZ : 0 <= size.

Lemma read_was_stored t d h1 r g f data h2 a : dreach lat size t d -> d_history d = h1 ++ EDone r g f data :: h2 ->
  is_read r = true -> covers r a -> exists e, In e h1 /\ stores e a.
Proof.
  intros R H RD C. destruct (i_hist _ _ _ _ (dreach_inv lat size t d SZ R) _ _ _ _ _ _ H) as [E _].
  destruct E as (_ & _ & _ & _ & _ & E). unfold is_read in RD. destruct (q_kind r); [|discriminate].
  destruct E as (_ & _ & E). destruct (E a C) as (v & V & _). destruct (last_written_stores _ _ _ V) as (e & I & S).
  exists e. split; [now apply in_rev|assumption].
Qed.

Lemma flag_iff_stored t d a : dreach lat size t d -> 0 <= a < size ->
  (znth false (d_valid d) a = true <-> exists e, In e (d_history d) /\ stores e a).
Proof.
  intros R A. pose proof (i_mem _ _ _ _ (dreach_inv lat size t d SZ R) a A) as M.
  destruct (last_written (rev (d_history d)) a) as [v|] eqn:E; destruct M as [_ M]; rewrite M; split; auto; intros H.
  - destruct (last_written_stores _ _ _ E) as (e & I & S). exists e. split; [now apply in_rev|assumption].
  - discriminate.
  - destruct H as (e & I & S). exfalso. apply in_rev in I. exact (no_store_last_written _ _ E e I S).
Qed.

Lemma read_value t d h1 r g f data h2 : dreach lat size t d -> d_history d = h1 ++ EDone r g f data :: h2 -> is_read r = true ->
  zlen data = q_length r /\
  forall a, covers r a -> exists v, last_written (rev h1) a = Some v /\ is_int32_of (znth 0 data (a - q_start r)) v.
Proof.
  intros R H RD. destruct (i_hist _ _ _ _ (dreach_inv lat size t d SZ R) _ _ _ _ _ _ H) as [E _].
  destruct E as (_ & _ & _ & _ & _ & E). unfold is_read in RD. destruct (q_kind r); [|discriminate].
  destruct E as (_ & L & E). split; [assumption|]. intros a C. destruct (E a C) as (v & V & W). exists v. split; [assumption|].
  rewrite W. apply wrap32_is_int32_of.
Qed.

Lemma cell_value t d a : dreach lat size t d -> 0 <= a < size ->
  match last_written (rev (d_history d)) a with
  | Some v => is_int32_of (znth 0 (cells (d_mem d)) a) v
  | None => znth 0 (cells (d_mem d)) a = 0
  end.
Proof.
  intros R A. pose proof (i_mem _ _ _ _ (dreach_inv lat size t d SZ R) a A) as M.
  destruct (last_written (rev (d_history d)) a) as [v|]; destruct M as [M _]; rewrite M; [apply wrap32_is_int32_of|reflexivity].
Qed.

Lemma completion_times t d h1 r g f data h2 : dreach lat size t d -> d_history d = h1 ++ EDone r g f data :: h2 ->
  In r (d_submitted d) /\ q_time r <= g /\ g <= f /\ f <= t.
Proof.
  intros R H. pose proof (dreach_inv lat size t d SZ R) as I.
  destruct (i_hist _ _ _ _ I _ _ _ _ _ _ H) as [E _].
  destruct E as (_ & T1 & T2 & T3 & T4 & _). repeat split; try lia.
  eapply Permutation_in; [symmetry; exact (i_place _ _ _ _ I)|]. rewrite H, completed_app.
  do 4 (apply in_or_app; right). cbn. now left.
Qed.

Lemma bus_intervals t d h1 r1 g1 f1 x1 h2 r2 g2 f2 x2 h3 : dreach lat size t d ->
  d_history d = h1 ++ EDone r1 g1 f1 x1 :: h2 ++ EDone r2 g2 f2 x2 :: h3 -> f1 <= g2.
Proof.
  intros R H. assert (E : d_history d = (h1 ++ EDone r1 g1 f1 x1 :: h2) ++ EDone r2 g2 f2 x2 :: h3) by (now rewrite <- app_assoc).
  destruct (i_hist _ _ _ _ (dreach_inv lat size t d SZ R) _ _ _ _ _ _ E) as [_ F].
  rewrite finish_times_app in F. apply Forall_app in F. destruct F as [_ F]. cbn in F. now inversion F.
Qed.

Lemma real_time_order t d h1 r1 g1 f1 x1 h2 r2 g2 f2 x2 h3 : dreach lat size t d ->
  d_history d = h1 ++ EDone r1 g1 f1 x1 :: h2 ++ EDone r2 g2 f2 x2 :: h3 -> q_time r1 <= f2.
Proof.
  intros R H. pose proof (bus_intervals _ _ _ _ _ _ _ _ _ _ _ _ _ R H).
  destruct (completion_times _ _ _ _ _ _ _ _ R H) as (_ & A & B & _).
  assert (E : d_history d = (h1 ++ EDone r1 g1 f1 x1 :: h2) ++ EDone r2 g2 f2 x2 :: h3) by (now rewrite <- app_assoc).
  destruct (completion_times _ _ _ _ _ _ _ _ R E) as (_ & C & D & _). lia.
Qed.

(** ** C33 *)
Lemma places t d : dreach lat size t d ->
  Permutation (d_submitted d) (d_queue d ++ d_pending d ++ d_bus d ++ completed (d_history d)) /\
  NoDup (map q_id (d_queue d ++ d_pending d ++ d_bus d ++ completed (d_history d))).
Proof.
  intros R. pose proof (dreach_inv lat size t d SZ R) as I. split; [exact (i_place _ _ _ _ I)|exact (inv_places_nodup _ _ _ _ I)].
Qed.

(** ** C34 *)
Lemma latency_kept t d h1 r g f data h2 : dreach lat size t d -> d_history d = h1 ++ EDone r g f data :: h2 ->
  g + lat * q_batches r <= f.
Proof. intros R H. destruct (i_hist _ _ _ _ (dreach_inv lat size t d SZ R) _ _ _ _ _ _ H) as [(_ & _ & _ & E & _) _]. exact E. Qed.

Lemma fcfs t d : dreach lat size t d ->
  filter (never_waited d) (d_submitted d) =
  filter (never_waited d) (completed (d_history d)) ++ filter (never_waited d) (d_bus d) ++ filter (never_waited d) (d_queue d).
Proof. intros R. exact (i_order _ _ _ _ (dreach_inv lat size t d SZ R)). Qed.

Lemma operating t d : dreach lat size t d -> operating_time (d_stat d) = lat * zsum (map q_batches (completed (d_history d))).
Proof.
  intros R. rewrite (i_op _ _ _ _ (dreach_inv lat size t d SZ R)). unfold batches. do 3 f_equal.
  induction (completed (d_history d)) as [|x l IH]; cbn; [reflexivity|now rewrite IH].
Qed.

(** ** C38 *)
Lemma filter_all {A} (l : list A) : filter (fun _ => true) l = l.
Proof. induction l as [|x l IH]; cbn; [reflexivity|now rewrite IH]. Qed.

Lemma counters t d : dreach lat size t d ->
  read_requests (d_stat d) = zsum (map q_batches (filter is_read (d_submitted d))) /\
  write_requests (d_stat d) = zsum (map q_batches (filter (fun r => negb (is_read r)) (d_submitted d))) /\
  total_requests (d_stat d) = zsum (map q_batches (d_submitted d)) /\
  total_requests (d_stat d) = read_requests (d_stat d) + write_requests (d_stat d).
Proof.
  intros R. pose proof (dreach_inv lat size t d SZ R) as I.
  rewrite (i_rd _ _ _ _ I), (i_wr _ _ _ _ I), (i_tot _ _ _ _ I). unfold batches. rewrite filter_all.
  repeat split. clear I. unfold zsum. induction (d_submitted d) as [|x l IH]; cbn; [reflexivity|]. destruct (is_read x); cbn; lia.
Qed.

Lemma waits_nonneg t d : dreach lat size t d -> Forall (fun w => 0 <= w) (waits (d_history d)).
Proof.
  intros R. apply Forall_forall. intros w W. unfold waits in W. apply in_flat_map in W. destruct W as (e & E & W).
  destruct e as [|r g f data]; [destruct W|]. destruct W as [<-|[]].
  apply in_split in E. destruct E as (h1 & h2 & E). destruct (completion_times _ _ _ _ _ _ _ _ R E) as (_ & A & B & _). lia.
Qed.

Lemma max_bound l : Forall (fun w => w <= fold_right Z.max 0 l) l.
Proof.
  apply Forall_forall. induction l as [|x l IH]; cbn; [tauto|]. intros w [->|W]; [lia|]. specialize (IH w W). lia.
Qed.

Lemma max_in l : fold_right Z.max 0 l = 0 \/ In (fold_right Z.max 0 l) l.
Proof.
  induction l as [|x l IH]; cbn; [now left|].
  destruct (Z.max_spec x (fold_right Z.max 0 l)) as [[_ ->]|[_ ->]]; [tauto|right; now left].
Qed.

Lemma sum_le_max l : zsum l <= zlen l * fold_right Z.max 0 l.
Proof.
  assert (G : forall m, Forall (fun w => w <= m) l -> zsum l <= zlen l * m).
  { intros m F. induction F as [|x k H F IH]; [cbn; lia|].
    change (zsum (x :: k)) with (x + zsum k). unfold zlen in *. cbn [length]. rewrite Nat2Z.inj_succ, Z.mul_succ_l. lia. }
  apply G, max_bound.
Qed.

Lemma wait_stats t d : dreach lat size t d ->
  total_wait_time (d_stat d) = zsum (waits (d_history d)) /\ 0 <= total_wait_time (d_stat d) /\
  (forall w, In w (waits (d_history d)) -> 0 <= w <= max_wait_time (d_stat d)) /\
  (max_wait_time (d_stat d) = 0 \/ In (max_wait_time (d_stat d)) (waits (d_history d))) /\
  total_wait_time (d_stat d) <= zlen (completed (d_history d)) * max_wait_time (d_stat d).
Proof.
  intros R. pose proof (dreach_inv lat size t d SZ R) as I. pose proof (waits_nonneg _ _ R) as W.
  rewrite (i_wait _ _ _ _ I), (i_max _ _ _ _ I). split; [reflexivity|]. split; [now apply zsum_nonneg|]. split.
  { intros w H. rewrite Forall_forall in W. specialize (W w H). pose proof (max_bound (waits (d_history d))) as M.
    rewrite Forall_forall in M. specialize (M w H). lia. }
  split; [apply max_in|].
  replace (zlen (completed (d_history d))) with (zlen (waits (d_history d))); [apply sum_le_max|].
  unfold zlen. f_equal. clear. unfold waits, completed. induction (d_history d) as [|e h IH]; [reflexivity|]. destruct e; cbn [flat_map app length]; [assumption|now rewrite IH].
Qed.

(** ** C37 *)
Lemma completed_in_range t d h1 r g f data h2 : dreach lat size t d -> d_history d = h1 ++ EDone r g f data :: h2 ->
  in_range size r.
Proof. intros R H. destruct (i_hist _ _ _ _ (dreach_inv lat size t d SZ R) _ _ _ _ _ _ H) as [(E & _) _]. exact E. Qed.

Lemma out_of_range_fails t t' d r rest d' : dreach lat size t d -> d_bus d = r :: rest -> ~ in_range size r ->
  dc_finish lat t' d = Some d' ->
  d_crash d' = Some IndexError /\ d_mem d' = d_mem d /\ d_valid d' = d_valid d /\ d_history d' = d_history d.
Proof.
  intros R B N H. pose proof (dreach_inv lat size t d SZ R) as I. unfold dc_finish in H. rewrite B in H.
  destruct (d_granted d) as [g|]; [|discriminate]. destruct (t' <? g + lat * q_batches r); [discriminate|].
  unfold in_range in N. unfold mem_read, mem_write in H. rewrite (i_size _ _ _ _ I) in H. unfold q_length in *.
  destruct (q_kind r) as [bs nb|rows].
  - replace ((q_start r <? 0) || (size <? q_start r + bs * nb)) with true in H by lia. injection H as <-. cbn. auto.
  - replace ((q_start r <? 0) || (size <? q_start r + zlen (concat rows))) with true in H by lia. injection H as <-. cbn. auto.
Qed.

Lemma beyond_ready t d r : dreach lat size t d -> size <= q_start r -> 0 <= q_length r -> ready (d_valid d) r = true.
Proof.
  intros R H L. pose proof (dreach_inv lat size t d SZ R) as I. apply ready_spec. rewrite (i_valid _ _ _ _ I).
  unfold slice_bound. intros a A. exfalso. destruct (q_start r <? 0) eqn:E1, (q_start r + q_length r <? 0) eqn:E2; lia.
Qed.

Lemma partly_beyond_ready t d r : dreach lat size t d -> 0 <= q_start r -> size <= q_start r + q_length r ->
  (ready (d_valid d) r = true <-> all_valid (d_valid d) r).
Proof.
  intros R H L. pose proof (dreach_inv lat size t d SZ R) as I. rewrite ready_spec. unfold all_valid, covers. rewrite (i_valid _ _ _ _ I).
  unfold slice_bound. destruct (q_start r <? 0) eqn:E1, (q_start r + q_length r <? 0) eqn:E2; try lia.
  split; intros V a A; [intros B|]; apply V; lia.
Qed.
End Results.
