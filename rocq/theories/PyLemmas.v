(** Lemmas about PyBase. *)
From Verif Require Import PyBase.
From Coq Require Import ZifyBool ZifyNat.
Ltac Zify.zify_post_hook ::= Z.div_mod_to_equations.

Lemma wrap32_int32 z : int32 (wrap32 z).
Proof. unfold int32, wrap32. lia. Qed.

Lemma wrap32_id z : int32 z -> wrap32 z = z.
Proof. unfold int32, wrap32. lia. Qed.

Lemma wrap32_idem z : wrap32 (wrap32 z) = wrap32 z.
Proof. apply wrap32_id, wrap32_int32. Qed.

Lemma wrap32_eq_mod a b : a mod 4294967296 = b mod 4294967296 -> wrap32 a = wrap32 b.
Proof.
  unfold wrap32. intros H.
  rewrite (Z.add_mod a), (Z.add_mod b) by lia. rewrite H. reflexivity.
Qed.

Lemma wrap32_mod z : wrap32 z mod 4294967296 = z mod 4294967296.
Proof. unfold wrap32. lia. Qed.

Lemma wrap32_add_r a b : wrap32 (a + wrap32 b) = wrap32 (a + b).
Proof.
  apply wrap32_eq_mod.
  rewrite Z.add_mod by lia. rewrite wrap32_mod. rewrite <- Z.add_mod by lia. reflexivity.
Qed.

Lemma int32b_spec z : int32b z = true <-> int32 z.
Proof. unfold int32b, int32. lia. Qed.

Lemma clipZ_range lo hi x : lo <= hi -> lo <= clipZ lo hi x <= hi.
Proof. unfold clipZ. lia. Qed.

Lemma clipZ_id lo hi x : lo <= x <= hi -> clipZ lo hi x = x.
Proof. unfold clipZ. lia. Qed.

Section Lists.
Context {A : Type}.
Implicit Types (l v : list A) (d : A).

Lemma zlen_nonneg l : 0 <= zlen l.
Proof. unfold zlen. lia. Qed.

Lemma length_block l s n :
  0 <= s -> 0 <= n -> s + n <= zlen l -> length (block l s n) = Z.to_nat n.
Proof. unfold block, zlen. intros. rewrite firstn_length, skipn_length. lia. Qed.

Lemma nth_firstn d l n i : (i < n)%nat -> nth i (firstn n l) d = nth i l d.
Proof.
  revert l i; induction n as [|n IH]; intros l i Hi; [lia|].
  destruct l as [|x l]; [now destruct i|].
  destruct i as [|i]; cbn; [reflexivity|]. apply IH. lia.
Qed.

Lemma nth_skipn d l n i : nth i (skipn n l) d = nth (n + i) l d.
Proof.
  revert l; induction n as [|n IH]; intros l; [reflexivity|].
  destruct l as [|x l]; cbn; [now destruct i|]. apply IH.
Qed.

Lemma nth_block d l s n i :
  0 <= s -> (i < Z.to_nat n)%nat ->
  nth i (block l s n) d = nth (Z.to_nat s + i) l d.
Proof. intros. unfold block. rewrite nth_firstn by lia. apply nth_skipn. Qed.

Lemma length_blit l s v :
  0 <= s -> s + zlen v <= zlen l -> length (blit l s v) = length l.
Proof.
  unfold blit, zlen. intros.
  rewrite !app_length, firstn_length, skipn_length. lia.
Qed.

Lemma zlen_blit l s v :
  0 <= s -> s + zlen v <= zlen l -> zlen (blit l s v) = zlen l.
Proof. intros. unfold zlen at 1. rewrite length_blit by assumption. reflexivity. Qed.

Lemma nth_blit d l s v i :
  0 <= s -> s + zlen v <= zlen l ->
  nth i (blit l s v) d =
  if (Z.to_nat s <=? i)%nat && (i <? Z.to_nat s + length v)%nat
  then nth (i - Z.to_nat s) v d else nth i l d.
Proof.
  unfold blit, zlen. intros Hs Hl.
  destruct (Nat.leb_spec (Z.to_nat s) i) as [H1|H1]; cbn [andb].
  - rewrite app_nth2; rewrite firstn_length; [|lia].
    replace (i - Nat.min (Z.to_nat s) (length l))%nat with (i - Z.to_nat s)%nat by lia.
    destruct (Nat.ltb_spec i (Z.to_nat s + length v)) as [H2|H2].
    + rewrite app_nth1; [reflexivity|lia].
    + rewrite app_nth2; [|lia]. rewrite nth_skipn. f_equal. lia.
  - rewrite app_nth1; [|rewrite firstn_length; lia]. apply nth_firstn. lia.
Qed.

Lemma znth_blit d l s v i :
  0 <= s -> s + zlen v <= zlen l -> 0 <= i ->
  znth d (blit l s v) i =
  if (s <=? i) && (i <? s + zlen v) then znth d v (i - s) else znth d l i.
Proof.
  intros Hs Hl Hi. unfold znth. rewrite nth_blit by assumption. unfold zlen in *.
  destruct (Z.leb_spec s i), (Nat.leb_spec (Z.to_nat s) (Z.to_nat i)); try lia; cbn [andb]; [|reflexivity].
  destruct (Z.ltb_spec i (s + Z.of_nat (length v))), (Nat.ltb_spec (Z.to_nat i) (Z.to_nat s + length v));
    try lia; [|reflexivity].
  f_equal. lia.
Qed.

Lemma length_upd l i x : length (upd l i x) = length l.
Proof. revert i; induction l as [|h t IH]; intros [|i]; cbn; auto. Qed.

Lemma nth_upd d l i x j :
  (i < length l)%nat -> nth j (upd l i x) d = if (j =? i)%nat then x else nth j l d.
Proof.
  revert i j; induction l as [|h t IH]; intros i j Hi; cbn in Hi; [lia|].
  destruct i as [|i], j as [|j]; cbn; try reflexivity. apply IH. lia.
Qed.

Lemma nth_upd_oob l i x : (length l <= i)%nat -> upd l i x = l.
Proof.
  revert i; induction l as [|h t IH]; intros i Hi; [reflexivity|].
  destruct i as [|i]; cbn in *; [lia|]. f_equal. apply IH. lia.
Qed.

Lemma list_ext d l1 l2 :
  length l1 = length l2 ->
  (forall i, (i < length l1)%nat -> nth i l1 d = nth i l2 d) -> l1 = l2.
Proof. intros Hl H. apply nth_ext with (d := d) (d' := d); auto. Qed.

Lemma nth_error_upd l i x j :
  nth_error (upd l i x) j =
  if (i =? j)%nat then (match nth_error l j with Some _ => Some x | None => None end)
  else nth_error l j.
Proof.
  revert i j; induction l as [|h t IH]; intros i j.
  - destruct i, j; cbn; try reflexivity; now destruct (Nat.eqb _ _).
  - destruct i as [|i], j as [|j]; cbn; try reflexivity. apply IH.
Qed.

Lemma upd_nth_self d l i : upd l i (nth i l d) = l.
Proof.
  revert i; induction l as [|h t IH]; intros [|i]; cbn; try reflexivity. f_equal. apply IH.
Qed.

Lemma upd_upd l i x y : upd (upd l i x) i y = upd l i y.
Proof. revert i; induction l as [|h t IH]; intros [|i]; cbn; try reflexivity. f_equal. apply IH. Qed.

Lemma Forall_upd (P : A -> Prop) l i x : Forall P l -> P x -> Forall P (upd l i x).
Proof.
  intros Hl Hx; revert i; induction Hl as [|h t Hh Ht IH]; intros [|i]; cbn; constructor; auto.
Qed.

Lemma Forall_firstn (P : A -> Prop) l n : Forall P l -> Forall P (firstn n l).
Proof.
  revert l; induction n as [|n IH]; intros l H; cbn; [constructor|].
  destruct H; constructor; auto.
Qed.

Lemma Forall_skipn (P : A -> Prop) l n : Forall P l -> Forall P (skipn n l).
Proof.
  revert l; induction n as [|n IH]; intros l H; cbn; [assumption|].
  destruct H; [constructor|auto].
Qed.

Lemma Forall_blit (P : A -> Prop) l s v : Forall P l -> Forall P v -> Forall P (blit l s v).
Proof.
  intros. unfold blit. rewrite !Forall_app. split; [now apply Forall_firstn|].
  split; [assumption|now apply Forall_skipn].
Qed.

Lemma Forall_block (P : A -> Prop) l s n : Forall P l -> Forall P (block l s n).
Proof. intros. unfold block. now apply Forall_firstn, Forall_skipn. Qed.

Lemma Forall_nth_ok (P : A -> Prop) d l i : Forall P l -> P d -> P (nth i l d).
Proof.
  intros H Hd. revert i; induction H; intros [|i]; cbn; auto.
Qed.
End Lists.

Lemma length_zrange n : length (zrange n) = Z.to_nat n.
Proof. unfold zrange. now rewrite map_length, seq_length. Qed.

Lemma nth_zrange n i d : (i < Z.to_nat n)%nat -> nth i (zrange n) d = Z.of_nat i.
Proof.
  intros H. unfold zrange.
  rewrite (nth_indep _ d (Z.of_nat 0)) by (rewrite map_length, seq_length; lia).
  rewrite map_nth. rewrite seq_nth by lia. reflexivity.
Qed.

Lemma nth_map_zrange {A} (f : Z -> A) n i d :
  (i < Z.to_nat n)%nat -> nth i (map f (zrange n)) d = f (Z.of_nat i).
Proof.
  intros H. rewrite (nth_indep _ d (f 0)) by (rewrite map_length, length_zrange; lia).
  rewrite map_nth. f_equal. now apply nth_zrange.
Qed.

Lemma in_zrange n x : In x (zrange n) <-> 0 <= x < n.
Proof.
  unfold zrange. rewrite in_map_iff. split.
  - intros (k & <- & Hk). apply in_seq in Hk. lia.
  - intros H. exists (Z.to_nat x). rewrite in_seq. lia.
Qed.

Lemma zsum_app a b : zsum (a ++ b) = zsum a + zsum b.
Proof. unfold zsum. induction a as [|x a IH]; cbn [app fold_right]; lia. Qed.

Lemma zsum_nonneg l : Forall (fun x => 0 <= x) l -> 0 <= zsum l.
Proof. induction 1; cbn; [lia|]. unfold zsum in *. lia. Qed.

Lemma fold_left_zsum l a : fold_left Z.add l a = a + zsum l.
Proof.
  revert a; induction l as [|x l IH]; intros a; cbn [fold_left]; [cbn; lia|].
  rewrite IH. cbn. unfold zsum. lia.
Qed.

(** Two lists of results built by map over the same index range are equal pointwise. *)
Lemma block_map_zrange {A} (d : A) l s n :
  0 <= s -> 0 <= n -> s + n <= zlen l ->
  block l s n = map (fun i => znth d l (s + i)) (zrange n).
Proof.
  intros Hs Hn Hl. apply (list_ext d).
  - rewrite length_block by assumption. now rewrite map_length, length_zrange.
  - intros i Hi. rewrite length_block in Hi by assumption.
    rewrite nth_block by lia. rewrite nth_map_zrange by lia. unfold znth. f_equal. lia.
Qed.

Lemma block_full {A} (l : list A) n : n = zlen l -> block l 0 n = l.
Proof.
  intros ->. unfold block, zlen. cbn [Z.to_nat skipn]. rewrite Nat2Z.id. apply firstn_all.
Qed.

Lemma nth_repeat_lt {A} (x d : A) n i : (i < n)%nat -> nth i (repeat x n) d = x.
Proof. revert i; induction n as [|n IH]; intros [|i] H; cbn; try lia; auto. apply IH; lia. Qed.
