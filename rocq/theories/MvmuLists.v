(** List facts used by the matrix unit proofs: ranks in filtered lists, scattered assignment,
    element-wise maps with exceptions. *)
From Verif Require Import PyBase PyLemmas MemoryModel MvmuModel.
From Coq Require Import ZifyBool ZifyNat.
Ltac Zify.zify_post_hook ::= Z.div_mod_to_equations.

Section Rank.
Context {A : Type}.
Implicit Types (p : A -> bool) (l : list A).

(** Number of elements satisfying p before position k. *)
Definition rank p l (k : nat) : nat := length (filter p (firstn k l)).

Lemma rank_S p x l k : rank p (x :: l) (S k) = ((if p x then 1 else 0) + rank p l k)%nat.
Proof. unfold rank. cbn. destruct (p x); cbn; lia. Qed.
Lemma rank_0 p l : rank p l 0 = 0%nat. Proof. reflexivity. Qed.

Lemma rank_lt p l k d : (k < length l)%nat -> p (nth k l d) = true -> (rank p l k < length (filter p l))%nat.
Proof.
  revert k; induction l as [|x l IH]; intros k Hk Hp; cbn in Hk; [lia|].
  destruct k as [|k].
  - rewrite rank_0. cbn in *. rewrite Hp. cbn. lia.
  - rewrite rank_S. cbn in Hp. specialize (IH k ltac:(lia) Hp). cbn [filter]. destruct (p x); cbn [length]; lia.
Qed.

Lemma nth_filter_rank p l k d : (k < length l)%nat -> p (nth k l d) = true ->
  nth (rank p l k) (filter p l) d = nth k l d.
Proof.
  revert k; induction l as [|x l IH]; intros k Hk Hp; cbn in Hk; [lia|].
  destruct k as [|k].
  - rewrite rank_0. cbn in *. now rewrite Hp.
  - rewrite rank_S. cbn in Hp. specialize (IH k ltac:(lia) Hp). cbn [filter nth]. destruct (p x); exact IH.
Qed.

(** Picking by an option-valued function. *)
Lemma nth_flat_rank {B} (f : A -> list B) p l k d e y :
  (forall x, In x l -> p x = true -> exists y, f x = [y]) -> (forall x, In x l -> p x = false -> f x = []) ->
  (k < length l)%nat -> p (nth k l d) = true -> f (nth k l d) = [y] ->
  nth (rank p l k) (flat_map f l) e = y.
Proof.
  revert k; induction l as [|x l IH]; intros k Ht Hf Hk Hp Hy; cbn in Hk; [lia|].
  destruct k as [|k].
  - rewrite rank_0. cbn [flat_map]. cbn [nth] in *. rewrite Hy. reflexivity.
  - rewrite rank_S. cbn [nth] in Hp, Hy.
    specialize (IH k ltac:(intros; apply Ht; [now right|assumption]) ltac:(intros; apply Hf; [now right|assumption])
                  ltac:(lia) Hp Hy).
    cbn [flat_map]. destruct (p x) eqn:E.
    + destruct (Ht x ltac:(now left) E) as (z & ->). exact IH.
    + rewrite (Hf x ltac:(now left) E). exact IH.
Qed.

Lemma length_flat {B} (f : A -> list B) p l :
  (forall x, In x l -> p x = true -> exists y, f x = [y]) -> (forall x, In x l -> p x = false -> f x = []) ->
  length (flat_map f l) = length (filter p l).
Proof.
  intros Ht Hf. induction l as [|x l IH]; [reflexivity|]. cbn [flat_map filter]. rewrite app_length.
  rewrite IH; [|intros; apply Ht; [now right|assumption]|intros; apply Hf; [now right|assumption]].
  destruct (p x) eqn:E.
  - destruct (Ht x ltac:(now left) E) as (z & ->). reflexivity.
  - now rewrite (Hf x ltac:(now left) E).
Qed.
End Rank.

Lemma rank_map {A B} (f : A -> B) p l k : rank p (map f l) k = rank (fun x => p (f x)) l k.
Proof.
  revert k; induction l as [|x l IH]; intros [|k]; cbn [map]; try reflexivity. now rewrite !rank_S, IH.
Qed.

Lemma rank_ext {A} (p q : A -> bool) l k : (forall x, p x = q x) -> rank p l k = rank q l k.
Proof. intros H. unfold rank. f_equal. apply filter_ext. assumption. Qed.

(** Positions satisfying a predicate: the element at the rank of k is k itself. *)
Lemma nth_positions {A} (p : A -> bool) l d (g : Z -> bool) k :
  (forall i, 0 <= i < zlen l -> g i = p (nth (Z.to_nat i) l d)) ->
  (k < length l)%nat -> p (nth k l d) = true ->
  nth (rank p l k) (filter g (zrange (zlen l))) 0 = Z.of_nat k.
Proof.
  intros Hg Hk Hp.
  assert (R : rank p l k = rank g (zrange (zlen l)) k).
  { unfold zrange, zlen in *. rewrite Nat2Z.id in *.
    assert (K : forall (l : list A) a k, (forall i, (i < length l)%nat -> g (Z.of_nat (a + i)) = p (nth i l d)) ->
              rank p l k = rank g (map Z.of_nat (seq a (length l))) k).
    { clear. induction l as [|x l IH]; intros a k H; [unfold rank; now rewrite !firstn_nil|].
      destruct k as [|k]; [reflexivity|]. cbn [length seq map]. rewrite !rank_S. f_equal.
      - specialize (H 0%nat ltac:(cbn [length]; lia)). rewrite Nat.add_0_r in H. rewrite H. reflexivity.
      - apply IH. intros i Hi. specialize (H (S i) ltac:(cbn [length]; lia)). cbn [nth] in H. rewrite <- H.
        f_equal. lia. }
    apply K. intros i Hi. rewrite Hg by lia. now rewrite Nat2Z.id. }
  rewrite R. rewrite nth_filter_rank.
  - now rewrite nth_zrange by (unfold zlen; lia).
  - rewrite length_zrange. unfold zlen. lia.
  - rewrite nth_zrange by (unfold zlen; lia). rewrite Hg by (unfold zlen; lia). now rewrite Nat2Z.id.
Qed.

(** ** Assignment at a list of indices *)
Lemma length_scatter_gen {A B} (h : B -> A) idx vals (regs : list A) :
  length (fold_left (fun rs iv => upd rs (Z.to_nat (fst iv)) (h (snd iv))) (combine idx vals) regs) = length regs.
Proof.
  revert vals regs; induction idx as [|i idx IH]; intros [|v vals] regs; cbn; try reflexivity.
  rewrite IH. apply length_upd.
Qed.

Lemma scatter_out {A B} (h : B -> A) idx vals (regs : list A) r d :
  ~ In (Z.of_nat r) idx -> Forall (fun i => 0 <= i < zlen regs) idx ->
  nth r (fold_left (fun rs iv => upd rs (Z.to_nat (fst iv)) (h (snd iv))) (combine idx vals) regs) d = nth r regs d.
Proof.
  revert vals regs; induction idx as [|i idx IH]; intros [|v vals] regs Hn Hr; cbn; try reflexivity.
  inversion Hr as [|? ? Hi Hr']; subst. cbn in Hn. unfold zlen in *.
  rewrite IH.
  - rewrite nth_upd by lia. destruct (Nat.eqb_spec r (Z.to_nat i)) as [E|E]; [|reflexivity].
    exfalso. apply Hn. left. lia.
  - tauto.
  - rewrite length_upd. assumption.
Qed.

Lemma scatter_in {A B} (h : B -> A) idx vals (regs : list A) m d e :
  NoDup idx -> Forall (fun i => 0 <= i < zlen regs) idx -> length vals = length idx -> (m < length idx)%nat ->
  nth (Z.to_nat (nth m idx 0))
    (fold_left (fun rs iv => upd rs (Z.to_nat (fst iv)) (h (snd iv))) (combine idx vals) regs) d = h (nth m vals e).
Proof.
  revert vals regs m; induction idx as [|i idx IH]; intros [|v vals] regs m Hn Hr Hl Hm; cbn in *; try lia.
  inversion Hn as [|? ? Hi Hn']; subst. inversion Hr as [|? ? Hri Hr']; subst.
  assert (Hr2 : Forall (fun i0 => 0 <= i0 < zlen (upd regs (Z.to_nat i) (h v))) idx)
    by (unfold zlen; rewrite length_upd; exact Hr').
  destruct m as [|m].
  - rewrite scatter_out; [|rewrite Z2Nat.id by lia; exact Hi|exact Hr2].
    unfold zlen in *. rewrite nth_upd by lia. rewrite Nat.eqb_refl. reflexivity.
  - apply IH; try assumption; lia.
Qed.

(** ** Element-wise maps *)
Lemma map_res_ok {A B} (f : A -> res B) l l' : map_res f l = Ok l' -> Forall2 (fun x y => f x = Ok y) l l'.
Proof.
  revert l'; induction l as [|x l IH]; intros l'; cbn [map_res].
  - intros [= <-]. constructor.
  - destruct (f x) as [y|e] eqn:E; [|discriminate]. destruct (map_res f l) as [ys|e]; [|discriminate].
    intros [= <-]. constructor; auto.
Qed.

Lemma map_res_total {A B} (f : A -> res B) l :
  Forall (fun x => exists y, f x = Ok y) l -> exists l', map_res f l = Ok l'.
Proof.
  induction 1 as [|x l (y & Hy) _ (l' & IH)]; cbn [map_res]; [eexists; reflexivity|].
  rewrite Hy, IH. eexists; reflexivity.
Qed.

Lemma Forall2_nth {A B} (P : A -> B -> Prop) l l' i d e :
  Forall2 P l l' -> (i < length l)%nat -> P (nth i l d) (nth i l' e).
Proof. intros H; revert i; induction H; intros [|i] Hi; cbn in *; try lia; auto. apply IHForall2; lia. Qed.

Lemma Forall2_len {A B} (P : A -> B -> Prop) l l' : Forall2 P l l' -> length l = length l'.
Proof. induction 1; cbn; congruence. Qed.

Lemma Forall2_map_r {A B C} (P : A -> C -> Prop) (f : B -> C) l l' :
  Forall2 P l (map f l') <-> Forall2 (fun x y => P x (f y)) l l'.
Proof.
  split.
  - revert l; induction l' as [|y l' IH]; intros l H; inversion H; subst; constructor; auto.
  - induction 1; cbn; constructor; auto.
Qed.

Lemma Forall2_map_l {A B C} (P : C -> B -> Prop) (f : A -> C) l l' :
  Forall2 P (map f l) l' <-> Forall2 (fun x y => P (f x) y) l l'.
Proof.
  split.
  - revert l'; induction l as [|y l IH]; intros l' H; inversion H; subst; constructor; auto.
  - induction 1; cbn; constructor; auto.
Qed.

Lemma Forall2_impl {A B} (P Q : A -> B -> Prop) l l' :
  (forall x y, P x y -> Q x y) -> Forall2 P l l' -> Forall2 Q l l'.
Proof. intros H; induction 1; constructor; auto. Qed.

(** Zipping a matrix with a matrix related to it element by element. *)
Lemma zip2d_rel {A B C} (f : A -> B -> C) (P : A -> B -> Prop) (Q : A -> C -> Prop) m1 m2 :
  (forall a b, P a b -> Q a (f a b)) -> Forall2 (Forall2 P) m1 m2 -> Forall2 (Forall2 Q) m1 (zip2d f m1 m2).
Proof.
  intros H. unfold zip2d. induction 1 as [|r1 r2 m1 m2 Hr Hm IH]; cbn; constructor; [|exact IH].
  clear IH Hm. induction Hr; cbn; constructor; auto.
Qed.

Lemma nth_map_lt {A B} (f : A -> B) l i d e : (i < length l)%nat -> nth i (map f l) e = f (nth i l d).
Proof.
  intros H. rewrite (nth_indep _ e (f d)) by (rewrite map_length; lia). apply map_nth.
Qed.

Lemma Forall2_combine {A B} (P : A -> B -> Prop) l l' :
  Forall2 P l l' -> Forall (fun q => P (fst q) (snd q)) (combine l l').
Proof. induction 1; cbn; constructor; auto. Qed.

Lemma Forall_Forall2_diag {A B} (P : A -> B -> Prop) l l' :
  length l = length l' -> (forall i d e, (i < length l)%nat -> P (nth i l d) (nth i l' e)) -> Forall2 P l l'.
Proof.
  revert l'; induction l as [|x l IH]; intros [|y l'] Hl H; cbn in *; try lia; constructor.
  - apply (H 0%nat x y). lia.
  - apply IH; [lia|]. intros i d e Hi. apply (H (S i) d e). lia.
Qed.

Lemma map2d_res_ok {A B} (f : A -> res B) m m' :
  map2d_res f m = Ok m' -> Forall2 (Forall2 (fun x y => f x = Ok y)) m m'.
Proof.
  intros H. apply map_res_ok in H. eapply Forall2_impl; [|exact H]. intros r r' Hr. now apply map_res_ok.
Qed.

Lemma Forall2_compose {A B C} (P : A -> B -> Prop) (Q : B -> C -> Prop) (R : A -> C -> Prop) a b c :
  (forall x y z, P x y -> Q y z -> R x z) -> Forall2 P a b -> Forall2 Q b c -> Forall2 R a c.
Proof.
  intros H Hp; revert c; induction Hp; intros c Hq; inversion Hq; subst; constructor; eauto.
Qed.

Lemma Forall2_compose2 {A B C} (P : A -> B -> Prop) (Q : B -> C -> Prop) (R : A -> C -> Prop) a b c :
  (forall x y z, P x y -> Q y z -> R x z) ->
  Forall2 (Forall2 P) a b -> Forall2 (Forall2 Q) b c -> Forall2 (Forall2 R) a c.
Proof. intros H. apply Forall2_compose. intros x y z. now apply Forall2_compose. Qed.
