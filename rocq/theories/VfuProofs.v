From Verif Require Import PyBase PyLemmas VfuModel VfuSpec.
From Coq Require Import ZifyBool ZifyNat.
Ltac Zify.zify_post_hook ::= Z.div_mod_to_equations.

Lemma v_bounds c : 0 <= v_width c ->
  v_min_value c = - 2 ^ v_width c /\ v_max_value c = 2 ^ v_width c - 1 /\ 0 < 2 ^ v_width c.
Proof.
  intros H. unfold v_min_value, v_max_value. rewrite Z.shiftl_1_l.
  assert (0 < 2 ^ v_width c) by (apply Z.pow_pos_nonneg; lia). lia.
Qed.

Lemma zlen_map' {A B} (f : A -> B) l : zlen (map f l) = zlen l.
Proof. unfold zlen. now rewrite map_length. Qed.

Lemma length_zipwith {A B C} (f : A -> B -> C) l1 l2 :
  length l1 = length l2 -> length (zipwith f l1 l2) = length l1.
Proof. intros H. unfold zipwith. rewrite map_length, combine_length. lia. Qed.

Lemma nth_zipwith f l1 l2 i : length l1 = length l2 -> (i < length l1)%nat ->
  nth i (zipwith f l1 l2) 0 = f (nth i l1 0) (nth i l2 0).
Proof.
  intros H Hi. unfold zipwith.
  rewrite (nth_indep _ 0 ((fun p => f (fst p) (snd p)) (0, 0)))
    by (rewrite map_length, combine_length; lia).
  rewrite (map_nth (fun p => f (fst p) (snd p))). rewrite combine_nth by assumption. reflexivity.
Qed.

Lemma broadcast2_ok f a b r : broadcast2 f a b = Ok r -> zlen b = zlen a \/ zlen b = 1 -> zlen r = zlen a.
Proof.
  unfold broadcast2. intros H Hl. destruct (Z.eqb_spec (zlen a) (zlen b)) as [E|E].
  - injection H as <-. unfold zlen in *. rewrite length_zipwith; lia.
  - destruct (Z.eqb_spec (zlen b) 1); [|lia]. injection H as <-. apply zlen_map'.
Qed.

Lemma vfu_range c s op a b r s' :
  0 <= v_width c -> vfu_calculate c s op a b = (Ok r, s') ->
  Forall (in_range (v_width c)) r.
Proof.
  intros Hw. unfold vfu_calculate. destruct (v_handle c op a b) as [x|]; [|discriminate].
  intros [= <- <-]. apply Forall_forall. intros y Hy. apply in_map_iff in Hy as (z & <- & _).
  destruct (v_bounds c Hw) as (-> & -> & P). unfold in_range, clipZ. lia.
Qed.

Lemma vfu_length c s op a b r s' :
  (match b with Some b => zlen b = zlen a \/ zlen b = 1 | None => True end) ->
  vfu_calculate c s op a b = (Ok r, s') -> zlen r = zlen a.
Proof.
  intros Hb. unfold vfu_calculate. destruct (v_handle c op a b) as [x|] eqn:E; [|discriminate].
  intros [= <- <-]. rewrite zlen_map'. revert E. unfold v_handle.
  destruct (is_unary op); [intros [= <-]; apply zlen_map'|].
  destruct b as [b|]; [|discriminate].
  destruct op; try (intros E; now apply broadcast2_ok in E).
  destruct (existsb _ _); [discriminate|]. intros E; now apply broadcast2_ok in E.
Qed.

Lemma clipZ_clamped w x : 0 <= w -> clamped w x (clipZ (- 2 ^ w) (2 ^ w - 1) x).
Proof.
  intros H. assert (0 < 2 ^ w) by (apply Z.pow_pos_nonneg; lia).
  unfold clamped, clipZ. lia.
Qed.

Lemma int32_shiftr z f : 0 <= f -> Z.shiftr z f * 2 ^ f <= z < (Z.shiftr z f + 1) * 2 ^ f.
Proof.
  intros H. rewrite Z.shiftr_div_pow2 by lia.
  assert (0 < 2 ^ f) by (apply Z.pow_pos_nonneg; lia).
  pose proof (Z.div_mod z (2 ^ f)). pose proof (Z.mod_pos_bound z (2 ^ f)). nia.
Qed.

Lemma binary_exact c op a b :
  0 <= v_frac c -> is_unary op = false -> int32 a -> int32 b -> fits (v_frac c) op a b ->
  exact (v_frac c) op a b (v_binary c op a b).
Proof.
  intros Hf Hu Ha Hb Hfit. destruct op; try discriminate; cbn [exact v_binary fits] in *.
  - intros i Hi. apply Z.land_spec.
  - intros i Hi. apply Z.lor_spec.
  - now apply wrap32_id.
  - now apply wrap32_id.
  - rewrite (wrap32_id (a * b)) by assumption. now apply int32_shiftr.
  - destruct Hfit as (Hz & Hs & Hov). rewrite Z.shiftl_mul_pow2 by lia.
    rewrite (wrap32_id (a * 2 ^ v_frac c)) by assumption.
    set (x := a * 2 ^ v_frac c) in *.
    assert (Q : int32 (x / b)).
    { unfold int32 in *. pose proof (Z.div_mod x b Hz) as D.
      destruct (Z_lt_le_dec 0 b).
      - pose proof (Z.mod_pos_bound x b). nia.
      - pose proof (Z.mod_neg_bound x b). destruct (Z.eq_dec b (-1)) as [->|]; nia. }
    rewrite wrap32_id by assumption.
    pose proof (Z.div_mod x b Hz) as D.
    destruct (Z_lt_le_dec 0 b).
    + left. pose proof (Z.mod_pos_bound x b). nia.
    + right. pose proof (Z.mod_neg_bound x b). nia.
  - lia.
  - lia.
Qed.

Lemma unary_exact c op a b :
  is_unary op = true -> arithmetic op = true -> exact (v_frac c) op a b (v_unary c op a).
Proof.
  destruct op; try discriminate; intros _ _; cbn [exact v_unary].
  - unfold Z.lnot. lia.
  - lia.
Qed.

(** One statement for all arithmetic operations on equally long operands. *)
Lemma vfu_exact c s op a b :
  0 <= v_width c -> 0 <= v_frac c -> arithmetic op = true ->
  zlen a = zlen b -> Forall int32 a -> Forall int32 b ->
  (forall i, 0 <= i < zlen a -> fits (v_frac c) op (znth 0 a i) (znth 0 b i)) ->
  exists r s', vfu_calculate c s op a (Some b) = (Ok r, s') /\ zlen r = zlen a /\
    forall i, 0 <= i < zlen a ->
      exists x, exact (v_frac c) op (znth 0 a i) (znth 0 b i) x /\ clamped (v_width c) x (znth 0 r i).
Proof.
  intros Hw Hf Hop Hl Ha Hb Hfit. unfold vfu_calculate.
  destruct (v_bounds c Hw) as (-> & -> & _).
  assert (D : forall l i, Forall int32 l -> int32 (znth 0 l i)).
  { intros l i Hx. unfold znth. apply Forall_nth_ok; [assumption|]. unfold int32; lia. }
  unfold v_handle. destruct (is_unary op) eqn:U.
  - do 2 eexists. split; [reflexivity|]. rewrite !zlen_map'. split; [reflexivity|].
    intros i Hi. exists (v_unary c op (znth 0 a i)). split; [now apply unary_exact|].
    unfold znth at 2. rewrite map_map. unfold zlen in Hi.
    set (g := fun x => clipZ (- 2 ^ v_width c) (2 ^ v_width c - 1) (v_unary c op x)).
    rewrite (nth_indep _ 0 (g 0)) by (rewrite map_length; lia).
    rewrite (map_nth g). now apply clipZ_clamped.
  - assert (E : (match op with
       | Vdiv => if existsb (fun x => x =? 0) b then Raise ZeroDivisionError else broadcast2 (v_binary c op) a b
       | _ => broadcast2 (v_binary c op) a b end) = Ok (zipwith (v_binary c op) a b)).
    { assert (B : broadcast2 (v_binary c op) a b = Ok (zipwith (v_binary c op) a b)).
      { unfold broadcast2. now rewrite (proj2 (Z.eqb_eq _ _) Hl). }
      rewrite B. destruct op; try reflexivity.
      replace (existsb (fun x => x =? 0) b) with false; [reflexivity|].
      symmetry. apply not_true_is_false. intros Hx. apply existsb_exists in Hx as (x & Hin & Hx0).
      apply (In_nth _ _ 0) in Hin as (n & Hn & Hn').
      assert (H0 : 0 <= Z.of_nat n < zlen a) by (unfold zlen in *; lia).
      specialize (Hfit _ H0). cbn in Hfit. destruct Hfit as (Hz & _). unfold znth in Hz. rewrite Nat2Z.id in Hz.
      lia. }
    rewrite E. do 2 eexists. split; [reflexivity|].
    assert (L : length a = length b) by (unfold zlen in Hl; lia).
    split. { rewrite zlen_map'. unfold zlen. now rewrite length_zipwith. }
    intros i Hi. exists (v_binary c op (znth 0 a i) (znth 0 b i)).
    split; [apply binary_exact; auto|].
    unfold znth at 3. unfold zlen in Hi.
    set (g := clipZ (- 2 ^ v_width c) (2 ^ v_width c - 1)).
    rewrite (nth_indep _ 0 (g 0)) by (rewrite map_length, length_zipwith; lia).
    rewrite (map_nth g). rewrite nth_zipwith by lia. now apply clipZ_clamped.
Qed.

Lemma vfu_add_sub_in_range c s op a b :
  0 <= v_width c <= 30 -> 0 <= v_frac c -> op = Vadd \/ op = Vsub ->
  zlen a = zlen b -> Forall (in_range (v_width c)) a -> Forall (in_range (v_width c)) b ->
  exists r s', vfu_calculate c s op a (Some b) = (Ok r, s') /\ zlen r = zlen a /\
    forall i, 0 <= i < zlen a ->
      exists x, exact (v_frac c) op (znth 0 a i) (znth 0 b i) x /\ clamped (v_width c) x (znth 0 r i).
Proof.
  intros Hw Hf Hop Hl Ha Hb.
  assert (P : 0 < 2 ^ v_width c <= 2 ^ 30).
  { split; [apply Z.pow_pos_nonneg; lia|]. apply Z.pow_le_mono_r; lia. }
  change (2 ^ 30) with 1073741824 in P.
  assert (I : forall l, Forall (in_range (v_width c)) l -> Forall int32 l).
  { intros l. apply Forall_impl. intros x. unfold in_range, int32. lia. }
  assert (D : forall l i, Forall (in_range (v_width c)) l -> in_range (v_width c) (znth 0 l i)).
  { intros l i Hx. unfold znth. apply Forall_nth_ok; [assumption|]. unfold in_range; lia. }
  apply vfu_exact; auto; try lia.
  - destruct Hop as [-> | ->]; reflexivity.
  - intros i _. pose proof (D a i Ha) as H1. pose proof (D b i Hb) as H2. unfold in_range in *.
    destruct Hop as [-> | ->]; cbn; unfold int32; lia.
Qed.

Lemma vfu_failure c s op a b :
  succeeds op a b = false <-> exists e, vfu_calculate c s op a b = (Raise e, s).
Proof.
  unfold vfu_calculate, v_handle.
  assert (B : forall f b, (exists e, broadcast2 f a b = Raise e) <->
     ((zlen a =? zlen b) || (zlen a =? 1) || (zlen b =? 1)) = false).
  { intros f b0. unfold broadcast2.
    destruct (zlen a =? zlen b0), (zlen a =? 1), (zlen b0 =? 1); cbn; split; intros H; try discriminate;
    try (destruct H; discriminate); eauto. }
  assert (B2 : forall f b0, (exists e, match broadcast2 f a b0 with
       | Ok r => (Ok (map (clipZ (v_min_value c) (v_max_value c)) r), v_update_stats s op (zlen a))
       | Raise e => (Raise e, s) end = (Raise e, s)) <->
     ((zlen a =? zlen b0) || (zlen a =? 1) || (zlen b0 =? 1)) = false).
  { intros f b0. rewrite <- (B f). destruct (broadcast2 f a b0) as [r|e0]; split; intros [e E]; try discriminate; eauto. }
  destruct op; cbn [is_unary]; (destruct b as [b|]; cbn [succeeds]);
    try (split; [discriminate|intros [e E]; discriminate]);
    try (split; [eauto|reflexivity]);
    try (rewrite andb_true_r; rewrite B2; reflexivity).
  assert (X : existsb (fun x => x =? 0) b = negb (forallb (fun x => negb (x =? 0)) b)).
  { clear. induction b as [|x b IH]; cbn; [reflexivity|]. rewrite IH. now destruct (x =? 0). }
  rewrite X. destruct (forallb (fun x => negb (x =? 0)) b) eqn:F; cbn [negb].
  - rewrite andb_true_r. now rewrite B2.
  - rewrite andb_false_r. split; eauto.
Qed.

Lemma vfu_unary_ignores c s op a b : is_unary op = true -> vfu_calculate c s op a b = vfu_calculate c s op a None.
Proof. intros H. unfold vfu_calculate, v_handle. now rewrite H. Qed.

Definition vcounts (h : list vcall) (s : vstats) : Prop :=
  mul_operations s = class_total Cmul h /\ div_operations s = class_total Cdiv h /\
  act_operations s = class_total Cact h /\ other_operations s = class_total Cother h /\
  vtotal_operations s = mul_operations s + div_operations s + act_operations s + other_operations s.

Lemma class_total_snoc k h op a b :
  class_total k (h ++ [(op, a, b)]) =
  class_total k h + (if succeeds op a b && class_eqb (class_of op) k then zlen a else 0).
Proof. unfold class_total. rewrite map_app, zsum_app. cbn. lia. Qed.

Lemma vfu_counters c h : vcounts h (vfu_run c vstats0 h).
Proof.
  induction h as [|[[op a] b] h IH] using rev_ind; [cbn; unfold vcounts, class_total; cbn; lia|].
  unfold vfu_run. rewrite fold_left_app. cbn [fold_left].
  fold (vfu_run c vstats0 h). set (s := vfu_run c vstats0 h) in *.
  unfold vcounts in *. rewrite !class_total_snoc. unfold vfu_step; cbn [fst snd].
  destruct (succeeds op a b) eqn:E.
  - assert (X : snd (vfu_calculate c s op a b) = v_update_stats s op (zlen a)).
    { destruct (vfu_calculate c s op a b) as [r s'] eqn:V. unfold vfu_calculate in V.
      destruct (v_handle c op a b) as [x|e] eqn:Hh.
      - injection V as _ <-. reflexivity.
      - assert (F : succeeds op a b = false); [|congruence].
        apply (vfu_failure c s). exists e. unfold vfu_calculate. now rewrite Hh. }
    rewrite X. destruct op; cbn; lia.
  - apply (vfu_failure c s) in E as [e E]. rewrite E. cbn. lia.
Qed.

Lemma mul_in_range_refuted :
  exists a b r, in_range 16 a /\ in_range 16 b /\
    fst (vfu_calculate q8_8 vstats0 Vmul [a] (Some [b])) = Ok [r] /\
    ~ exists x, exact 8 Vmul a b x /\ clamped 16 x r.
Proof.
  exists 50000, 50000, (-65536). split; [vm_compute; split; congruence|].
  split; [vm_compute; split; congruence|]. split; [vm_compute; reflexivity|].
  intros (x & H1 & H2). cbn [exact] in H1. unfold clamped in H2.
  change (2 ^ 8) with 256 in H1. change (2 ^ 16) with 65536 in H2. lia.
Qed.

Lemma div_in_range_refuted :
  exists a b r, in_range 16 a /\ in_range 16 b /\ b <> 0 /\
    fst (vfu_calculate q0_16 vstats0 Vdiv [a] (Some [b])) = Ok [r] /\
    ~ exists x, exact 16 Vdiv a b x /\ clamped 16 x r.
Proof.
  exists 40000, 40000, (-41839). split; [vm_compute; split; congruence|].
  split; [vm_compute; split; congruence|]. split; [lia|]. split; [vm_compute; reflexivity|].
  intros (x & H1 & H2). cbn [exact] in H1. unfold clamped in H2.
  change (2 ^ 16) with 65536 in *. lia.
Qed.
