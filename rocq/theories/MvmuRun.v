(** The multiply: loop invariants over mux positions and input slices. *)
From Verif Require Import PyBase PyLemmas FloatModel AnalogProofs DataConvert ConfigModel ConfigSpec ConfigProofs
  MemoryModel MvmuModel FloatSpec FloatProofs AnalogChain MvmuSpec MvmuLists MvmuLoad.
From Coq Require Import ZifyNat ZifyBool.
Open Scope Z_scope.
Ltac Zify.zify_post_hook ::= Z.div_mod_to_equations.

(** ** Congruence modulo 2^32 *)
Definition R32 (a b : Z) : Prop := exists q, a = b + q * 4294967296.

Lemma R32_refl a : R32 a a. Proof. exists 0. lia. Qed.
Lemma R32_sym a b : R32 a b -> R32 b a. Proof. intros [q H]. exists (- q). lia. Qed.
Lemma R32_trans a b c : R32 a b -> R32 b c -> R32 a c.
Proof. intros [p H] [q H']. exists (p + q). lia. Qed.
Lemma R32_add a b c d : R32 a b -> R32 c d -> R32 (a + c) (b + d).
Proof. intros [p H] [q H']. exists (p + q). lia. Qed.
Lemma R32_sub a b c d : R32 a b -> R32 c d -> R32 (a - c) (b - d).
Proof. intros [p H] [q H']. exists (p - q). lia. Qed.
Lemma R32_mul k a b : R32 a b -> R32 (k * a) (k * b).
Proof. intros [p H]. exists (k * p). rewrite H. ring. Qed.
Lemma R32_wrap64 z : R32 (wrap64 z) z.
Proof.
  unfold wrap64. exists (- ((z + 9223372036854775808) / 18446744073709551616) * 4294967296).
  pose proof (Z.div_mod (z + 9223372036854775808) 18446744073709551616 ltac:(lia)).
  pose proof (Z.mod_pos_bound (z + 9223372036854775808) 18446744073709551616 ltac:(lia)).
  set (d := (z + 9223372036854775808) / 18446744073709551616) in *.
  set (m := (z + 9223372036854775808) mod 18446744073709551616) in *. clearbody d m. lia.
Qed.
Lemma R32_wrap32 z : R32 (wrap32 z) z.
Proof.
  unfold wrap32. exists (- ((z + 2147483648) / 4294967296)).
  pose proof (Z.div_mod (z + 2147483648) 4294967296 ltac:(lia)).
  set (d := (z + 2147483648) / 4294967296) in *.
  set (m := (z + 2147483648) mod 4294967296) in *. clearbody d m. lia.
Qed.
Lemma wrap32_R32 a b : R32 a b -> wrap32 a = wrap32 b.
Proof. intros [q ->]. apply wrap32_eq_mod. rewrite Z.mod_add by lia. reflexivity. Qed.

(** ** Sums *)
Lemma sum_below_S n f : sum_below (S n) f = sum_below n f + f n.
Proof. unfold sum_below. rewrite seq_S, map_app, zsum_app. cbn. lia. Qed.
Lemma sum_below_ext n f g : (forall i, (i < n)%nat -> f i = g i) -> sum_below n f = sum_below n g.
Proof. intros H. induction n as [|n IH]; [reflexivity|]. rewrite !sum_below_S, IH, H by auto. reflexivity. Qed.
Lemma R32_sum n f g : (forall i, (i < n)%nat -> R32 (f i) (g i)) -> R32 (sum_below n f) (sum_below n g).
Proof.
  intros H. induction n as [|n IH]; [apply R32_refl|]. rewrite !sum_below_S. apply R32_add; auto.
Qed.

Lemma zsum_map_combine {A B} (f : A * B -> Z) (d : A) (e : B) ps vs :
  (length vs <= length ps)%nat ->
  zsum (map f (combine ps vs)) = sum_below (length vs) (fun k => f (nth k ps d, nth k vs e)).
Proof.
  revert ps; induction vs as [|v vs IH] using rev_ind; intros ps H.
  - destruct ps; reflexivity.
  - rewrite app_length in *. cbn [length] in *. rewrite Nat.add_1_r, sum_below_S.
    assert (E : combine ps (vs ++ [v]) = combine ps vs ++ [(nth (length vs) ps d, v)]).
    { clear IH. revert vs H; induction ps as [|p ps IHp]; intros vs H; cbn in H; [lia|].
      destruct vs as [|w vs]; cbn; [destruct ps; reflexivity|]. f_equal. apply IHp. cbn in H. lia. }
    rewrite E, map_app, zsum_app, IH by lia. f_equal.
    + apply sum_below_ext. intros i Hi. now rewrite app_nth1 by lia.
    + cbn. rewrite app_nth2, Nat.sub_diag by lia. cbn. lia.
Qed.

Lemma fold_sna ps vs acc :
  Forall (fun p => 0 <= p) ps ->
  R32 (fold_left (fun acc pv => wrap64 (acc + wrap64 (Z.shiftl (snd pv) (fst pv)))) (combine ps vs) acc)
      (acc + zsum (map (fun pv => snd pv * 2 ^ fst pv) (combine ps vs))).
Proof.
  intros H; revert vs acc; induction H as [|p ps Hp H IH]; intros [|v vs] acc; cbn [combine fold_left map];
    try (cbn; rewrite Z.add_0_r; apply R32_refl).
  eapply R32_trans; [apply IH|].
  change (zsum (?x :: ?y)) with (x + zsum y). cbn [fst snd]. rewrite Z.add_assoc.
  apply R32_add; [|apply R32_refl]. eapply R32_trans; [apply R32_wrap64|].
  apply R32_add; [apply R32_refl|]. rewrite Z.shiftl_mul_pow2 by assumption. apply R32_wrap64.
Qed.

(** ** Folding over a range *)
Lemma zrange_S j : zrange (Z.of_nat (S j)) = zrange (Z.of_nat j) ++ [Z.of_nat j].
Proof. unfold zrange. rewrite !Nat2Z.id, seq_S, map_app. reflexivity. Qed.

Lemma fold_zrange_inv {A} (P : nat -> A -> Prop) (f : A -> Z -> A) a n :
  P 0%nat a -> (forall j x, (j < n)%nat -> P j x -> P (S j) (f x (Z.of_nat j))) ->
  P n (fold_left f (zrange (Z.of_nat n)) a).
Proof.
  intros H0 HS. assert (K : forall m, (m <= n)%nat -> P m (fold_left f (zrange (Z.of_nat m)) a)).
  { induction m as [|m IH]; intros Hm; [exact H0|]. rewrite zrange_S, fold_left_app. cbn [fold_left].
    apply HS; [lia|]. apply IH. lia. }
  apply K. lia.
Qed.

Lemma rank_all {A} (p : A -> bool) l k : (k <= length l)%nat -> (forall x, In x l -> p x = true) -> rank p l k = k.
Proof.
  revert k; induction l as [|x l IH]; intros [|k] Hk H; cbn in Hk; try lia; try reflexivity.
  rewrite rank_S, (H x) by (now left). rewrite IH; [reflexivity|lia|]. intros; apply H; now right.
Qed.

Lemma existsb_false {A} (p : A -> bool) l x : existsb p l = false -> In x l -> p x = false.
Proof.
  intros H Hx. destruct (p x) eqn:E; [|reflexivity]. exfalso.
  assert (existsb p l = true) by (apply existsb_exists; eauto). congruence.
Qed.

Lemma filter_split {A} (p : A -> bool) l :
  (length (filter p l) + length (filter (fun x => negb (p x)) l))%nat = length l.
Proof. induction l as [|x l IH]; [reflexivity|]. cbn [filter]. destruct (p x); cbn [negb length]; lia. Qed.

Lemma rram_bits_of cfg : rram_bits (storage_of cfg) = map cell_bits (filter is_rram cfg).
Proof.
  unfold rram_bits. cbn [storage_of bits_per_cell is_xbar_rram].
  induction cfg as [|b l IH]; [reflexivity|]. cbn [map combine filter snd].
  change (negb (is_sram b)) with (is_rram b).
  destruct (is_rram b); cbn [map fst]; [f_equal|]; exact IH.
Qed.

Section Run.
Context (cfg : list bitcfg) (ww : Z) (c : mvmu_cfg) (OK : mvmu_ok cfg ww c).
Notation K := (length cfg).
Notation C := (c_cols c).
Notation A := (c_num_adc c).
Notation n := (c_size c).

Lemma dims : 0 < C /\ 0 < A /\ n = C * A.
Proof.
  pose proof (ok_size _ _ _ OK). pose proof (ok_cols _ _ _ OK). pose proof (ok_div _ _ _ OK).
  unfold c_num_adc. pose proof (Z.div_mod n C ltac:(lia)). nia.
Qed.

(** Value read from crossbar k for output row r. *)
Definition colval (xpos xneg : list (list f64)) (sout : list (list Z)) (k r : nat) : Z :=
  if is_sram (nth k cfg SLC) then nth r (nth (sk cfg k) sout []) 0
  else adc_clip c (adc_int (adc_step c (cell_bits (nth k cfg SLC)))
                     (nth r (nth (rk cfg k) xpos []) f0) (nth r (nth (rk cfg k) xneg []) f0)).

Lemma rram_bits_eq : rram_bits (c_storage c) = map cell_bits (filter is_rram cfg).
Proof.
  rewrite (storage_eq _ _ _ OK). apply rram_bits_of.
Qed.

Lemma nth_mux {X} (d : X) input j q m :
  (q < length input)%nat -> (m < Z.to_nat A)%nat ->
  nth m (nth q (mux_select c d input j) []) d = nth (Z.to_nat (Z.of_nat m * C + j)) (nth q input []) d.
Proof.
  intros Hq Hm. unfold mux_select. rewrite (nth_map_lt _ _ _ []) by assumption.
  rewrite nth_map_zrange by assumption. reflexivity.
Qed.
Lemma length_mux {X} (d : X) input j : length (mux_select c d input j) = length input.
Proof. unfold mux_select. apply map_length. Qed.
Lemma length_mux_row {X} (d : X) input j q : (q < length input)%nat -> length (nth q (mux_select c d input j) []) = Z.to_nat A.
Proof.
  intros Hq. unfold mux_select. rewrite (nth_map_lt _ _ _ []) by assumption. now rewrite map_length, length_zrange.
Qed.

Lemma nth_adc steps pos neg st q m :
  length pos = length steps -> length neg = length steps -> (q < length steps)%nat ->
  length (nth q pos []) = length (nth q neg []) -> (m < length (nth q pos []))%nat ->
  nth m (nth q (fst (adc_convert c steps pos neg st)) []) 0 =
  adc_clip c (adc_int (nth q steps f0) (nth m (nth q pos []) f0) (nth m (nth q neg []) f0)).
Proof.
  intros Lp Ln Hq Lr Hm. unfold adc_convert, map2d. cbn [fst].
  rewrite (nth_map_lt _ _ _ []) by (rewrite map_length, combine_length, combine_length; lia).
  rewrite (nth_map_lt _ _ _ (f0, ([], []))) by (rewrite !combine_length; lia).
  rewrite combine_nth by (rewrite combine_length; lia). cbn [fst snd].
  rewrite combine_nth by lia. cbn [fst snd].
  rewrite (nth_map_lt _ _ _ 0) by (rewrite map_length, combine_length; lia).
  rewrite (nth_map_lt _ _ _ (f0, f0)) by (rewrite combine_length; lia).
  rewrite combine_nth by assumption. reflexivity.
Qed.

Lemma length_adc steps pos neg st :
  length pos = length steps -> length neg = length steps ->
  length (fst (adc_convert c steps pos neg st)) = length steps.
Proof.
  intros Lp Ln. unfold adc_convert, map2d. cbn [fst]. rewrite !map_length, !combine_length. lia.
Qed.

(** Output of the converter stage of one column. *)
Definition adc_out (xpos xneg : list (list f64)) (st : mv_stats) (j : Z) : list (list Z) * mv_stats :=
  if have_rram (c_storage c)
  then adc_convert c (map (adc_step c) (rram_bits (c_storage c))) (mux_select c f0 xpos j) (mux_select c f0 xneg j) st
  else ([], st).
Definition sram_out (sout : list (list Z)) (j : Z) : list (list Z) :=
  if have_sram (c_storage c) then mux_select c 0 sout j else [].

Section Col.
Context (xpos xneg : list (list f64)) (sout : list (list Z)).
Context (Lp : length xpos = length (filter is_rram cfg)) (Ln : length xneg = length (filter is_rram cfg))
        (Ls : length sout = length (filter is_sram cfg)).

Lemma adc_out_nth st j k m :
  (k < K)%nat -> is_sram (nth k cfg SLC) = false -> (m < Z.to_nat A)%nat ->
  nth m (nth (rk cfg k) (fst (adc_out xpos xneg st j)) []) 0 = colval xpos xneg sout k (Z.to_nat (Z.of_nat m * C + j)).
Proof.
  intros Hk Hb Hm. assert (Hb' : is_rram (nth k cfg SLC) = true) by (unfold is_rram; now rewrite Hb).
  unfold adc_out. rewrite (have_rram_eq _ _ _ OK).
  rewrite (existsb_nth_lt is_rram cfg k SLC) by assumption.
  assert (R : (rk cfg k < length (filter is_rram cfg))%nat) by (eapply rank_lt; eassumption).
  rewrite rram_bits_eq.
  rewrite nth_adc; rewrite ?length_mux, ?map_length; rewrite ?length_mux_row; try lia.
  rewrite !nth_mux by lia. unfold colval. rewrite Hb.
  rewrite map_map, (nth_map_lt _ _ _ SLC) by lia. unfold rk. rewrite nth_filter_rank by assumption. reflexivity.
Qed.

Lemma length_adc_out st j : have_rram (c_storage c) = true ->
  length (fst (adc_out xpos xneg st j)) = length (filter is_rram cfg).
Proof.
  intros H. unfold adc_out. rewrite H. rewrite length_adc; rewrite ?length_mux, !map_length, rram_bits_eq, map_length; lia.
Qed.

Lemma sram_out_nth j k m :
  (k < K)%nat -> is_sram (nth k cfg SLC) = true -> (m < Z.to_nat A)%nat ->
  nth m (nth (sk cfg k) (sram_out sout j) []) 0 = colval xpos xneg sout k (Z.to_nat (Z.of_nat m * C + j)).
Proof.
  intros Hk Hb Hm. unfold sram_out. rewrite (have_sram_eq _ _ _ OK).
  rewrite (existsb_nth_lt is_sram cfg k SLC) by assumption.
  assert (R : (sk cfg k < length (filter is_sram cfg))%nat) by (eapply rank_lt; eassumption).
  rewrite nth_mux by lia. unfold colval. now rewrite Hb.
Qed.

Lemma maps_eq : rram_to_output_map (c_storage c) = filter (fun i => nth (Z.to_nat i) (map is_rram cfg) false) (zrange (zlen cfg))
  /\ sram_to_output_map (c_storage c) = filter (fun i => negb (nth (Z.to_nat i) (map is_rram cfg) false)) (zrange (zlen cfg)).
Proof. rewrite (storage_eq _ _ _ OK). split; reflexivity. Qed.

Lemma is_rram_at i : 0 <= i < zlen cfg -> nth (Z.to_nat i) (map is_rram cfg) false = is_rram (nth (Z.to_nat i) cfg SLC).
Proof. intros H. apply nth_map_lt. unfold zlen in H. lia. Qed.

Lemma zrange_NoDup m : NoDup (zrange m).
Proof. unfold zrange. apply FinFun.Injective_map_NoDup; [intros x y; lia|apply seq_NoDup]. Qed.

Lemma merge_nth st j k m :
  (k < K)%nat -> (m < Z.to_nat A)%nat ->
  nth m (nth k (merge_outputs c (fst (adc_out xpos xneg st j)) (sram_out sout j)) []) 0
  = colval xpos xneg sout k (Z.to_nat (Z.of_nat m * C + j)).
Proof.
  intros Hk Hm. unfold merge_outputs.
  destruct (have_sram (c_storage c)) eqn:HS; cbn [negb].
  2:{ rewrite (have_sram_eq _ _ _ OK) in HS.
      assert (E : rk cfg k = k).
      { apply rank_all; [lia|]. intros b Hb. unfold is_rram. now rewrite (existsb_false _ _ _ HS Hb). }
      rewrite <- E at 1. apply adc_out_nth; try assumption.
      apply (existsb_false _ _ _ HS). now apply nth_In. }
  destruct (have_rram (c_storage c)) eqn:HR; cbn [negb].
  2:{ rewrite (have_rram_eq _ _ _ OK) in HR.
      assert (Q : forall b, In b cfg -> is_sram b = true).
      { intros b Hb. pose proof (existsb_false _ _ _ HR Hb) as F. unfold is_rram in F. now destruct (is_sram b). }
      assert (E : sk cfg k = k) by (apply rank_all; [lia|exact Q]).
      rewrite <- E at 1. apply sram_out_nth; try assumption. apply Q. now apply nth_In. }
  destruct maps_eq as [M1 M2].
  assert (G1 : forall i, 0 <= i < zlen cfg -> nth (Z.to_nat i) (map is_rram cfg) false = is_rram (nth (Z.to_nat i) cfg SLC)) by apply is_rram_at.
  assert (G2 : forall i, 0 <= i < zlen cfg -> negb (nth (Z.to_nat i) (map is_rram cfg) false) = is_sram (nth (Z.to_nat i) cfg SLC)).
  { intros i Hi. rewrite G1 by assumption. unfold is_rram. apply negb_involutive. }
  set (z := repeat _ _).
  assert (Lz : length z = K).
  { unfold z. rewrite repeat_length, (num_xbar_eq _ _ _ OK). unfold zlen. lia. }
  assert (F1 : forall (l : list (list Z)) g, length l = K -> Forall (fun i => 0 <= i < zlen l) (filter g (zrange (zlen cfg)))).
  { intros l g Hl. apply Forall_forall. intros i Hi. apply filter_In in Hi as [Hi _]. apply in_zrange in Hi.
    unfold zlen in *. lia. }
  assert (LR : length (rram_to_output_map (c_storage c)) = length (filter is_rram cfg)).
  { pose proof (storage_spec _ _ _ (ok_storage _ _ _ OK)) as SP. cbv zeta in SP.
    destruct SP as (_ & _ & _ & _ & _ & _ & _ & _ & _ & _ & SP & _). rewrite (num_rram_eq _ _ _ OK) in SP.
    unfold zlen in SP. lia. }
  assert (LS : length (sram_to_output_map (c_storage c)) = length (filter is_sram cfg)).
  { pose proof (storage_spec _ _ _ (ok_storage _ _ _ OK)) as SP. cbv zeta in SP.
    destruct SP as (_ & _ & _ & _ & _ & _ & _ & _ & _ & _ & _ & SP & _). rewrite (num_sram_eq _ _ _ OK) in SP.
    unfold zlen in SP. lia. }
  set (z1 := scatter_rows z _ _).
  assert (Lz1 : length z1 = K).
  { unfold z1, scatter_rows. rewrite (length_scatter_gen (fun x => x)). exact Lz. }
  destruct (is_sram (nth k cfg SLC)) eqn:Hb.
  - rewrite <- (sram_out_nth j k m Hk Hb Hm). f_equal.
    assert (R : (sk cfg k < length (filter is_sram cfg))%nat) by (eapply rank_lt; eassumption).
    assert (E : nth (sk cfg k) (sram_to_output_map (c_storage c)) 0 = Z.of_nat k).
    { rewrite M2. unfold sk. eapply nth_positions; try eassumption. }
    unfold scatter_rows. replace k with (Z.to_nat (nth (sk cfg k) (sram_to_output_map (c_storage c)) 0)) at 1 by (rewrite E; lia).
    apply (scatter_in (fun x => x)).
    + rewrite M2. apply NoDup_filter, zrange_NoDup.
    + rewrite M2. now apply F1.
    + rewrite LS. unfold sram_out. rewrite HS, length_mux. exact Ls.
    + lia.
  - rewrite <- (adc_out_nth st j k m Hk Hb Hm). f_equal.
    assert (Hb' : is_rram (nth k cfg SLC) = true) by (unfold is_rram; now rewrite Hb).
    assert (R : (rk cfg k < length (filter is_rram cfg))%nat) by (eapply rank_lt; eassumption).
    unfold scatter_rows at 1. rewrite (scatter_out (fun x => x)).
    2:{ rewrite M2. intros Hi. apply filter_In in Hi as [_ Hi]. rewrite G2 in Hi by (unfold zlen; lia).
        rewrite Nat2Z.id in Hi. congruence. }
    2:{ rewrite M2. now apply F1. }
    assert (E : nth (rk cfg k) (rram_to_output_map (c_storage c)) 0 = Z.of_nat k).
    { rewrite M1. unfold rk. eapply nth_positions; try eassumption. }
    unfold z1, scatter_rows. replace k with (Z.to_nat (nth (rk cfg k) (rram_to_output_map (c_storage c)) 0)) at 1 by (rewrite E; lia).
    apply (scatter_in (fun x => x)).
    + rewrite M1. apply NoDup_filter, zrange_NoDup.
    + rewrite M1. now apply F1.
    + rewrite LR. apply length_adc_out. exact HR.
    + lia.
Qed.

Lemma length_merge st j : length (merge_outputs c (fst (adc_out xpos xneg st j)) (sram_out sout j)) = K.
Proof.
  unfold merge_outputs. pose proof (filter_split is_sram cfg) as FL.
  assert (FE : length (filter (fun x => negb (is_sram x)) cfg) = length (filter is_rram cfg)) by reflexivity.
  destruct (have_sram (c_storage c)) eqn:HS; cbn [negb].
  - destruct (have_rram (c_storage c)) eqn:HR; cbn [negb].
    + unfold scatter_rows. rewrite !(length_scatter_gen (fun x => x)).
      rewrite repeat_length, (num_xbar_eq _ _ _ OK). unfold zlen. lia.
    + unfold sram_out. rewrite HS, length_mux, Ls. rewrite (have_rram_eq _ _ _ OK) in HR.
      assert (filter is_rram cfg = []).
      { destruct (filter is_rram cfg) as [|b l] eqn:E; [reflexivity|].
        assert (In b (filter is_rram cfg)) by (rewrite E; now left). apply filter_In in H as [H1 H2].
        pose proof (existsb_false _ _ _ HR H1). congruence. }
      rewrite H in FE. cbn in FE. lia.
  - rewrite (have_sram_eq _ _ _ OK) in HS.
    assert (filter is_sram cfg = []).
    { destruct (filter is_sram cfg) as [|b l] eqn:E; [reflexivity|].
      assert (In b (filter is_sram cfg)) by (rewrite E; now left). apply filter_In in H as [H1 H2].
      pose proof (existsb_false _ _ _ HS H1). congruence. }
    rewrite H in FL. cbn in FL. rewrite length_adc_out.
    + lia.
    + rewrite (have_rram_eq _ _ _ OK). destruct (existsb is_rram cfg) eqn:E; [reflexivity|]. exfalso.
      destruct cfg as [|b l] eqn:Ec; [now apply (ok_xbars _ _ _ OK)|].
      pose proof (existsb_false _ _ b HS ltac:(now left)). pose proof (existsb_false _ _ b E ltac:(now left)) as H1.
      unfold is_rram in H1. rewrite H0 in H1. discriminate.
Qed.

(** Sum over the crossbars of one row. *)
Definition rowval (r : nat) : Z := sum_below K (fun k => 2 ^ bits_below cfg k * colval xpos xneg sout k r).

Lemma sna_nth st j i cur m :
  0 <= i -> (m < Z.to_nat A)%nat ->
  R32 (nth m (sna_calculate c (merge_outputs c (fst (adc_out xpos xneg st j)) (sram_out sout j)) cur i) 0)
      (2 ^ i * rowval (Z.to_nat (Z.of_nat m * C + j)) + nth m cur 0).
Proof.
  intros Hi Hm. unfold sna_calculate. rewrite nth_map_zrange by assumption.
  unfold znth at 2. rewrite Nat2Z.id.
  eapply R32_trans; [apply R32_wrap64|]. apply R32_add; [|apply R32_refl].
  eapply R32_trans; [apply R32_wrap64|]. rewrite Z.shiftl_mul_pow2 by assumption.
  rewrite Z.mul_comm. apply R32_mul. unfold sna_sum.
  set (M := merge_outputs _ _ _).
  assert (LM : length M = K) by apply length_merge.
  eapply R32_trans; [apply fold_sna|].
  - rewrite (storage_eq _ _ _ OK). apply Forall_forall. intros p Hp.
    apply (In_nth _ _ 0) in Hp as (q & Hq & <-).
    assert (q <= K)%nat.
    { cbn [storage_of stored_bit] in Hq. rewrite app_length, length_pos_list in Hq. cbn in Hq. lia. }
    rewrite stored_bit_nth by assumption. apply bits_below_nonneg.
  - rewrite Z.add_0_l. rewrite (zsum_map_combine _ 0 0).
    + rewrite map_length, LM. unfold rowval. apply R32_sum. intros k Hk. cbn [fst snd].
      rewrite (stored_nth _ _ _ OK) by lia. rewrite (nth_map_lt _ _ _ []) by lia.
      unfold znth. rewrite Nat2Z.id. unfold M. rewrite merge_nth by assumption. rewrite Z.mul_comm. apply R32_refl.
    + rewrite map_length, LM, (storage_eq _ _ _ OK). cbn [storage_of stored_bit].
      rewrite app_length, length_pos_list. cbn. lia.
Qed.

Lemma mask_in r j : 0 <= j < C -> In r (adc_mask c j) <-> 0 <= r < n /\ r mod C = j.
Proof.
  intros Hj. destruct dims as (HC & HA & Hn). unfold adc_mask. rewrite in_map_iff. split.
  - intros (m & <- & Hm). apply in_zrange in Hm. split; [nia|].
    rewrite Z.mod_add by lia. apply Z.mod_small. lia.
  - intros (Hr & Hm). exists (r / C). pose proof (Z.div_mod r C ltac:(lia)). split; [lia|].
    apply in_zrange. split; [apply Z.div_pos; lia|]. apply Z.div_lt_upper_bound; lia.
Qed.

Lemma mask_nodup j : NoDup (adc_mask c j).
Proof.
  destruct dims as (HC & HA & Hn). unfold adc_mask.
  apply FinFun.Injective_map_NoDup; [intros x y H; nia|apply zrange_NoDup].
Qed.

Lemma mask_ok o j : out_size o = n -> 0 <= j < C -> bad_index (out_size o) (adc_mask c j) = false.
Proof.
  intros Ho Hj. unfold bad_index. rewrite Ho. apply orb_false_iff. split.
  - destruct (existsb _ _) eqn:E; [|reflexivity]. apply existsb_exists in E as (x & Hx & Hc).
    apply mask_in in Hx; [|assumption]. lia.
  - destruct (existsb _ _) eqn:E; [|reflexivity]. apply existsb_exists in E as (x & Hx & Hc).
    apply mask_in in Hx; [|assumption]. lia.
Qed.

(** One column: every row of the column is accumulated, no other register changes. *)
Lemma column_spec i j o st :
  0 <= i -> 0 <= j < C -> out_size o = n -> length (out_regs o) = Z.to_nat n ->
  let o' := fst (mvm_column c i xpos xneg sout (o, st) j) in
  out_size o' = n /\ length (out_regs o') = Z.to_nat n /\
  (forall r, (r < Z.to_nat n)%nat ->
     nth r (out_regs o') 0 =
     if Z.of_nat r mod C =? j then wrap32 (2 ^ i * rowval r + nth r (out_regs o) 0) else nth r (out_regs o) 0) /\
  out_stat o' = count_write (count_read (out_stat o) 1 A) 1 A /\
  snd (mvm_column c i xpos xneg sout (o, st) j) = count_column c (snd (adc_out xpos xneg st j)).
Proof.
  intros Hi Hj Ho Hl. destruct dims as (HC & HA & Hn). unfold mvm_column.
  fold (adc_out xpos xneg st j). destruct (adc_out xpos xneg st j) as [ao st1] eqn:EA.
  fold (sram_out sout j). unfold outreg_read. rewrite mask_ok by assumption.
  unfold outreg_write. cbn [out_size]. rewrite mask_ok by assumption. cbn [fst snd out_size out_regs out_stat].
  set (vals := sna_calculate _ _ _ _).
  assert (Lm : length (adc_mask c j) = Z.to_nat A) by (unfold adc_mask; now rewrite map_length, length_zrange).
  assert (Lv : length vals = Z.to_nat A) by (unfold vals, sna_calculate; now rewrite map_length, length_zrange).
  assert (Zm : zlen (adc_mask c j) = A) by (unfold zlen; rewrite Lm; lia).
  rewrite Zm.
  assert (FM : Forall (fun x => 0 <= x < zlen (out_regs o)) (adc_mask c j)).
  { apply Forall_forall. intros x Hx. apply mask_in in Hx; [|assumption]. unfold zlen. lia. }
  split; [exact Ho|]. split; [unfold scatter; now rewrite length_scatter_gen|]. split; [|split; reflexivity].
  intros r Hr. unfold scatter. destruct (Z.eqb_spec (Z.of_nat r mod C) j) as [E|E].
  - set (m := Z.to_nat (Z.of_nat r / C)).
    assert (Hm : (m < Z.to_nat A)%nat).
    { unfold m. assert (Z.of_nat r / C < A) by (apply Z.div_lt_upper_bound; lia).
      assert (0 <= Z.of_nat r / C) by (apply Z.div_pos; lia). lia. }
    assert (Er : nth m (adc_mask c j) 0 = Z.of_nat r).
    { unfold adc_mask. rewrite nth_map_zrange by assumption. unfold m.
      assert (0 <= Z.of_nat r / C) by (apply Z.div_pos; lia).
      rewrite Z2Nat.id by assumption. pose proof (Z.div_mod (Z.of_nat r) C ltac:(lia)). lia. }
    replace r with (Z.to_nat (nth m (adc_mask c j) 0)) at 1 by (rewrite Er; lia).
    rewrite (scatter_in wrap32 (adc_mask c j) vals (out_regs o) m 0 0); try assumption; try lia.
    2:{ apply mask_nodup. }
    apply wrap32_R32. unfold vals. replace ao with (fst (adc_out xpos xneg st j)) by (now rewrite EA).
    eapply R32_trans; [apply sna_nth; assumption|].
    assert (Em : Z.of_nat m * C + j = Z.of_nat r).
    { unfold adc_mask in Er. rewrite nth_map_zrange in Er by assumption. lia. }
    rewrite Em, Nat2Z.id. apply R32_add; [apply R32_refl|].
    rewrite (nth_map_lt _ _ _ 0) by lia. rewrite Er. unfold znth. rewrite Nat2Z.id. apply R32_refl.
  - rewrite scatter_out; [reflexivity| |exact FM].
    intros Hin. apply mask_in in Hin; [|assumption]. lia.
Qed.

(** All columns. *)
Lemma columns_spec i o st :
  0 <= i -> out_size o = n -> length (out_regs o) = Z.to_nat n ->
  let o' := fst (fold_left (mvm_column c i xpos xneg sout) (zrange C) (o, st)) in
  out_size o' = n /\ length (out_regs o') = Z.to_nat n /\
  (forall r, (r < Z.to_nat n)%nat -> nth r (out_regs o') 0 = wrap32 (2 ^ i * rowval r + nth r (out_regs o) 0)).
Proof.
  intros Hi Ho Hl. destruct dims as (HC & HA & Hn). cbv zeta.
  pose (P := fun (j : nat) (x : outreg * mv_stats) =>
    out_size (fst x) = n /\ length (out_regs (fst x)) = Z.to_nat n /\
    (forall r, (r < Z.to_nat n)%nat -> nth r (out_regs (fst x)) 0 =
       if Z.of_nat r mod C <? Z.of_nat j then wrap32 (2 ^ i * rowval r + nth r (out_regs o) 0) else nth r (out_regs o) 0)).
  assert (Q : P (Z.to_nat C) (fold_left (mvm_column c i xpos xneg sout) (zrange C) (o, st))).
  { replace (zrange C) with (zrange (Z.of_nat (Z.to_nat C))) by (f_equal; lia).
    apply fold_zrange_inv.
    - unfold P. cbn [fst]. split; [exact Ho|]. split; [exact Hl|]. intros r Hr.
      pose proof (Z.mod_pos_bound (Z.of_nat r) C ltac:(lia)).
      destruct (Z.ltb_spec (Z.of_nat r mod C) (Z.of_nat 0)); [lia|reflexivity].
    - intros j [o1 st1] Hj (P1 & P2 & P3). cbn [fst] in *.
      destruct (column_spec i (Z.of_nat j) o1 st1 Hi ltac:(lia) P1 P2) as (Q1 & Q2 & Q3 & _).
      unfold P. split; [exact Q1|]. split; [exact Q2|]. intros r Hr. rewrite Q3 by assumption. rewrite P3 by assumption.
      destruct (Z.eqb_spec (Z.of_nat r mod C) (Z.of_nat j)) as [E|E].
      + rewrite E. rewrite Z.ltb_irrefl. destruct (Z.ltb_spec (Z.of_nat j) (Z.of_nat (S j))); [reflexivity|lia].
      + destruct (Z.ltb_spec (Z.of_nat r mod C) (Z.of_nat j)), (Z.ltb_spec (Z.of_nat r mod C) (Z.of_nat (S j))); lia || reflexivity. }
  destruct Q as (Q1 & Q2 & Q3). split; [exact Q1|]. split; [exact Q2|]. intros r Hr. rewrite Q3 by assumption.
  pose proof (Z.mod_pos_bound (Z.of_nat r) C ltac:(lia)).
  destruct (Z.ltb_spec (Z.of_nat r mod C) (Z.of_nat (Z.to_nat C))); [reflexivity|lia].
Qed.
End Col.
End Run.
