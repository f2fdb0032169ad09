(** Sequences of conversions. *)
From Verif Require Import PyBase PyLemmas FloatModel AnalogProofs ConfigModel MvmuModel FloatProofs AdcModel AdcSpec AdcProofs.
From Flocq Require Import IEEE754.BinarySingleNaN Core.
From Coq Require Import Permutation Reals Lra Psatz ZifyNat ZifyBool.
Open Scope R_scope.

Lemma digits_of c steps pos neg st : (0 <= c_adc_res c)%Z -> let r := adc_convert c steps pos neg st in let l := elements steps pos neg in
  concat (fst r) = map (adc_clip c) (map digit l) /\ adc_overflow_times (snd r) = (adc_overflow_times st + count_true (adc_overflows c) (map digit l))%Z.
Proof.
  intros HR r l. subst r l. unfold adc_convert, elements, map2d. cbn [fst snd adc_overflow_times]. induction (combine steps (combine pos neg)) as [|(s, (p, n)) t (IH1 & IH2)]; [cbn; split; [reflexivity|lia]|].
  cbn [map concat flat_map zsum fold_right]. cbn [fst snd]. rewrite !map_app, IH1.
  assert (E : map digit (map (fun q => MkElement s (fst q) (snd q)) (combine p n)) = map (fun q => adc_int s (fst q) (snd q)) (combine p n)) by (rewrite map_map; reflexivity).
  rewrite E. split; [reflexivity|]. unfold count_true in *. rewrite filter_app. unfold zlen in *. rewrite app_length.
  change (fold_right Z.add 0%Z ?x) with (zsum x). lia.
Qed.
Lemma unclamped c zs : (0 <= c_adc_res c)%Z -> count_true (adc_overflows c) zs = 0%Z -> map (adc_clip c) zs = zs.
Proof.
  intros HR. unfold count_true, zlen. induction zs as [|z zs IH]; [reflexivity|]. cbn [filter map]. destruct (adc_overflows c z) eqn:O; [cbn [length]; lia|]. intros H. rewrite IH by exact H.
  f_equal. unfold adc_overflows in O. unfold adc_clip, clipZ. lia.
Qed.
Lemma count_nonneg {A} (f : A -> bool) l : (0 <= count_true f l)%Z.
Proof. unfold count_true, zlen. lia. Qed.
Lemma conversions_ok c st l zs st' e : (0 <= c_adc_res c)%Z -> conversions c st l zs st' e ->
  sums (map adc_error l) e /\ length zs = length l /\ (adc_overflow_times st <= adc_overflow_times st')%Z /\ (adc_overflow_times st' = adc_overflow_times st -> zs = map digit l).
Proof.
  intros HR. induction 1 as [|l zs st1 st2 e _ IH E|l zs st1 e steps pos neg out st2 v _ (S & L & M & IH) E V].
  - repeat split; [constructor|lia].
  - rewrite E. exact IH.
  - destruct (digits_of c steps pos neg st1 HR) as (D1 & D2). rewrite E in D1, D2. cbn [fst snd] in D1, D2. pose proof (count_nonneg (adc_overflows c) (map digit (elements steps pos neg))) as NN.
    split; [|split; [|split]].
    + rewrite map_app. apply (su_perm (map adc_error l ++ map adc_error (elements steps pos neg))); [apply Permutation_app_comm|]. now constructor.
    + rewrite D1, !app_length, !map_length. lia.
    + lia.
    + intros K. rewrite map_app, IH by lia. f_equal. rewrite D1. apply unclamped; [exact HR|lia].
Qed.
Theorem conversions_reported c st l zs st' e : (0 <= c_adc_res c)%Z -> conversions c st l zs st' e -> Forall sampled l -> (zlen l <= 2 ^ 30)%Z ->
  is_finite e = true /\ 0 <= B2R e <= IZR (zlen l) * (1 + / 64) /\ length zs = length l /\
  (adc_overflow_times st' = adc_overflow_times st -> Rabs (B2R e - total_distance l zs) <= IZR (zlen l) / 128).
Proof.
  intros HR C F N. destruct (conversions_ok _ _ _ _ _ _ HR C) as (S & L & _ & D). destruct (errors_total _ _ S F N) as (Fe & E & B).
  split; [exact Fe|]. split; [exact B|]. split; [exact L|]. intros K. now rewrite (D K).
Qed.
(** The total never falls. *)
Theorem conversions_grow c st l zs st1 e steps pos neg v : (0 <= c_adc_res c)%Z -> conversions c st l zs st1 e -> sums (map adc_error (elements steps pos neg)) v ->
  Forall sampled (elements steps pos neg ++ l) -> (zlen (elements steps pos neg ++ l) <= 2 ^ 30)%Z -> B2R e <= B2R (errors_add e v).
Proof.
  intros HR C V F N. destruct (adc_convert c steps pos neg st1) as (out & st2) eqn:E. pose proof (cv_more _ _ _ _ _ _ _ _ _ _ _ _ C E V) as C2.
  destruct (conversions_reported _ _ _ _ _ _ HR C2 F N) as (F2 & _). apply Forall_app in F as (FV & FL). unfold zlen in N. rewrite app_length in N.
  destruct (conversions_reported _ _ _ _ _ _ HR C FL ltac:(unfold zlen; lia)) as (F1 & B1 & _). destruct (errors_total _ _ V FV ltac:(unfold zlen; lia)) as (F3 & _ & B3).
  assert (IZR (zlen l) + IZR (zlen (elements steps pos neg)) <= 1073741824) by (rewrite <- plus_IZR; apply IZR_le; unfold zlen; lia).
  assert (0 <= IZR (zlen l)) by (apply IZR_le; unfold zlen; lia). assert (0 <= IZR (zlen (elements steps pos neg))) by (apply IZR_le; unfold zlen; lia).
  apply fadd_grows; [exact F1|exact F2|exact F3|lra|]. apply p900. rewrite Rabs_pos_eq; lra.
Qed.
(** Each returned value is within about one step when nothing was clamped. *)
Theorem conversions_each c st l zs st' e : (0 <= c_adc_res c)%Z -> conversions c st l zs st' e -> Forall sampled l ->
  adc_overflow_times st' = adc_overflow_times st -> Forall2 (fun x z => distance x z <= 1 + / 512) l zs.
Proof.
  intros HR C F K. destruct (conversions_ok _ _ _ _ _ _ HR C) as (_ & _ & _ & D). rewrite (D K). clear - F. induction F as [|x l S _ IH]; constructor; [|exact IH].
  destruct (element_error x S) as (_ & _ & _ & B). exact B.
Qed.
