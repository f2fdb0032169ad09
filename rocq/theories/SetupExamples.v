(** The default configuration, the shipped one, and configurations that are not what they seem. *)
From Verif Require Import PyBase PyLemmas ConfigModel ConfigSpec ConfigProofs VfuModel FloatModel FloatSpec AnalogProofs FloatProofs MvmuModel MvmuSpec CoreModel CoreSpec
  RouterModel SystemModel SystemSpec StatsModel ReportModel ReportSpec LoaderModel SetupModel SetupSpec SetupProofs SetupValues SetupParams SetupBuild.
From Flocq Require Import IEEE754.BinarySingleNaN Core.
From Coq Require Import Ascii String Reals Lra.
Open Scope Z_scope.

(** Deciding a concrete file. *)
Definition loads (x : conv) (l : list (string * json)) : bool := match load_config x (JObj l) with Ok _ => true | Raise _ => false end.
Lemma loads_ok x l : loads x l = true -> exists c, load_config x (JObj l) = Ok c.
Proof. unfold loads. destruct (load_config x (JObj l)); [eauto|discriminate]. Qed.
Lemma default_loads x : loads x [] = true.
Proof. vm_compute. reflexivity. Qed.
Lemma default_layout : layout [] (parts_of []).
Proof. apply layout_parts. split; [reflexivity|]. repeat split. Qed.

Lemma setting_some {A} (f : json -> option A) l k d j v : field l k = Some j -> f j = Some v -> setting f l k d = v.
Proof. intros E F. unfold setting. now rewrite E, F. Qed.
Ltac typed P := apply fields_ok_iff; lazy -[to_int to_float to_bool]; rewrite ?(pl_int _ P), ?(pl_float _ P), ?(pl_bool _ P); reflexivity.
Section Shipped.
Context (x : conv) (P : plain x) (rate sigma : f64) (HR : nearest (5 / 1000) rate).
Let l := shipped rate sigma.
Lemma rate_val : rate = dec 5 3.
Proof.
  symmetry. apply (nearest_unique (5 / 1000)); [apply default_rate|exact HR|]. apply (nearest_pos _ _ default_rate).
  change (bpow radix2 (-100)) with (/ 1267650600228229401496703205376)%R. lra.
Qed.
Lemma shipped_layout : layout l (parts_of l).
Proof. apply layout_parts. split; [reflexivity|]. repeat split. Qed.
Lemma shipped_typing : typing x (parts_of l).
Proof. constructor; typed P. Qed.
Ltac text P := eexists; split; [right; eexists; split; reflexivity|apply format_iff; reflexivity].
Lemma shipped_acceptable : acceptable x (parts_of l).
Proof.
  pose proof shipped_typing as T. constructor; [exact T|..].
  - exists 0, 8, [MLC; MLC; MLC; MLC]. split; [text P|]. split; [|reflexivity]. right. eexists. split; [reflexivity|].
    exists ["2"; "2"; "2"; "2"]%string. split; [reflexivity|]. repeat constructor.
  - exists 8, 8. split; [text P|lia].
  - exists 128, 16. split; [right; eexists; split; [reflexivity|apply P]|]. split; [right; eexists; split; [reflexivity|apply P]|]. split; [lia|exists 8; reflexivity].
  - exists rate. split; [apply (rate_iff _ _ (ty_noc _ _ T)); symmetry; eapply setting_some; [reflexivity|apply P]|].
    rewrite too_fast_iff, rate_val. assert (E : Bltb rate_max (dec 5 3) = false) by (vm_compute; reflexivity). rewrite E. discriminate.
  - exists (f_of_Z 31). exists rate. split; [apply (rate_iff _ _ (ty_noc _ _ T)); symmetry; eapply setting_some; [reflexivity|apply P]|].
    left. exists 5, 31. split; [right; now left|]. split; [exact HR|reflexivity].
Qed.
End Shipped.

(** Reading the values of an accepted file. *)
Lemma gives_inv {A} (rd : json -> A -> Prop) l k d v : gives rd l k d v -> match field l k with Some j => rd j v | None => v = d end.
Proof. intros [(E & H)|(j & E & H)]; now rewrite E. Qed.
Ltac value P H := apply gives_inv in H; cbn in H; unfold rd_int, rd_float, rd_bool in H; rewrite ?(pl_int _ P), ?(pl_float _ P), ?(pl_bool _ P) in H; try injection H as H.

Lemma complete x l s c p : load_config x (JObj l) = Ok c -> layout l s -> sensible c -> in_file x s p None ->
  exists v, cf_param c p = Some v /\ (p <> XbarPow -> nonnegative v).
Proof.
  intros H L Se F. pose proof (table_keys (config_sizes c) p) as K. destruct (table_of (config_sizes c) p) as [[keys size]|] eqn:E; cbn [option_map fst] in K.
  - assert (T : tabulated c p).
    { destruct (se_tabled _ Se) as (S1 & S2 & S3 & S4 & S5 & S6 & S7 & S8). clear - E S1 S2 S3 S4 S5 S6 S7 S8. unfold tabulated. destruct p; try discriminate E; cbn -[Z.pow Z.mul In] in *; try assumption. }
    assert (X : p = XbarPow \/ p <> XbarPow) by (clear; destruct p; first [now left|right; discriminate]). destruct X as [X|X].
    + rewrite X in *. destruct (xbar_pow _ _ _ _ H L T) as (u & w & _ & _ & ->). eexists. split; [reflexivity|]. congruence.
    + destruct (tabulated_value _ _ _ _ H L _ X T) as (v & -> & _ & F0 & V). exists v. split; [reflexivity|]. intros _. split; [exact F0|now apply Rlt_le].
  - destruct (SetupParams.constant _ _ _ _ H L p ltac:(now symmetry) F) as (v & -> & _ & N). exists v. auto.
Qed.

Lemma beq_pos (v w : f64) : is_finite v && is_finite w && Bltb f0 v && Beqb v w = true -> v = w.
Proof.
  rewrite !andb_true_iff. intros (((Fv & Fw) & P) & E). apply bltb_pos in P; [|exact Fv]. rewrite Beqb_correct in E by assumption.
  assert (E' : B2R v = B2R w) by (revert E; now case Req_bool_spec). apply B2R_inj; [| |exact E'].
  - destruct v; try discriminate Fv; [cbn in P; lra|reflexivity].
  - rewrite E' in P. destruct w; try discriminate Fw; [cbn in P; lra|reflexivity].
Qed.
Lemma inter_sum : fadd (f_of_Z 5) (f_of_Z 31) = f_of_Z 36.
Proof. apply beq_pos. vm_compute. reflexivity. Qed.
(** At the rate 0.005. *)
Lemma usual_latencies x l s c : load_config x (JObj l) = Ok c -> layout l s -> (exists r, rate_is x (pt_noc s) r /\ nearest (5 / 1000) r) ->
  field (pt_noc s) "noc_ht_lat" = None -> cf_lat c LIntra = Some (f_of_Z 31) /\ cf_lat c LInter = Some (f_of_Z 36).
Proof.
  intros H L (r & Hr & N) F. destruct (network_latencies _ _ _ _ H L) as (h & v & Hh & Hv & -> & ->). apply gives_inv in Hh. rewrite F in Hh. subst h.
  destruct (load_inv _ _ _ H) as (l' & [= <-] & L' & A & _). rewrite (layout_unique _ _ _ L' L) in A. pose proof (ty_noc _ _ (ac_typing _ _ A)) as W.
  assert (Hk : intra_is x (pt_noc s) (f_of_Z 31)) by (exists r; split; [exact Hr|]; left; exists 5, 31; split; [right; now left|]; split; [exact N|reflexivity]).
  apply (intra_iff _ _ W) in Hv, Hk. assert (E : v = f_of_Z 31) by congruence. rewrite E, inter_sum. split; reflexivity.
Qed.

(** The default configuration: what an empty file gives. *)
Section Default.
Context (x : conv).
Lemma default_rate_is : exists r, rate_is x [] r /\ nearest (5 / 1000) r.
Proof. exists (dec 5 3). split; [|apply default_rate]. exists (dec 5 3). split; [apply default_rate|now left]. Qed.
Theorem default_config : exists c, load_config x (JObj []) = Ok c /\ sensible c /\ build c = Ok tt /\
  (cf_nodes c, cf_tiles c, cf_cores c, cf_mvmus c) = (1, 4, 8, 6) /\ cf_bits c = [MLC; MLC; MLC; MLC] /\
  (cf_wint c, cf_wfrac c, cf_aint c, cf_afrac c) = (1, 7, 4, 4) /\ (cf_size c, cf_cols c, cf_dac_res c, cf_adc_res c) = (128, 16, 1, 8) /\
  cf_differential c = false /\ cf_noise c = false /\ (cf_vdd c, cf_gmin c, cf_gmax c) = (f_of_Z 1, f_of_Z 0, f_of_Z 1) /\
  (cf_edram c, cf_data c) = (8388608, 4096) /\ (ticks c LIntra, ticks c LInter) = (Some 31, Some 36) /\
  (forall p, exists v, cf_param c p = Some v /\ (p <> XbarPow -> nonnegative v)).
Proof.
  destruct (loads_ok x [] (default_loads x)) as (c & H). exists c. split; [exact H|]. pose proof default_layout as L. pose proof (described _ _ _ _ H L) as D.
  destruct D as [D1 D2 D3 D4 D5 (D6 & D6') (D7 & D7') [Z1 Z2 Z3 Z4 Z5 Z6 Z7 Z8] D8 D9 D10 D11 D12 D13 D14 D15 D16 D17 D18 D19 D20 D21].
  apply gives_inv in D1, D2, D3, D4, D5, Z1, Z2, Z3, Z4, Z5, Z6, Z7, Z8, D8, D9, D10, D11, D12, D13, D15, D16, D17.
  change (field _ _) with (@None json) in *. cbv beta iota in *.
  assert (W : cf_wint c = 1 /\ cf_wfrac c = 7).
  { destruct D6 as (t & Ht & Hf). apply gives_inv in Ht. change (t = "Q1.7"%string) in Ht. subst t. apply format_iff in Hf. cbn in Hf. injection Hf as E1 E2 _. auto. }
  assert (A : cf_aint c = 4 /\ cf_afrac c = 4).
  { destruct D7 as (t & Ht & Hf). apply gives_inv in Ht. change (t = "Q4.4"%string) in Ht. subst t. apply format_iff in Hf. cbn in Hf. injection Hf as E1 E2 _. auto. }
  destruct W as (W1 & W2). destruct A as (A1 & A2). rewrite A1, A2 in D7'. rewrite W1, W2 in D6'.
  destruct (usual_latencies _ _ _ _ H L default_rate_is eq_refl) as (LA & LB).
  assert (Se : sensible c).
  { constructor; try lia; [|exists 31, 36; repeat split; try assumption; lia]. rewrite Z1, Z2, Z3, Z4, Z5, Z6, Z7, Z8. cbn. lia. }
  split; [exact Se|]. split; [exact (proj1 (ready _ _ _ _ dot_lr (fun _ z => z) H L Se (conj eq_refl eq_refl)))|].
  rewrite D1, D2, D3, D4. split; [reflexivity|]. split; [exact D5|]. rewrite W1, W2, A1, A2. split; [reflexivity|].
  rewrite Z3, D13, Z1, Z2. split; [reflexivity|]. split; [exact D8|]. split; [exact D12|]. rewrite D9, D10, D11. split; [reflexivity|].
  split; [rewrite D18, D7', Z4, Z6; reflexivity|]. split.
  - unfold ticks. rewrite LA, LB. rewrite !whole_int by lia. reflexivity.
  - intros p. apply (complete _ _ _ _ p H L Se). destruct p; reflexivity.
Qed.
End Default.

(** The shipped configuration. *)
Theorem shipped_config x rate sigma : plain x -> nearest (5 / 1000) rate -> exists c, load_config x (JObj (shipped rate sigma)) = Ok c /\ sensible c /\ build c = Ok tt /\
  (cf_nodes c, cf_tiles c, cf_cores c, cf_mvmus c) = (1, 5, 8, 6) /\ cf_bits c = [MLC; MLC; MLC; MLC] /\
  (cf_wint c, cf_wfrac c, cf_aint c, cf_afrac c) = (0, 8, 8, 8) /\ (cf_size c, cf_cols c, cf_dac_res c, cf_adc_res c) = (128, 16, 1, 8) /\
  cf_differential c = false /\ cf_noise c = true /\ (cf_vdd c, cf_gmin c, cf_gmax c) = (f_of_Z 1, f_of_Z 0, f_of_Z 1) /\
  (cf_edram c, cf_data c) = (4194304, 4096) /\ (ticks c LIntra, ticks c LInter) = (Some 31, Some 36) /\
  (forall p, exists v, cf_param c p = Some v /\ (p <> XbarPow -> nonnegative v)).
Proof.
  intros P HR. pose proof (shipped_layout rate sigma) as L. pose proof (shipped_acceptable x P rate sigma HR) as A0.
  destruct (proj2 (accepted_iff x (shipped rate sigma)) (ex_intro _ _ (conj L A0))) as (c & H). exists c. split; [exact H|].
  pose proof (described _ _ _ _ H L) as D.
  destruct D as [D1 D2 D3 D4 D5 (D6 & D6') (D7 & D7') [Z1 Z2 Z3 Z4 Z5 Z6 Z7 Z8] D8 D9 D10 D11 D12 D13 D14 D15 D16 D17 D18 D19 D20 D21].
  apply gives_inv in D1, D2, D3, D4, D5, Z1, Z2, Z3, Z4, Z5, Z6, Z7, Z8, D8, D9, D10, D11, D12, D13, D15, D16, D17.
  lazy beta iota zeta delta [field parts_of shipped section or_empty pt_top pt_data pt_noc pt_tile pt_core pt_mvmu pt_dac pt_xbar pt_adc
    String.eqb Ascii.eqb Bool.eqb rd_int rd_float rd_bool rd_bits] in D1, D2, D3, D4, D5, Z1, Z2, Z3, Z4, Z5, Z6, Z7, Z8, D8, D9, D10, D11, D12, D13, D15, D16, D17.
  rewrite (pl_int _ P) in D1, D2, D3, D4, Z1, Z2, Z3, Z6, Z7, Z8, D13. rewrite (pl_bool _ P) in D12.
  injection D1 as D1. injection D2 as D2. injection D3 as D3. injection D4 as D4. injection Z1 as Z1. injection Z2 as Z2. injection Z3 as Z3.
  injection Z6 as Z6. injection Z7 as Z7. injection Z8 as Z8. injection D13 as D13. injection D12 as D12.
  assert (D5' : cf_bits c = [MLC; MLC; MLC; MLC]).
  { destruct D5 as (l5 & E5 & F5). destruct l5 as [|a [|b [|d [|e [|]]]]]; try discriminate E5. injection E5 as <- <- <- <-.
    inversion F5 as [|? ? ? ? B1 G1]; subst. inversion G1 as [|? ? ? ? B2 G2]; subst. inversion G2 as [|? ? ? ? B3 G3]; subst.
    inversion G3 as [|? ? ? ? B4 G4]; subst. inversion G4; subst. inversion B1; inversion B2; inversion B3; inversion B4; reflexivity. }
  assert (W : cf_wint c = 0 /\ cf_wfrac c = 8).
  { destruct D6 as (t & Ht & Hf). apply gives_inv in Ht. change (JStr "Q0.8" = JStr t) in Ht. injection Ht as <-. apply format_iff in Hf. cbn in Hf. injection Hf as E1 E2 _. auto. }
  assert (A : cf_aint c = 8 /\ cf_afrac c = 8).
  { destruct D7 as (t & Ht & Hf). apply gives_inv in Ht. change (JStr "Q8.8" = JStr t) in Ht. injection Ht as <-. apply format_iff in Hf. cbn in Hf. injection Hf as E1 E2 _. auto. }
  destruct W as (W1 & W2). destruct A as (A1 & A2). rewrite A1, A2 in D7'. rewrite W1, W2 in D6'.
  assert (R : exists r, rate_is x (pt_noc (parts_of (shipped rate sigma))) r /\ nearest (5 / 1000) r).
  { exists rate. split; [|exact HR]. exists rate. split; [exact HR|]. right. eexists. split; [reflexivity|apply P]. }
  destruct (usual_latencies _ _ _ _ H L R eq_refl) as (LA & LB).
  assert (Se : sensible c).
  { constructor; try lia; [|exists 31, 36; repeat split; try assumption; lia]. rewrite <- Z1, <- Z2, <- Z3, Z4, Z5, <- Z6, <- Z7, <- Z8. cbn. lia. }
  split; [exact Se|]. split; [exact (proj1 (ready _ _ _ _ dot_lr (fun _ z => z) H L Se (conj eq_refl eq_refl)))|].
  rewrite <- D1, <- D2, <- D3, <- D4. split; [reflexivity|]. split; [exact D5'|]. rewrite W1, W2, A1, A2. split; [reflexivity|].
  rewrite <- Z3, <- D13, <- Z1, <- Z2. split; [reflexivity|]. split; [exact D8|]. split; [now symmetry|]. rewrite D9, D10, D11. split; [reflexivity|].
  split; [rewrite D18, D7', Z4, <- Z6; reflexivity|]. split.
  - unfold ticks. rewrite LA, LB. rewrite !whole_int by lia. reflexivity.
  - intros p. apply (complete _ _ _ _ p H L Se). destruct p; reflexivity.
Qed.

(** Both saturate. *)
Lemma dot_repeat a b n : dot (repeat a n) (repeat b n) = Z.of_nat n * (a * b).
Proof. induction n as [|n IH]; [reflexivity|]. cbn [repeat dot]. rewrite IH. lia. Qed.
Lemma map_repeat' {A B} (f : A -> B) a n : map f (repeat a n) = repeat (f a) n.
Proof. induction n as [|n IH]; [reflexivity|]. cbn. now rewrite IH. Qed.
Lemma saturates dot act c w :
  cf_bits c = [MLC; MLC; MLC; MLC] -> (cf_size c, cf_cols c, cf_dac_res c, cf_adc_res c) = (128, 16, 1, 8) -> 1 <= cf_awidth c ->
  0 <= cf_wfrac c -> (B2R (w : f64) * bpow radix2 (cf_wfrac c) = 128)%R -> forall y, sys_cfg_of dot act c = Some y ->
  ~ no_saturation (k_mv (y_core y)) (cf_bits c) (repeat w 128) (repeat 1 128).
Proof.
  intros B S A Fr Hw y Y N. injection S as S1 S2 S3 S4. unfold sys_cfg_of in Y.
  destruct (ticks c LFetch), (ticks c LData), (ticks c LEdram), (ticks c LIntra), (ticks c LInter), (ticks c LDac), (ticks c LAdc); try discriminate.
  injection Y as <-. cbn [y_core k_mv] in N.
  assert (P : (0 < B2R w)%R).
  { pose proof (bpow_gt_0 radix2 (cf_wfrac c)) as Bp. nra. }
  assert (G : weight_sgn w = 1) by (unfold weight_sgn; rewrite Rlt_bool_false by lra; now rewrite Rlt_bool_true by lra).
  assert (M : weight_mag (cf_wfrac c) w = 128).
  { unfold weight_mag. rewrite Rabs_pos_eq by lra. rewrite Hw. apply (Znearest_imp _ _ 128). replace (128 - 128)%R with 0%R by ring. rewrite Rabs_R0. lra. }
  assert (SL : 0 < slices (mvmu_cfg_of dot c z4 z5)).
  { unfold slices. cbn [mvmu_cfg_of c_act_width c_dac_res]. rewrite S3. replace (cf_awidth c + 1 - 1) with (cf_awidth c) by ring. rewrite Z.div_1_r. lia. }
  specialize (N 0 3%nat ltac:(lia)). rewrite B in N. specialize (N ltac:(cbn; lia) eq_refl).
  unfold row_sum in N. cbn [mvmu_cfg_of c_weight_frac c_dac_res c_adc_res] in N. rewrite S3, S4 in N.
  rewrite !map_repeat', dot_repeat in N. unfold cell_of in N. rewrite G, M in N. cbn in N. lia.
Qed.

(** ** Configurations that are not what they seem *)
Definition std : conv := MkConv (fun j => match j with JInt n => Some n | _ => None end) (fun j => match j with JFloat v => Some v | JInt n => Some (f_of_Z n) | _ => None end)
  (fun j => match j with JBool b => Some b | _ => None end).
Lemma std_plain : plain std.
Proof. constructor; reflexivity. Qed.
Ltac sections := apply layout_parts; split; [reflexivity|]; repeat split.

(** The key of the shipped example does not choose the type of the converters. *)
Definition misnamed : list (string * json) := [("mvmu_config", JObj [("adc_config", JObj [("adc_type", JStr "differential")])])]%string.
Lemma misnamed_ignored x : load_config x (JObj misnamed) = load_config x (JObj []).
Proof.
  apply (unknown_ignored x _ _ (parts_of misnamed) (parts_of [])); [sections|sections|].
  constructor; intros k t Hin; cbv [top_fields data_fields dac_fields xbar_fields adc_fields noc_fields tile_fields core_fields mvmu_fields floats map app In] in Hin;
    repeat (destruct Hin as [[= <- <-]|Hin]; [reflexivity|]); contradiction.
Qed.
Lemma unknown_refuted : exists c, load_config std (JObj misnamed) = Ok c /\ cf_differential c = false.
Proof.
  destruct (default_config std) as (c & H & _ & _ & _ & _ & _ & _ & D & _). exists c. split; [|exact D]. now rewrite misnamed_ignored.
Qed.

(** A value for a tabulated parameter is overwritten. *)
Definition with_area : list (string * json) := one_setting "core_config" "dataMem_area" (JInt 1).
Lemma value_refuted : exists c c0 v, load_config std (JObj with_area) = Ok c /\ load_config std (JObj []) = Ok c0 /\
  in_file std (parts_of with_area) DataArea (Some (f_of_Z 1)) /\ cf_param c DataArea = cf_param c0 DataArea /\ cf_param c DataArea = Some v /\ (B2R v < 1)%R.
Proof.
  assert (E : loads std with_area = true) by (vm_compute; reflexivity). destruct (loads_ok _ _ E) as (c & H).
  destruct (loads_ok _ _ (default_loads std)) as (c0 & H0). assert (L : layout with_area (parts_of with_area)) by sections.
  pose proof (described _ _ _ _ H L) as D. pose proof (sz_data _ _ _ (de_sizes _ _ _ D)) as Z. apply gives_inv in Z. cbn in Z.
  pose proof (described _ _ _ _ H0 default_layout) as D0. pose proof (sz_data _ _ _ (de_sizes _ _ _ D0)) as Z0. apply gives_inv in Z0. cbn in Z0.
  assert (T : tabulated c DataArea) by (unfold tabulated; cbn; rewrite Z; lia).
  destruct (tabulated_value _ _ _ _ H L DataArea ltac:(discriminate) T) as (v & V & K & F & _).
  exists c, c0, v. split; [exact H|]. split; [exact H0|]. split; [reflexivity|]. split; [|split; [exact V|]].
  - apply (tables_fixed std _ c0 std _ c DataArea H0 H ltac:(discriminate)); [unfold tabulated; cbn; rewrite Z0; lia|]. cbn. now rewrite Z, Z0.
  - unfold size_of_param in K. cbn [size_table snd] in K. rewrite Z in K.
    assert (Q : match lookup (table DataArea) 4096 with Some u => Bltb u (f_of_Z 1) && is_finite u | None => false end = true) by (vm_compute; reflexivity).
    rewrite K in Q. apply andb_true_iff in Q. destruct Q as (Q1 & Q2). destruct (f_of_Z_correct 1 ltac:(lia)) as (F1 & E1).
    rewrite Bltb_correct in Q1 by assumption. rewrite E1 in Q1. revert Q1. clear. case Rlt_bool_spec; [intros R _; exact R|discriminate].
Qed.

(** The latency between nodes cannot be chosen. *)
Definition with_latency : list (string * json) := one_setting "noc_config" "noc_inter_lat" (JInt 1000).
Lemma latency_refuted : exists c, load_config std (JObj with_latency) = Ok c /\ ticks c LInter = Some 36.
Proof.
  assert (E : loads std with_latency = true) by (vm_compute; reflexivity). destruct (loads_ok _ _ E) as (c & H). exists c. split; [exact H|].
  assert (L : layout with_latency (parts_of with_latency)) by sections.
  assert (R : exists r, rate_is std (pt_noc (parts_of with_latency)) r /\ nearest (5 / 1000) r).
  { exists (dec 5 3). split; [|apply default_rate]. exists (dec 5 3). split; [apply default_rate|]. left. split; reflexivity. }
  destruct (usual_latencies _ _ _ _ H L R eq_refl) as (_ & LB). unfold ticks. rewrite LB. apply whole_int. lia.
Qed.

Lemma jstr_inj a : forall b, map JStr a = map JStr b -> a = b.
Proof. induction a as [|s a IH]; intros [|t b] E; try discriminate; [reflexivity|]. cbn in E. injection E as <- E. f_equal. now apply IH. Qed.
(** A flag in the file overrides what the storage says. *)
Definition with_flag : list (string * json) :=
  [("data_config", JObj [("storage_config", JList (map JStr ["s"; "s"; "s"; "s"; "s"; "s"; "s"; "s"]))]); ("mvmu_config", JObj [("have_rram_xbar", JBool true)])]%string.
Lemma flag_refuted : exists c, load_config std (JObj with_flag) = Ok c /\ Forall (fun b => is_sram b = true) (cf_bits c) /\ have_rram (cf_storage c) = true.
Proof.
  assert (E : loads std with_flag = true) by (vm_compute; reflexivity). destruct (loads_ok _ _ E) as (c & H). exists c. split; [exact H|].
  assert (L : layout with_flag (parts_of with_flag)) by sections. pose proof (described _ _ _ _ H L) as D. split.
  - pose proof (de_storage _ _ _ D) as S. apply gives_inv in S. destruct S as (l & El & F). change (JList (map JStr (repeat "s"%string 8)) = JList (map JStr l)) in El.
    assert (El' : repeat "s"%string 8 = l) by (apply jstr_inj; now injection El).
    subst l. clear - F. revert F. generalize (cf_bits c), 8%nat. intros b n. revert b. induction n as [|n IH]; intros b F; inversion F as [|? ? ? ? B G]; subst; constructor.
    + inversion B; reflexivity.
    + now apply IH.
  - apply (de_have_rram _ _ _ D). right. right. eexists. split; reflexivity.
Qed.

(** Negative numbers are accepted, and the architecture is built. *)
Definition negative_columns : list (string * json) := one_setting "mvmu_config" "num_columns_per_adc" (JInt (-16)).
Definition negative_nodes : list (string * json) := [("num_nodes", JInt (-1))]%string.
Lemma negative_refuted : exists c, load_config std (JObj negative_columns) = Ok c /\ build c = Ok tt /\ cf_num_adc c = -8.
Proof.
  assert (E : match load_config std (JObj negative_columns) with Ok c => match build c with Ok tt => cf_num_adc c =? -8 | _ => false end | _ => false end = true)
    by (vm_compute; reflexivity).
  destruct (load_config std (JObj negative_columns)) as [c|]; [|discriminate]. exists c. split; [reflexivity|].
  destruct (build c) as [[]|]; [|discriminate]. apply Z.eqb_eq in E. auto.
Qed.
Lemma nodes_refuted : exists c, load_config std (JObj negative_nodes) = Ok c /\ build c = Ok tt /\ cf_nodes c = -1.
Proof.
  assert (E : match load_config std (JObj negative_nodes) with Ok c => match build c with Ok tt => cf_nodes c =? -1 | _ => false end | _ => false end = true)
    by (vm_compute; reflexivity).
  destruct (load_config std (JObj negative_nodes)) as [c|]; [|discriminate]. exists c. split; [reflexivity|].
  destruct (build c) as [[]|]; [|discriminate]. apply Z.eqb_eq in E. auto.
Qed.

(** Any document. *)
Theorem accepted_docs x doc : (exists c, load_config x doc = Ok c) <-> exists l s, doc = JObj l /\ layout l s /\ acceptable x s.
Proof.
  split.
  - intros (c & H). destruct (load_inv _ _ _ H) as (l & -> & L & A & _). eauto 6.
  - intros (l & s & -> & L & A). apply accepted_iff. eauto.
Qed.
Theorem error_docs x doc e : load_config x doc = Raise e ->
  (e = TypeError <-> exists l, doc = JObj l /\ latency_missing x l) /\
  (e = ZeroDivisionError <-> exists l, doc = JObj l /\ ((~ latency_missing x l /\ zero_columns x l) \/ zero_width x l)) /\
  (e = ValueError \/ e = TypeError \/ e = ZeroDivisionError).
Proof.
  intros H. assert (D : (exists l, doc = JObj l) \/ e = ValueError /\ forall l, doc <> JObj l).
  { destruct doc; try (right; cbn in H; injection H as <-; split; [reflexivity|discriminate]). left. eauto. }
  destruct D as [(l & ->)|(-> & N)].
  - split; [|split; [|exact (errors_only x l e H)]].
    + split; [intros ->; exists l; split; [reflexivity|now apply type_error_iff]|]. intros (l' & [= <-] & M). apply type_error_iff in M. congruence.
    + split; [intros ->; exists l; split; [reflexivity|now apply zero_division_iff]|]. intros (l' & [= <-] & M). apply zero_division_iff in M. congruence.
  - split; [|split; [|now left]]; (split; [discriminate|]); intros (l & -> & _); exfalso; exact (N l eq_refl).
Qed.
Theorem described_doc x doc c : load_config x doc = Ok c -> exists l s, doc = JObj l /\ layout l s /\ acceptable x s /\ describes x s c.
Proof.
  intros H. destruct (load_inv _ _ _ H) as (l & -> & L & A & _). exists l, (parts_of l). repeat (split; [assumption || reflexivity|]). exact (described _ _ _ _ H L).
Qed.

Theorem saturation_refuted :
  (forall x dot act w, (B2R (w : f64) = 1)%R -> exists c y, load_config x (JObj []) = Ok c /\ sys_cfg_of dot act c = Some y /\
     ~ no_saturation (k_mv (y_core y)) (cf_bits c) (repeat w 128) (repeat 1 128)) /\
  (forall x rate sigma dot act w, plain x -> nearest (5 / 1000) rate -> (B2R (w : f64) = 1 / 2)%R ->
     exists c y, load_config x (JObj (shipped rate sigma)) = Ok c /\ sys_cfg_of dot act c = Some y /\
       ~ no_saturation (k_mv (y_core y)) (cf_bits c) (repeat w 128) (repeat 1 128)).
Proof.
  split.
  - intros x dot act w Hw. destruct (default_config x) as (c & H & Se & _ & _ & B & [= W1 W2 A1 A2] & S & _).
    destruct (ready _ _ _ _ dot act H default_layout Se (conj eq_refl eq_refl)) as (_ & y & Y & _). exists c, y. split; [exact H|]. split; [exact Y|].
    pose proof (proj2 (de_activations _ _ _ (described _ _ _ _ H default_layout))) as Aw.
    apply (saturates dot act c w B S); [lia|lia| |exact Y]. rewrite W2, Hw. change (bpow radix2 7) with 128%R. lra.
  - intros x rate sigma dot act w P HR Hw. destruct (shipped_config x rate sigma P HR) as (c & H & Se & _ & _ & B & [= W1 W2 A1 A2] & S & _).
    pose proof (shipped_layout rate sigma) as L.
    destruct (ready _ _ _ _ dot act H L Se (conj eq_refl eq_refl)) as (_ & y & Y & _). exists c, y. split; [exact H|]. split; [exact Y|].
    pose proof (proj2 (de_activations _ _ _ (described _ _ _ _ H L))) as Aw.
    apply (saturates dot act c w B S); [lia|lia| |exact Y]. rewrite W2, Hw. change (bpow radix2 8) with 256%R. lra.
Qed.
