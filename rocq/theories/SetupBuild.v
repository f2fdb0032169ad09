(** Construction of the architecture, and what the other theorems need. *)
From Verif Require Import PyBase PyLemmas ConfigModel ConfigSpec ConfigProofs VfuModel FloatModel FloatSpec AnalogProofs FloatProofs MvmuModel MvmuSpec CoreModel CoreSpec
  RouterModel SystemModel SystemSpec StatsModel ReportModel ReportSpec LoaderModel SetupModel SetupSpec SetupProofs SetupValues SetupParams.
From Flocq Require Import IEEE754.BinarySingleNaN Core.
From Coq Require Import Ascii String Reals Lra.
Open Scope Z_scope.

Lemma guard_ok b e (r : res unit) : guard b e r = Ok tt <-> b = true /\ r = Ok tt.
Proof. destruct b; cbn; split; try tauto; try discriminate. intros [[=] _]. Qed.
Lemma if_ok (b : bool) (r : res unit) : (if b then r else Ok tt) = Ok tt <-> (b = true -> r = Ok tt).
Proof. destruct b; split; auto; discriminate. Qed.
Theorem built_iff c : build c = Ok tt <-> buildable c.
Proof.
  unfold build, build_node, build_tile, build_core, build_unit.
  rewrite ?if_ok, ?guard_ok, ?if_ok, ?guard_ok, ?if_ok, ?guard_ok, ?if_ok, ?guard_ok.
  rewrite andb_true_iff, !is_some_iff, !orb_true_iff, !negb_true_iff, andb_true_iff, !Z.leb_le, !Z.eqb_neq, !Z.ltb_lt.
  assert (R : forall b : bool, (b = false \/ b = true)) by (intros []; auto).
  split.
  - intros H. constructor.
    + intros N. destruct (H ltac:(lia)) as (A & (B & C) & _). tauto.
    + intros N T. destruct (H ltac:(lia)) as (_ & _ & H1). destruct (H1 ltac:(lia)) as (A & _). exact A.
    + intros N T C. destruct (H ltac:(lia)) as (_ & _ & H1). destruct (H1 ltac:(lia)) as (_ & H2). destruct (H2 ltac:(lia)) as (A & _). exact A.
    + intros N T C M. destruct (H ltac:(lia)) as (_ & _ & H1). destruct (H1 ltac:(lia)) as (_ & H2). destruct (H2 ltac:(lia)) as (_ & H3).
      destruct (H3 ltac:(lia)) as (A & B & D & E & _). split; [exact A|]. split.
      * intros E0. rewrite E0 in *. destruct B as [[=]|B]. destruct D as [[=]|D]. lia.
      * intros E0. rewrite E0 in *. destruct E as [[=]|E]. exact E.
  - intros [H1 H2 H3 H4] N. destruct (H1 ltac:(lia)) as (A & B & C). split; [exact A|]. split; [tauto|]. intros T. split; [apply H2; lia|].
    intros K. split; [apply H3; lia|]. intros M. destruct (H4 ltac:(lia) ltac:(lia) ltac:(lia) ltac:(lia)) as (S & Ra & Sa). split; [exact S|]. split; [|split; [|split]].
    + destruct (have_rram (cf_storage c)); [right|now left]. destruct (Ra eq_refl). lia.
    + destruct (have_rram (cf_storage c)); [right|now left]. destruct (Ra eq_refl). lia.
    + destruct (have_sram (cf_storage c)); [right|now left]. now apply Sa.
    + reflexivity.
Qed.
Theorem build_errors c e : build c = Raise e -> e = ZeroDivisionError \/ e = TypeError \/ e = ValueError.
Proof.
  unfold build, build_node, build_tile, build_core, build_unit, guard.
  repeat match goal with |- context [if ?b then _ else _] => destruct b end; intros [= <-]; auto.
Qed.

Lemma whole_int n : Z.abs n <= 2 ^ 53 -> whole (f_of_Z n) = Some n.
Proof.
  intros H. destruct (f_of_Z_correct n H) as (F & E).
  assert (T : Btrunc (f_of_Z n) = n).
  { pose proof (Btrunc_correct prec64 emax64 eq_refl (f_of_Z n)) as B. rewrite E in B. rewrite round_generic in B; [now apply eq_IZR|apply valid_rnd_ZR|].
    apply generic_format_FIX. exists (Float radix2 n 0); cbn; [unfold F2R; cbn; ring|reflexivity]. }
  unfold whole. rewrite T. rewrite Beqb_correct by assumption. now rewrite Req_bool_true.
Qed.

Lemma honest_storage x l s c : load_config x (JObj l) = Ok c -> layout l s -> honest s -> validate_storage (cf_bits c) (cf_wwidth c) = Ok (cf_storage c).
Proof.
  intros H L (F1 & F2). destruct (load_inv _ _ _ H) as (l' & [= <-] & L' & A & G & V). rewrite (layout_unique _ _ _ L L') in *.
  destruct (validate_inv x l c G V) as (wi & wf & ai & af & st & Hx). cbv zeta in Hx. destruct Hx as (_ & _ & _ & S & ->).
  cbn [cf_bits cf_wwidth cf_storage]. unfold setting at 2 3. rewrite F1, F2. cbn [orb]. rewrite S. destruct st; reflexivity.
Qed.
Lemma lat_tabled x l s c p n size :
  load_config x (JObj l) = Ok c -> layout l s ->
  lookup (lat_table p) size = Some (f_of_Z n) -> match p with LFetch => size = cf_cinstr c | LData => size = cf_data c | LEdram => size = cf_edram_kb c
    | LDac => size = cf_dac_res c | LAdc => size = cf_adc_res c | _ => False end -> cf_lat c p = Some (f_of_Z n).
Proof.
  intros H L E Hs. rewrite (lat_eq _ _ _ _ H L). pose proof (proj2 (param_eq _ _ _ _ H L DacDyn)) as Z.
  unfold lat_in. rewrite <- Z. cbn [config_sizes z_cinstr z_data z_edram z_dac z_adc]. destruct p; try contradiction; subst size; rewrite E; reflexivity.
Qed.
Ltac cases H := cbn [In map] in H; repeat (destruct H as [H|H]; [rewrite <- H|]); [..|contradiction].
Theorem ready x l s c dot act : load_config x (JObj l) = Ok c -> layout l s -> sensible c -> honest s ->
  build c = Ok tt /\ exists y, sys_cfg_of dot act c = Some y /\ core_ok (cf_bits c) (cf_wwidth c) (y_core y) /\ usable_latencies y /\ 0 <= y_size y /\
    (moderate_pos (cf_vdd c) -> moderate_pos (cf_gmax c) -> is_finite (cf_gmin c) = true /\ B2R (cf_gmin c) = 0%R ->
     (forall a b, List.length a = List.length b -> sumprod (combine a b) (dot a b)) -> analog_ok (k_mv (y_core y))).
Proof.
  intros H L Se Ho. pose proof (described _ _ _ _ H L) as De. pose proof (honest_storage _ _ _ _ H L Ho) as St.
  destruct (load_inv _ _ _ H) as (l' & [= <-] & L' & A & _). rewrite (layout_unique _ _ _ L' L) in A. clear L'.
  destruct Se as [(Sx & Sd & Sa & Sp & Se & Sm & Sc & St') Su Sc' Sk Sw Sf (a & b & Ha & Hb & La & Lb)].
  assert (Fetch : cf_lat c LFetch = Some (f_of_Z 1)).
  { apply (lat_tabled _ _ _ _ LFetch 1 _ H L) with (2 := eq_refl). cases Sc; reflexivity. }
  assert (Data : cf_lat c LData = Some (f_of_Z 1)).
  { apply (lat_tabled _ _ _ _ LData 1 _ H L) with (2 := eq_refl). cases Sm; reflexivity. }
  assert (Edram : cf_lat c LEdram = Some (f_of_Z 50)).
  { apply (lat_tabled _ _ _ _ LEdram 50 _ H L) with (2 := eq_refl). cases Se; reflexivity. }
  assert (Dac : cf_lat c LDac = Some (f_of_Z 1)).
  { apply (lat_tabled _ _ _ _ LDac 1 _ H L) with (2 := eq_refl). cases Sd; reflexivity. }
  assert (Adc : exists n, 0 <= n <= 200 /\ cf_lat c LAdc = Some (f_of_Z n)).
  { cbn [In] in Sa. destruct Sa as [Sa|[Sa|[Sa|[Sa|[Sa|[]]]]]]; [exists 13|exists 25|exists 50|exists 100|exists 200]; (split; [lia|]);
      apply (lat_tabled _ _ _ _ LAdc _ _ H L) with (2 := eq_refl); rewrite <- Sa; reflexivity. }
  destruct Adc as (n & Hn & Adc).
  assert (W : forall k, 0 <= k <= 2 ^ 52 -> whole (f_of_Z k) = Some k) by (intros k Hk; apply whole_int; change (2 ^ 52) with 4503599627370496 in *; change (2 ^ 53) with 9007199254740992; lia).
  assert (D1 : 1 <= cf_dac_res c <= 16) by (cbn [In] in Sd; lia).
  assert (D2 : 1 <= cf_adc_res c <= 16) by (cbn [In] in Sa; lia).
  assert (D3 : 32 <= cf_size c <= 256) by (cbn [In] in Sx; lia).
  assert (Wi : 0 <= cf_wint c /\ 0 <= cf_wfrac c).
  { destruct (proj1 (de_weights _ _ _ De)) as (t & _ & i & f & _ & _ & _ & _ & _ & -> & ->). split; apply value_nonneg. }
  assert (Ai : 0 <= cf_aint c /\ 0 <= cf_afrac c).
  { destruct (proj1 (de_activations _ _ _ De)) as (t & _ & i & f & _ & _ & _ & _ & _ & -> & ->). split; apply value_nonneg. }
  assert (Aw : 1 <= cf_awidth c).
  { destruct (ac_activations _ _ A) as (ai & af & Fa & Nz). pose proof (proj1 (de_activations _ _ _ De)) as Fc. pose proof (proj2 (de_activations _ _ _ De)) as Ew.
    pose proof (ty_data _ _ (ac_typing _ _ A)) as Wt. pose proof (proj1 (layout_parts _ _) L) as (Es & _). rewrite Es in Fa, Fc, Wt.
    apply (aformat_iff x l Wt) in Fa, Fc. assert (ai = cf_aint c /\ af = cf_afrac c) by (split; congruence). lia. }
  assert (Ed : 0 <= cf_edram c).
  { rewrite (de_edram _ _ _ De). apply Z.div_pos; [|lia]. cbn [In] in Se. lia. }
  assert (Bd : (cf_cols c | cf_size c)) by (exists (cf_num_adc c); rewrite (de_adcs _ _ _ De) at 1; ring).
  split.
  - apply built_iff. constructor.
    + intros _. split; [cbn [In] in Sp; lia|]. assert (T : forall p, In p [IntraLeak; IntraArea] -> exists v, cf_param c p = Some v).
      { intros p Hp. destruct (tabulated_value _ _ _ _ H L p) as (v & E & _); [cbn [In] in Hp; intros ->; intuition discriminate| |eauto].
        cbn [In] in Hp. destruct Hp as [<-|[<-|[]]]; exact Sp. }
      split; apply T; cbn; auto.
    + intros _ _. exact Ed.
    + intros _ _ _. cbn [In] in Sm. lia.
    + intros _ _ _ _. split; [lia|]. split; [lia|]. lia.
  - unfold sys_cfg_of, ticks. rewrite Fetch, Data, Edram, La, Lb, Dac, Adc.
    rewrite !W by (change (2 ^ 52) with 4503599627370496 in *; lia). eexists. split; [reflexivity|]. cbn [y_core y_size]. split; [|split; [|split]].
    + constructor; cbn [k_mv k_mvmus k_cache]; [|exact Su|cbn [In] in Sm; lia]. unfold mvmu_cfg_of. constructor; cbn [c_storage c_size c_cols c_dac_res c_adc_res c_act_width c_weight_frac].
      * exact St.
      * intros E. rewrite validate_storage_eq in St. rewrite E in St. cbn in St. destruct (cf_wwidth c); try discriminate; lia.
      * lia.
      * lia.
      * apply Z.mod_divide; [lia|exact Bd].
      * lia.
      * lia.
      * lia.
      * lia.
    + unfold usable_latencies. cbn [y_lat y_net w_intra_lat w_inter_lat w_data_lat]. lia.
    + exact Ed.
    + intros V1 V2 V3 V4. unfold mvmu_cfg_of. constructor; cbn [k_mv c_vdd c_gmax c_gmin c_dot c_size c_dac_res]; try assumption.
      assert (P : 2 ^ cf_dac_res c <= 2 ^ 16) by (apply Z.pow_le_mono_r; lia). change (2 ^ 16) with 65536 in P. change (2 ^ 51) with 2251799813685248.
      assert (P0 : 0 < 2 ^ cf_dac_res c) by (apply Z.pow_pos_nonneg; lia). nia.
Qed.

(** The parameters of the reports. *)
Theorem report_params x l s c : load_config x (JObj l) = Ok c -> layout l s -> (forall p, keys_of p <> None -> in_file x s p None) ->
  exists value, forall p, cf_param c p = param_value (A := float_num) value (config_sizes c) p.
Proof.
  intros H L N. exists (fun p n => match cf_param c p with Some v => v | None => f0 end). intros p. unfold param_value.
  pose proof (table_keys (config_sizes c) p) as K. destruct (table_of (config_sizes c) p) as [[keys size]|] eqn:E; cbn [option_map fst] in K.
  - unfold in_table. cbn [fst snd]. destruct (existsb (Z.eqb size) keys) eqn:B.
    + assert (T : tabulated c p) by (unfold tabulated; rewrite size_table_eq, E; apply existsb_exists in B; destruct B as (k & Hk & Ek); apply Z.eqb_eq in Ek; now subst).
      assert (X : p = XbarPow \/ p <> XbarPow) by (clear; destruct p; first [now left|right; discriminate]). destruct X as [X|X].
      * rewrite X in *. destruct (xbar_pow _ _ _ _ H L T) as (u & w & _ & _ & ->). reflexivity.
      * destruct (tabulated_value _ _ _ _ H L _ X T) as (v & -> & _). reflexivity.
    + apply (missing _ _ _ _ H L p keys); [now symmetry| |apply N; congruence]. unfold tabulated. rewrite size_table_eq, E. intros Hin.
      assert (existsb (Z.eqb size) keys = true) by (apply existsb_exists; exists size; split; [exact Hin|apply Z.eqb_refl]). congruence.
  - assert (exists v, cf_param c p = Some v) as (v & ->); [|reflexivity].
    rewrite (untabulated_value _ _ _ _ H L). 2:{ unfold tabulated. now rewrite size_table_eq, E. }
    pose proof (default_spec p) as D. rewrite <- K in D. destruct D as (v & -> & _). destruct (setting_opt _ _ _); eauto.
Qed.
Theorem report_values x l s c : load_config x (JObj l) = Ok c -> layout l s -> (forall p, size_table c p <> None -> in_file x s p None) ->
  exists value, forall p, cf_param c p = param_value (A := float_num) value (config_sizes c) p.
Proof.
  intros H L N. apply (report_params x l s c H L). intros p K. apply N. rewrite (keys_iff c) in K. intros E. rewrite E in K. now apply K.
Qed.
