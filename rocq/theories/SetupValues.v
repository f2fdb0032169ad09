(** What accepted configuration files give, and what can be built from them. *)
From Verif Require Import PyBase PyLemmas ConfigModel ConfigSpec ConfigProofs VfuModel FloatModel FloatSpec AnalogProofs FloatProofs MvmuModel MvmuSpec CoreModel CoreSpec
  RouterModel SystemModel SystemSpec StatsModel ReportModel ReportSpec LoaderModel SetupModel SetupSpec SetupProofs.
From Flocq Require Import IEEE754.BinarySingleNaN Core.
From Coq Require Import Ascii String Reals Lra FunctionalExtensionality.
Open Scope Z_scope.

Lemma load_inv x doc c : load_config x doc = Ok c -> exists l, doc = JObj l /\ layout l (parts_of l) /\ acceptable x (parts_of l) /\ good_fields x l /\
  validate_and_calculate x (parts_of l) = Ok c.
Proof.
  destruct doc; try discriminate. intros H. exists l. split; [reflexivity|].
  destruct (proj1 (accepted_iff x l) (ex_intro _ c H)) as (s & L & A). pose proof (proj1 (layout_parts l s) L) as (-> & S).
  split; [exact L|]. split; [exact A|]. cbn [load_config] in H. destruct (first_error (field_errors x l) false) eqn:E; [discriminate|]. split; [|exact H].
  apply (proj1 (fields_verdict x l)). exact E.
Qed.
Lemma layout_unique l s s' : layout l s -> layout l s' -> s = s'.
Proof. intros H H'. apply layout_parts in H, H'. destruct H, H'. congruence. Qed.

Local Open Scope string_scope.
Local Open Scope Z_scope.
Lemma validate_inv x l c : good_fields x l -> validate_and_calculate x (parts_of l) = Ok c ->
  exists wi wf ai af st, let s := parts_of l in let int := setting (to_int x) in let flt := setting (to_float x) in let bool := setting (to_bool x) in
    let bits := setting (fun j => match j with JList l => bits_of l | _ => None end) (pt_data s) "storage_config" default_bits in
    let z := sizes_in x s in
    parse_format (setting str_of (pt_data s) "weight_format" "Q1.7") = Ok (wi, wf, wi + wf) /\
    parse_format (setting str_of (pt_data s) "activation_format" "Q4.4") = Ok (ai, af, ai + af) /\ ai + af <> 0 /\
    validate_storage bits (wi + wf) = Ok st /\
    c = MkConfig (int (pt_top s) "num_nodes" 1) (int (pt_top s) "num_tiles_per_node" 4) (int (pt_top s) "num_cores_per_tile" 8)
                (int (pt_top s) "num_mvmus_per_core" 6) bits wi wf (wi + wf) ai af (ai + af)
                (MkStorage (stored_bit st) (bits_per_cell st) (is_xbar_rram st) (rram_to_output_map st) (sram_to_output_map st) (num_rram st) (num_sram st)
                   (bool (pt_mvmu s) "have_rram_xbar" false || have_rram st) (bool (pt_mvmu s) "have_sram_xbar" false || have_sram st))
                (z_dac z) (z_adc z) (setting adc_of (pt_adc s) "type" false)
                (flt (pt_dac s) "VDD" (fint 1)) (flt (pt_xbar s) "rram_conductance_min" (fint 0)) (flt (pt_xbar s) "rram_conductance_max" (fint 1))
                (bool (pt_xbar s) "has_noise" false)
                (z_xbar z) (int (pt_mvmu s) "num_columns_per_adc" 16) (int (pt_mvmu s) "num_columns_per_calculator" 128)
                (z_xbar z / int (pt_mvmu s) "num_columns_per_adc" 16)
                (z_port z) (z_edram z) (z_edram z * 1024 * 8 / (ai + af)) (z_tinstr z) (z_data z) (z_cinstr z)
                (int (pt_core s) "alu_lat" 1) (int (pt_core s) "num_alu_per_vfu" 12)
                (lat_in x s) (param_in x s).
Proof.
  intros G H. destruct (validate_cases x l (proj1 (proj2 (proj2 G)))) as (wi & wf & ai & af & W & A & C).
  destruct C as [[_ C]|[(_ & _ & C)|(B & N & _)]]; [congruence|congruence|].
  unfold validate_and_calculate in H. unfold format_of in H. rewrite W, A in H. rewrite validate_storage_eq in H.
  rewrite B, Z.eqb_refl in H. unfold edram_size_of in H. destruct (Z.eqb_spec (ai + af) 0) as [E|_]; [contradiction|].
  exists wi, wf, ai, af. eexists. cbv zeta. split; [exact W|]. split; [exact A|]. split; [exact N|]. split; [rewrite validate_storage_eq, B, Z.eqb_refl; reflexivity|].
  injection H as <-. reflexivity.
Qed.

Lemma storage_flags b w st : validate_storage b w = Ok st -> (have_rram st = true <-> In false (map is_sram b)) /\ (have_sram st = true <-> In true (map is_sram b)).
Proof.
  rewrite validate_storage_eq. destruct (_ =? _); [|discriminate]. intros [= <-]. cbn [have_rram have_sram storage_of].
  rewrite !existsb_exists, !in_map_iff. split; split; intros (y & H1 & H2); exists y; destruct y; cbn in *; split; try reflexivity; try assumption; discriminate.
Qed.
Ltac rd W := first [apply (read_int _ _ _ W)|apply (read_float _ _ _ W)|apply (read_bool _ _ _ W)|apply (read_adc _ _ _ W)]; [here|reflexivity].
Theorem described x l s c : load_config x (JObj l) = Ok c -> layout l s -> describes x s c.
Proof.
  intros H L. destruct (load_inv _ _ _ H) as (l' & [= <-] & L' & A & G & V). rewrite (layout_unique _ _ _ L L') in *. clear L L' s.
  destruct (validate_inv x l c G V) as (wi & wf & ai & af & st & Hx). cbv zeta in Hx. destruct Hx as (W & Ac & N & S & ->).
  destruct A as [T _ _ (size & n & X & C & N0 & D) _ _]. destruct T as [T1 T2 T3 T4 T5 T6 T7 T8 T9].
  assert (F0 : forall b, gives (rd_bool x) (pt_mvmu (parts_of l)) "have_rram_xbar" false b <-> b = setting (to_bool x) (pt_mvmu (parts_of l)) "have_rram_xbar" false)
    by (intros; apply (read_bool _ _ _ T6); here).
  assert (F1 : forall b, gives (rd_bool x) (pt_mvmu (parts_of l)) "have_sram_xbar" false b <-> b = setting (to_bool x) (pt_mvmu (parts_of l)) "have_sram_xbar" false)
    by (intros; apply (read_bool _ _ _ T6); here).
  assert (Fl : (have_rram st = true <-> In false (map is_sram (setting (fun j => match j with JList l => bits_of l | _ => None end) (pt_data (parts_of l)) "storage_config" default_bits))) /\
    (have_sram st = true <-> In true (map is_sram (setting (fun j => match j with JList l => bits_of l | _ => None end) (pt_data (parts_of l)) "storage_config" default_bits)))).
  { exact (storage_flags _ _ _ S). }
  constructor; cbn [cf_nodes cf_tiles cf_cores cf_mvmus cf_bits cf_wint cf_wfrac cf_wwidth cf_aint cf_afrac cf_awidth cf_storage cf_dac_res cf_adc_res cf_differential
    cf_vdd cf_gmin cf_gmax cf_noise cf_size cf_cols cf_calc_cols cf_num_adc cf_port cf_edram_kb cf_edram cf_tinstr cf_data cf_cinstr cf_alu_lat cf_alus];
    try (rd T1); try (rd T6); try (rd T5); try (rd T7); try (rd T8); try (rd T9).
  - now apply (storage_iff x l T2).
  - split; [|reflexivity]. now apply (wformat_iff x l T2).
  - split; [|reflexivity]. now apply (aformat_iff x l T2).
  - constructor; cbn [cf_dac_res cf_adc_res cf_size cf_port cf_edram_kb cf_tinstr cf_data cf_cinstr]; unfold sizes_in; cbn [z_dac z_adc z_xbar z_edram z_tinstr z_data z_cinstr z_port].
    + rd T7.
    + rd T9.
    + rd T8.
    + rd T4.
    + rd T4.
    + rd T5.
    + rd T5.
    + rd T3.
  - apply (read_int _ _ _ T8) in X; [|here]. apply (read_int _ _ _ T6) in C; [|here]. cbn [sizes_in z_xbar]. rewrite <- X, <- C. now apply Z.div_exact; [|apply Z.mod_divide].
  - f_equal. ring.
  - exists st. split; [exact S|]. unfold same_crossbars. cbn. tauto.
  - cbn [have_rram]. rewrite F0, orb_true_iff. destruct Fl as (Fl & _). rewrite <- Fl. intuition congruence.
  - cbn [have_sram]. rewrite F1, orb_true_iff. destruct Fl as (_ & Fl). rewrite <- Fl. intuition congruence.
Qed.

(** ** Unknown fields *)
Lemma agree_ok x schema l l' : agree schema l l' -> fields_ok x schema l = fields_ok x schema l'.
Proof.
  intros A. unfold fields_ok. assert (K : forall f, In f schema -> field l (fst f) = field l' (fst f)) by (intros [k t] H; exact (A k t H)).
  clear A. induction schema as [|f r IH]; cbn [forallb]; [reflexivity|]. rewrite (K f (or_introl eq_refl)), IH; [reflexivity|]. intros g Hg. apply K. now right.
Qed.
Lemma agree_setting {A} schema l l' (f : json -> option A) k d t : agree schema l l' -> In (k, t) schema -> setting f l k d = setting f l' k d.
Proof. intros H Hin. unfold setting. now rewrite (H _ _ Hin). Qed.
Lemma agree_opt {A} schema l l' (f : json -> option A) k t : agree schema l l' -> In (k, t) schema -> setting_opt f l k = setting_opt f l' k.
Proof. intros H Hin. unfold setting_opt. now rewrite (H _ _ Hin). Qed.
(** The schema of a part. *)
Lemma param_known s s' p : same_settings s s' ->
  field (fst (param_field s p)) (snd (param_field s p)) = field (fst (param_field s' p)) (snd (param_field s' p)).
Proof. intros [_ _ N T C M D X A]. destruct p; cbn [param_field fst snd]; first [eapply N|eapply T|eapply C|eapply M|eapply D|eapply X|eapply A]; here. Qed.
Theorem unknown_ignored x l l' s s' : layout l s -> layout l' s' -> same_settings s s' -> load_config x (JObj l) = load_config x (JObj l').
Proof.
  intros L L' S. pose proof (proj1 (layout_parts _ _) L) as (E & K). pose proof (proj1 (layout_parts _ _) L') as (E' & K').
  assert (Z : sizes_in x s = sizes_in x s').
  { unfold sizes_in. destruct S as [_ _ N T C M D X A]. f_equal.
    - eapply (agree_setting _ _ _ _ _ _ _ D). here.
    - eapply (agree_setting _ _ _ _ _ _ _ A). here.
    - eapply (agree_setting _ _ _ _ _ _ _ X). here.
    - eapply (agree_setting _ _ _ _ _ _ _ T). here.
    - eapply (agree_setting _ _ _ _ _ _ _ T). here.
    - eapply (agree_setting _ _ _ _ _ _ _ C). here.
    - eapply (agree_setting _ _ _ _ _ _ _ C). here.
    - eapply (agree_setting _ _ _ _ _ _ _ N). here. }
  assert (P : param_in x s = param_in x s').
  { apply functional_extensionality. intros p. unfold param_in. rewrite Z.
    unfold setting_opt. rewrite (param_known s s' p S).
    assert (H1 : setting (to_float x) (pt_xbar s) "xbar_ip_lat" xbar_ip_lat0 = setting (to_float x) (pt_xbar s') "xbar_ip_lat" xbar_ip_lat0)
      by (eapply (agree_setting _ _ _ _ _ _ _ (ss_xbar _ _ S)); here).
    assert (H2 : setting (to_float x) (pt_xbar s) "xbar_ip_pow" xbar_ip_pow0 = setting (to_float x) (pt_xbar s') "xbar_ip_pow" xbar_ip_pow0)
      by (eapply (agree_setting _ _ _ _ _ _ _ (ss_xbar _ _ S)); here).
    rewrite H1, H2. reflexivity. }
  assert (I : intra_in x s = intra_in x s').
  { unfold intra_in. rewrite (agree_setting _ _ _ (to_float x) _ _ TFloat (ss_noc _ _ S)) by here. now rewrite (agree_opt _ _ _ _ _ TFloat (ss_noc _ _ S)) by here. }
  assert (T : lat_in x s = lat_in x s').
  { apply functional_extensionality. intros p. unfold lat_in. rewrite Z, I. destruct p; cbv zeta; try reflexivity.
    - now rewrite (agree_opt _ _ _ _ _ TFloat (ss_core _ _ S)) by here.
    - now rewrite (agree_opt _ _ _ _ _ TFloat (ss_core _ _ S)) by here.
    - now rewrite (agree_opt _ _ _ _ _ TFloat (ss_tile _ _ S)) by here.
    - now rewrite (agree_setting _ _ _ (to_float x) _ _ TFloat (ss_noc _ _ S)) by here.
    - now rewrite (agree_opt _ _ _ _ _ TFloat (ss_dac _ _ S)) by here.
    - now rewrite (agree_opt _ _ _ _ _ TFloat (ss_adc _ _ S)) by here. }
  assert (V : validate_and_calculate x s = validate_and_calculate x s').
  { unfold validate_and_calculate. rewrite Z, P, T. destruct S as [To Da _ Ti Co Mv Dc Xb Ad].
    rewrite !(agree_setting _ _ _ str_of _ _ TStr Da) by here. rewrite !(agree_setting _ _ _ (fun j => match j with JList l => bits_of l | _ => None end) _ _ TBits Da) by here.
    rewrite !(agree_setting _ _ _ (to_int x) _ _ TInt To) by here. rewrite !(agree_setting _ _ _ (to_int x) _ _ TInt Mv) by here.
    rewrite !(agree_setting _ _ _ (to_bool x) _ _ TBool Mv) by here. rewrite !(agree_setting _ _ _ adc_of _ _ TAdc Ad) by here.
    rewrite !(agree_setting _ _ _ (to_float x) _ _ TFloat Dc) by here. rewrite !(agree_setting _ _ _ (to_float x) _ _ TFloat Xb) by here.
    rewrite !(agree_setting _ _ _ (to_bool x) _ _ TBool Xb) by here. rewrite !(agree_setting _ _ _ (to_int x) _ _ TInt Co) by here. reflexivity. }
  assert (F : field_errors x l = field_errors x l').
  { unfold field_errors. rewrite <- E, <- E'. unfold sections_ok in K, K'. rewrite <- E in K. rewrite <- E' in K'.
    destruct K as (K1 & K2 & K3 & K4 & K5 & K6 & K7 & K8). destruct K' as (K1' & K2' & K3' & K4' & K5' & K6' & K7' & K8').
    rewrite K6, K7, K8, K6', K7', K8'. cbn [andb].
    repeat match goal with K : is_some (section ?a ?b) = true |- _ => destruct (section a b); [clear K|discriminate K] end.
    assert (Nc : noc_error x s = noc_error x s').
    { unfold noc_error. now rewrite I, (agree_ok x _ _ _ (ss_noc _ _ S)), (agree_setting _ _ _ (to_float x) _ _ TFloat (ss_noc _ _ S)) by here. }
    assert (Mc : mvmu_error x s = mvmu_error x s').
    { unfold mvmu_error. rewrite (agree_ok x _ _ _ (ss_mvmu _ _ S)), (agree_ok x _ _ _ (ss_dac _ _ S)), (agree_ok x _ _ _ (ss_xbar _ _ S)), (agree_ok x _ _ _ (ss_adc _ _ S)).
      now rewrite (agree_setting _ _ _ (to_int x) _ _ TInt (ss_mvmu _ _ S)), (agree_setting _ _ _ (to_int x) _ _ TInt (ss_xbar _ _ S)) by here. }
    assert (Dc : data_error x (pt_data s) = data_error x (pt_data s')).
    { unfold data_error. rewrite (agree_ok x _ _ _ (ss_data _ _ S)). now rewrite !(agree_setting _ _ _ str_of _ _ TStr (ss_data _ _ S)) by here. }
    rewrite Nc, Mc, Dc, (agree_ok x _ _ _ (ss_tile _ _ S)), (agree_ok x _ _ _ (ss_core _ _ S)).
    pose proof (ss_top _ _ S) as To. rewrite (ly_top _ _ L), (ly_top _ _ L') in To. now rewrite (agree_ok x _ _ _ To). }
  cbn [load_config]. rewrite F, <- E, <- E', V. reflexivity.
Qed.
