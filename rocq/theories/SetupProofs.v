(** Acceptance of configuration files, their values, and construction. *)
From Verif Require Import PyBase PyLemmas ConfigModel ConfigSpec ConfigProofs FloatModel FloatSpec AnalogProofs FloatProofs MvmuModel MvmuSpec CoreModel CoreSpec
  RouterModel SystemModel SystemSpec StatsModel ReportModel ReportSpec LoaderModel SetupModel SetupSpec.
From Flocq Require Import IEEE754.BinarySingleNaN Core.
From Coq Require Import Ascii String Reals Lra FunctionalExtensionality.
Open Scope Z_scope.

(** ** Numbers *)
Lemma dec_nearest n k : Z.abs n <= 2 ^ 53 -> 0 <= k <= 15 -> nearest (IZR n / IZR (10 ^ k)) (dec n k).
Proof.
  intros Hn Hk. destruct (f_of_Z_correct n Hn) as (F1 & E1).
  assert (P1 : 1 <= 10 ^ k) by (change 1 with (10 ^ 0); apply Z.pow_le_mono_r; lia).
  assert (P2 : 10 ^ k <= 10 ^ 15) by (apply Z.pow_le_mono_r; lia).
  destruct (f_of_Z_correct (10 ^ k)) as (F2 & E2); [change (10 ^ 15) with 1000000000000000 in P2; change (2 ^ 53) with 9007199254740992; lia|].
  pose proof (IZR_le _ _ P1) as R1. 
  unfold nearest, dec, fdiv. pose proof (Bdiv_correct prec64 emax64 _ _ mode_NE (f_of_Z n) (f_of_Z (10 ^ k))) as C. cbn [round_mode] in C.
  rewrite E1, E2 in C. specialize (C ltac:(apply Rgt_not_eq; lra)).
  rewrite Rlt_bool_true in C.
  - destruct C as (C1 & C2 & _). split; [rewrite C2; exact F1|exact C1].
  - eapply Rle_lt_trans with (bpow radix2 53); [|apply bpow_lt; reflexivity].
    apply abs_round_le_generic; [exact (FLT_exp_valid (-1074) 53)|apply valid_rnd_N| |].
    + apply generic_format_bpow. vm_compute. discriminate.
    + unfold Rdiv. rewrite Rabs_mult, (Rabs_pos_eq (/ _)) by (left; apply Rinv_0_lt_compat; lra).
      rewrite <- abs_IZR. change (bpow radix2 53) with (IZR (2 ^ 53)). apply IZR_le in Hn.
      apply Rle_trans with (IZR (Z.abs n) * 1)%R; [|lra]. apply Rmult_le_compat_l; [apply IZR_le; lia|].
      rewrite <- Rinv_1. apply Rinv_le; lra.
Qed.
Lemma nearest_beq r v w : nearest r v -> Beqb v w = true <-> nearest r w.
Proof.
  intros (F & E). unfold nearest. split.
  - intros B. assert (Fw : is_finite w = true).
    { destruct w as [s|s| |s m e p]; try reflexivity; destruct v as [s'|s'| |s' m' e' p']; cbn in *; try discriminate; try (destruct s'; discriminate); try (destruct s; discriminate). }
    split; [exact Fw|]. rewrite Beqb_correct in B by assumption. rewrite <- E. symmetry. revert B. now case Req_bool_spec.
  - intros (Fw & Ew). rewrite Beqb_correct by assumption. rewrite E, Ew. now apply Req_bool_true.
Qed.
Lemma nearest_lt r m v : nearest r m -> Bltb m v = true <-> (is_finite v = true /\ (B2R m < B2R v)%R) \/ v = B754_infinity false.
Proof.
  intros (F & E). destruct (is_finite v) eqn:Fv.
  - rewrite Bltb_correct by assumption. split.
    + intros H. left. split; [reflexivity|]. revert H. now case Rlt_bool_spec.
    + intros [[_ H]|H]; [now apply Rlt_bool_true|]. rewrite H in Fv. discriminate.
  - destruct v as [s|s| |s mm e p]; cbn in Fv; try discriminate.
    + destruct m as [s'|s'| |s' m' e' p']; cbn in F; try discriminate; destruct s; try destruct s'; cbn; split; intros H;
        try discriminate; try (now right); try (destruct H as [[H _]|H]; discriminate); reflexivity.
    + destruct m as [s'|s'| |s' m' e' p']; cbn in F; try discriminate; try destruct s'; cbn; split; intros H;
        try discriminate; destruct H as [[H _]|H]; discriminate.
Qed.

Lemma rate_max_nearest : nearest (25 / 1000) rate_max.
Proof. exact (dec_nearest 25 3 ltac:(lia) ltac:(lia)). Qed.
Lemma too_fast_iff v : too_fast v <-> Bltb rate_max v = true.
Proof.
  rewrite (nearest_lt _ _ v rate_max_nearest). unfold too_fast. split.
  - intros (m & Hm & H). destruct Hm as (_ & E). destruct rate_max_nearest as (_ & E'). now rewrite E', <- E.
  - intros H. exists rate_max. split; [apply rate_max_nearest|exact H].
Qed.
Lemma nearest_unique r v w : nearest r v -> nearest r w -> (0 < B2R v)%R -> v = w.
Proof.
  intros (F & E) (F' & E') P. rewrite E in P. apply B2R_inj; [..|congruence].
  - destruct v; cbn in *; try discriminate; auto. rewrite <- E in P. lra.
  - destruct w; cbn in *; try discriminate; auto. rewrite <- E' in P. lra.
Qed.

Lemma nearest_pos r v : nearest r v -> (bpow radix2 (-100) <= r)%R -> (0 < B2R v)%R.
Proof.
  intros (_ & E) H. rewrite E. apply Rlt_le_trans with (bpow radix2 (-100)); [apply bpow_gt_0|].
  apply round_ge_generic; [exact (FLT_exp_valid (-1074) 53)|apply valid_rnd_N| |exact H]. apply generic_format_bpow. vm_compute. discriminate.
Qed.
Lemma rates_differ a b : In a [1; 5; 10; 20; 25] -> In b [1; 5; 10; 20; 25] -> Beqb (dec a 3) (dec b 3) = (a =? b).
Proof.
  intros Ha Hb. cbn in Ha, Hb. repeat destruct Ha as [<-|Ha]; try contradiction; repeat destruct Hb as [<-|Hb]; try contradiction; vm_compute; reflexivity.
Qed.
Lemma rate_lookup_some r v : rate_lookup rate_table r = Some v <-> exists q n, In (q, n) known_rates /\ nearest (IZR q / 1000) r /\ v = f_of_Z n.
Proof.
  split.
  - change rate_table with (map (fun t => (dec (fst t) 3, f_of_Z (snd t))) known_rates).
    assert (K : forall t, In t known_rates -> nearest (IZR (fst t) / 1000) (dec (fst t) 3)).
    { intros t Ht. apply (dec_nearest (fst t) 3); [|lia]. cbn in Ht. change (2 ^ 53) with 9007199254740992.
      repeat destruct Ht as [<-|Ht]; cbn [fst]; try lia. }
    induction known_rates as [|[q n] l IH]; cbn [map rate_lookup fst snd]; [discriminate|].
    destruct (Beqb (dec q 3) r) eqn:B.
    + intros [= <-]. exists q, n. split; [now left|]. split; [|reflexivity]. apply (nearest_beq _ _ r (K (q, n) (or_introl eq_refl))). exact B.
    + intros H. destruct (IH (fun t Ht => K t (or_intror Ht)) H) as (q' & n' & H1 & H2 & H3). exists q', n'. split; [now right|tauto].
  - intros (q & n & Hin & Hr & ->).
    assert (E : r = dec q 3).
    { symmetry. apply (nearest_unique (IZR q / 1000)); [|exact Hr|].
      - apply (dec_nearest q 3); [|lia]. cbn in Hin. change (2 ^ 53) with 9007199254740992.
        repeat destruct Hin as [[= <- <-]|Hin]; try lia.
      - cbn in Hin. repeat destruct Hin as [[= <- <-]|Hin].
        all: match goal with |- (0 < B2R (dec ?n ?k))%R => apply (nearest_pos _ _ (dec_nearest n k ltac:(lia) ltac:(lia))) end;
          change (bpow radix2 (-100)) with (/ 1267650600228229401496703205376)%R; change (10 ^ 3) with 1000; lra. }
    subst r. clear Hr. cbn in Hin. unfold rate_table. cbn [rate_lookup].
    repeat destruct Hin as [[= <- <-]|Hin]; try contradiction; rewrite !rates_differ by (cbn; tauto); reflexivity.
Qed.
Lemma rate_lookup_none r : rate_lookup rate_table r = None <-> forall q n, In (q, n) known_rates -> ~ nearest (IZR q / 1000) r.
Proof.
  split.
  - intros H q n Hin Hr. assert (rate_lookup rate_table r = Some (f_of_Z n)) by (apply rate_lookup_some; eauto). congruence.
  - intros H. destruct (rate_lookup rate_table r) as [v|] eqn:E; [|reflexivity]. apply rate_lookup_some in E. destruct E as (q & n & H1 & H2 & _).
    exfalso. eapply H; eauto.
Qed.

(** ** Types *)
Lemma bit_of_iff j b : bit_of j = Some b <-> exists s, j = JStr s /\ bit_text s b.
Proof.
  split.
  - destruct j; cbn [bit_of]; try discriminate. intros H. exists s. split; [reflexivity|]. revert H.
    repeat match goal with |- context [String.eqb s ?t] => destruct (String.eqb_spec s t) as [->|] end; intros [= <-]; constructor.
  - intros (s & -> & H). destruct H; reflexivity.
Qed.
Lemma bits_of_iff l b : bits_of l = Some b <-> exists t, l = map JStr t /\ Forall2 bit_text t b.
Proof.
  revert b. induction l as [|j l IH]; intros b; cbn [bits_of].
  - split; [intros [= <-]; exists []; split; [reflexivity|constructor]|]. intros ([|t ts] & E & F); [inversion F; reflexivity|discriminate].
  - destruct (bit_of j) as [b0|] eqn:E0.
    + apply bit_of_iff in E0. destruct E0 as (s & -> & Hs). destruct (bits_of l) as [bs|] eqn:E1.
      * destruct (proj1 (IH bs) eq_refl) as (t & -> & Ht). split.
        { intros [= <-]. exists (s :: t). split; [reflexivity|now constructor]. }
        { intros ([|u us] & E & F); [discriminate|]. cbn in E. injection E as -> Em. inversion F as [|? ? ? ? Hu Hus]; subst.
          f_equal. f_equal; [|].
          - destruct Hu; inversion Hs; reflexivity.
          - assert (X : Some bs = Some l') by (apply IH; exists us; split; assumption). congruence. }
      * split; [discriminate|]. intros ([|u us] & E & F); [discriminate|]. cbn in E. injection E as -> Em. inversion F; subst.
        assert (X : None = Some l') by (apply IH; exists us; split; [reflexivity|assumption]). discriminate X.
    + split; [discriminate|]. intros ([|u us] & E & F); [discriminate|]. cbn in E. injection E as -> Em. inversion F; subst.
      assert (X : bit_of (JStr u) = Some y) by (apply bit_of_iff; eauto). congruence.
Qed.
Lemma adc_of_iff j b : adc_of j = Some b <-> exists s, j = JStr s /\ adc_text s b.
Proof.
  split.
  - destruct j; cbn [adc_of]; try discriminate. intros H. exists s. split; [reflexivity|]. revert H.
    repeat match goal with |- context [String.eqb s ?t] => destruct (String.eqb_spec s t) as [->|] end; intros [= <-]; constructor.
  - intros (s & -> & H). destruct H; reflexivity.
Qed.
Lemma str_of_iff j s : str_of j = Some s <-> j = JStr s.
Proof. destruct j; cbn; split; congruence. Qed.
Lemma is_some_iff {A} (o : option A) : is_some o = true <-> exists a, o = Some a.
Proof. destruct o; cbn; split; eauto; [discriminate|]. intros (a & H). discriminate. Qed.
Lemma typed_iff x t j : typed x t j = true <-> has_type x t j.
Proof.
  destruct t; cbn [typed]; rewrite ?is_some_iff.
  - split; [intros (n & H); econstructor; eauto|inversion 1; eauto].
  - split; [intros (n & H); econstructor; eauto|inversion 1; eauto].
  - split; [intros (n & H); econstructor; eauto|inversion 1; eauto].
  - split; [intros (s & H); apply str_of_iff in H; subst; constructor|inversion 1; cbn; eauto].
  - split; [destruct j; try discriminate; constructor|inversion 1; reflexivity].
  - split.
    + destruct j; try discriminate. rewrite is_some_iff. intros (b & H). apply bits_of_iff in H. destruct H as (u & -> & H). econstructor; eauto.
    + inversion 1; subst. rewrite is_some_iff. exists b. apply bits_of_iff. eauto.
  - split; [intros (b & H); apply adc_of_iff in H; destruct H as (s & -> & H); econstructor; eauto|inversion 1; subst; exists b; apply adc_of_iff; eauto].
Qed.
Lemma fields_ok_iff x schema l : fields_ok x schema l = true <-> well_typed x schema l.
Proof.
  unfold fields_ok, well_typed. rewrite forallb_forall. split.
  - intros H k t j Hin Hj. specialize (H _ Hin). cbn [fst snd] in H. rewrite Hj in H. now apply typed_iff.
  - intros H [k t] Hin. cbn [fst snd]. destruct (field l k) as [j|] eqn:E; [|reflexivity]. apply typed_iff. eauto.
Qed.

(** ** Reading fields *)
Lemma gives_get {A} (f : json -> option A) (rd : json -> A -> Prop) l k d v :
  (forall j w, rd j w <-> f j = Some w) -> (forall j, field l k = Some j -> exists w, f j = Some w) -> gives rd l k d v <-> v = setting f l k d.
Proof.
  intros E T. unfold gives, setting. destruct (field l k) as [j|].
  - destruct (T j eq_refl) as (w & Hw). rewrite Hw. split.
    + intros [[H _]|(j' & [= <-] & H)]; [discriminate|]. apply E in H. congruence.
    + intros ->. right. exists j. split; [reflexivity|]. now apply E.
  - split; [intros [[_ H]|(j' & H & _)]; [exact H|discriminate]|]. intros ->. now left.
Qed.
Section Reading.
Context (x : conv) (schema : list (string * ftype)) (l : list (string * json)) (W : well_typed x schema l).
Lemma read_int k d v : In (k, TInt) schema -> gives (rd_int x) l k d v <-> v = setting (to_int x) l k d.
Proof. intros H. apply gives_get; [reflexivity|]. intros j Hj. specialize (W _ _ _ H Hj). inversion W; eauto. Qed.
Lemma read_float k d v : In (k, TFloat) schema -> gives (rd_float x) l k d v <-> v = setting (to_float x) l k d.
Proof. intros H. apply gives_get; [reflexivity|]. intros j Hj. specialize (W _ _ _ H Hj). inversion W; eauto. Qed.
Lemma read_bool k d v : In (k, TBool) schema -> gives (rd_bool x) l k d v <-> v = setting (to_bool x) l k d.
Proof. intros H. apply gives_get; [reflexivity|]. intros j Hj. specialize (W _ _ _ H Hj). inversion W; eauto. Qed.
Lemma read_str k d v : In (k, TStr) schema -> gives rd_str l k d v <-> v = setting str_of l k d.
Proof.
  intros H. apply gives_get; [intros; symmetry; apply str_of_iff|]. intros j Hj. specialize (W _ _ _ H Hj). inversion W; cbn; eauto.
Qed.
Lemma read_bits k d v : In (k, TBits) schema -> gives rd_bits l k d v <-> v = setting (fun j => match j with JList l => bits_of l | _ => None end) l k d.
Proof.
  intros H. apply gives_get.
  - intros j w. unfold rd_bits. split.
    + intros (t & -> & Ht). apply bits_of_iff. eauto.
    + destruct j; try discriminate. rewrite bits_of_iff. intros (t & -> & Ht). eauto.
  - intros j Hj. specialize (W _ _ _ H Hj). inversion W; subst. exists b. apply bits_of_iff. eauto.
Qed.
Lemma read_adc k d v : In (k, TAdc) schema -> gives rd_adc l k d v <-> v = setting adc_of l k d.
Proof.
  intros H. apply gives_get; [intros; symmetry; apply adc_of_iff|]. intros j Hj. specialize (W _ _ _ H Hj). inversion W; subst.
  exists b. apply adc_of_iff. eauto.
Qed.
End Reading.
Ltac here := cbv [top_fields data_fields dac_fields xbar_fields adc_fields noc_fields tile_fields core_fields mvmu_fields floats map app];
  repeat (try (left; reflexivity); right).

(** ** Sections *)
Lemma section_iff l k s : section l k = Some s <-> part_is l k s.
Proof.
  unfold section, part_is. destruct (field l k) as [j|].
  - destruct j; split; try discriminate; try (intros [[H _]|H]; discriminate); [intros [= <-]; now right|intros [[H _]|H]; [discriminate|congruence]].
  - split; [intros [= <-]; now left|intros [[_ ->]|H]; [reflexivity|discriminate]].
Qed.

Local Open Scope string_scope.
Local Open Scope Z_scope.
Definition sections_ok (l : list (string * json)) : Prop :=
  is_some (section l "data_config") = true /\ is_some (section l "noc_config") = true /\ is_some (section l "tile_config") = true /\
  is_some (section l "core_config") = true /\ is_some (section l "mvmu_config") = true /\
  is_some (section (pt_mvmu (parts_of l)) "dac_config") = true /\ is_some (section (pt_mvmu (parts_of l)) "xbar_config") = true /\
  is_some (section (pt_mvmu (parts_of l)) "adc_config") = true.
Lemma part_or l k s : part_is l k s -> or_empty (section l k) = s.
Proof. intros H. apply section_iff in H. now rewrite H. Qed.
Lemma or_part l k : is_some (section l k) = true -> part_is l k (or_empty (section l k)).
Proof. intros H. apply section_iff. destruct (section l k); [reflexivity|discriminate]. Qed.
Lemma part_some l k s : part_is l k s -> is_some (section l k) = true.
Proof. intros H. apply section_iff in H. now rewrite H. Qed.
Lemma layout_parts l s : layout l s <-> s = parts_of l /\ sections_ok l.
Proof.
  split.
  - intros [? ? ? ? ? L6 ? ? ?]. assert (E : pt_mvmu (parts_of l) = pt_mvmu s) by (cbn; now apply part_or).
    split; [|unfold sections_ok; rewrite E; repeat split; eapply part_some; eassumption].
    destruct s as [top data noc tile core mvmu dac xbar adc]. cbn in *. unfold parts_of. cbv zeta.
    apply part_or in L6. rewrite L6. subst top. f_equal; symmetry; now apply part_or.
  - intros (-> & H1 & H2 & H3 & H4 & H5 & H6 & H7 & H8). constructor; cbn; try (now apply or_part). reflexivity.
Qed.

(** ** Errors *)
Definition soft (o : option exn) : Prop := o = None \/ o = Some ValueError.
Lemma unless_soft b : soft (unless b ValueError).
Proof. destruct b; [now left|now right]. Qed.
Lemma data_soft x l : soft (data_error x l).
Proof. unfold data_error. destruct (negb _); [now right|]. destruct (parse_format _); [destruct (parse_format _)|]; (now left) || (now right). Qed.
Lemma parse_or s : (exists v, parse_format s = Ok v) \/ parse_format s = Raise ValueError.
Proof.
  destruct s as [|c t]; [now right|]. cbn [parse_format]. destruct (negb (Ascii.eqb c "Q")); [now right|].
  destruct (scan_digits t 0 0) as [[n i] [|d t2]]; [now right|]. destruct (_ || _); [now right|].
  destruct (scan_digits t2 0 0) as [[n2 f] r]. destruct (n2 =? 0); [now right|]. left. eauto.
Qed.

Lemma format_iff t i f : format_is t i f <-> parse_format t = Ok (i, f, i + f).
Proof.
  split.
  - intros (a & b & r & Ha & Hb & Hr & -> & -> & ->). now apply parse_format_ok.
  - intros H. apply parse_format_inv in H. destruct H as (a & b & r & Ha & Hb & Hr & E & Ei & Ef & _). exists a, b, r. tauto.
Qed.
Lemma parse_width t i f w : parse_format t = Ok (i, f, w) -> w = i + f.
Proof. intros H. apply parse_format_inv in H. destruct H as (a & b & r & _ & _ & _ & _ & _ & _ & E). exact E. Qed.

Section Accept.
Context (x : conv) (l : list (string * json)).
Let s := parts_of l.
Let wtext := setting str_of (pt_data s) "weight_format" "Q1.7".
Let atext := setting str_of (pt_data s) "activation_format" "Q4.4".
Let bits := setting (fun j => match j with JList l => bits_of l | _ => None end) (pt_data s) "storage_config" default_bits.
Let rate := setting (to_float x) (pt_noc s) "inj_rate" (dec 5 3).
Let cols := setting (to_int x) (pt_mvmu s) "num_columns_per_adc" 16.
Let xsize := setting (to_int x) (pt_xbar s) "xbar_size" 128.

Lemma wformat_iff : well_typed x data_fields (pt_data s) -> forall i f, weight_format_is s i f <-> parse_format wtext = Ok (i, f, i + f).
Proof.
  intros W i f. unfold weight_format_is. rewrite <- format_iff. split.
  - intros (t & Ht & Hf). apply (read_str _ _ _ W) in Ht; [|here]. now subst t.
  - intros H. exists wtext. split; [|exact H]. apply (read_str _ _ _ W); [here|reflexivity].
Qed.
Lemma aformat_iff : well_typed x data_fields (pt_data s) -> forall i f, activation_format_is s i f <-> parse_format atext = Ok (i, f, i + f).
Proof.
  intros W i f. unfold activation_format_is. rewrite <- format_iff. split.
  - intros (t & Ht & Hf). apply (read_str _ _ _ W) in Ht; [|here]. now subst t.
  - intros H. exists atext. split; [|exact H]. apply (read_str _ _ _ W); [here|reflexivity].
Qed.
Lemma storage_iff : well_typed x data_fields (pt_data s) -> forall b, storage_is s b <-> b = bits.
Proof. intros W b. apply (read_bits _ _ _ W). here. Qed.
End Accept.
Lemma default_rate : nearest (5 / 1000) (dec 5 3).
Proof. exact (dec_nearest 5 3 ltac:(lia) ltac:(lia)). Qed.
Lemma rate_iff x n : well_typed x noc_fields n -> forall v, rate_is x n v <-> v = setting (to_float x) n "inj_rate" (dec 5 3).
Proof.
  intros W v. unfold rate_is. split.
  - intros (d & Hd & Hv). assert (E : d = dec 5 3).
    { symmetry. apply (nearest_unique (5 / 1000)); [apply default_rate|exact Hd|]. apply (nearest_pos _ _ default_rate).
      change (bpow radix2 (-100)) with (/ 1267650600228229401496703205376)%R. lra. }
    subst d. now apply (read_float _ _ _ W) in Hv; [|here].
  - intros ->. exists (dec 5 3). split; [apply default_rate|]. apply (read_float _ _ _ W); [here|reflexivity].
Qed.
Definition intra_of (x : conv) (n : list (string * json)) : option f64 :=
  match rate_lookup rate_table (setting (to_float x) n "inj_rate" (dec 5 3)) with
  | Some v => Some v
  | None => setting_opt (to_float x) n "noc_intra_lat"
  end.
Lemma intra_iff x n : well_typed x noc_fields n -> forall v, intra_is x n v <-> intra_of x n = Some v.
Proof.
  intros W v. unfold intra_is, intra_of. split.
  - intros (r & Hr & H). apply (rate_iff _ _ W) in Hr. subst r. destruct H as [H|[H (j & Hj & Hv)]].
    + apply rate_lookup_some in H. now rewrite H.
    + apply rate_lookup_none in H. rewrite H. unfold setting_opt. now rewrite Hj.
  - intros H. eexists. split; [apply (rate_iff _ _ W); reflexivity|]. destruct (rate_lookup _ _) as [w|] eqn:E.
    + left. injection H as ->. now apply rate_lookup_some.
    + right. split; [now apply rate_lookup_none|]. unfold setting_opt in H. destruct (field n "noc_intra_lat") as [j|]; [eauto|discriminate].
Qed.

Section Verdict.
Context (x : conv) (l : list (string * json)).
Let s := parts_of l.
Lemma noc_error_iff :
  (noc_error x s = None <-> well_typed x noc_fields (pt_noc s) /\ (exists r, rate_is x (pt_noc s) r /\ ~ too_fast r) /\ exists v, intra_is x (pt_noc s) v) /\
  (noc_error x s = Some TypeError <-> well_typed x noc_fields (pt_noc s) /\ (exists r, rate_is x (pt_noc s) r /\ ~ too_fast r) /\ forall v, ~ intra_is x (pt_noc s) v) /\
  (soft (noc_error x s) \/ noc_error x s = Some TypeError).
Proof.
  unfold noc_error. rewrite <- fields_ok_iff. destruct (fields_ok x noc_fields (pt_noc s)) eqn:F; cbn [negb].
  2:{ split; [|split]; [split; [discriminate|intros [[=] _]]|split; [discriminate|intros [[=] _]]|left; now right]. }
  pose proof (proj1 (fields_ok_iff _ _ _) F) as W.
  assert (R : (exists r, rate_is x (pt_noc s) r /\ ~ too_fast r) <-> Bltb rate_max (setting (to_float x) (pt_noc s) "inj_rate" (dec 5 3)) = false).
  { split.
    - intros (r & Hr & H). apply (rate_iff _ _ W) in Hr. subst r. rewrite too_fast_iff in H. now apply Bool.not_true_is_false.
    - intros H. eexists. split; [apply (rate_iff _ _ W); reflexivity|]. rewrite too_fast_iff, H. discriminate. }
  rewrite R. destruct (Bltb _ _) eqn:B.
  { split; [|split]; [split; [discriminate|intros (_ & [=] & _)]|split; [discriminate|intros (_ & [=] & _)]|left; now right]. }
  change (intra_in x s) with (intra_of x (pt_noc s)). destruct (intra_of x (pt_noc s)) as [v|] eqn:I; cbn [is_some].
  - split; [|split].
    + split; [|reflexivity]. intros _. repeat split. exists v. now apply (intra_iff _ _ W).
    + split; [discriminate|]. intros (_ & _ & H). exfalso. apply (H v). now apply (intra_iff _ _ W).
    + left. now left.
  - split; [|split].
    + split; [discriminate|]. intros (_ & _ & v & H). apply (intra_iff _ _ W) in H. congruence.
    + split; [|reflexivity]. intros _. repeat split. intros v H. apply (intra_iff _ _ W) in H. congruence.
    + now right.
Qed.
Definition four_typed : Prop :=
  well_typed x mvmu_fields (pt_mvmu s) /\ well_typed x dac_fields (pt_dac s) /\ well_typed x xbar_fields (pt_xbar s) /\ well_typed x adc_fields (pt_adc s).
Lemma mvmu_error_iff :
  (mvmu_error x s = None <-> four_typed /\ exists size n, crossbar_is x (pt_xbar s) size /\ columns_are x (pt_mvmu s) n /\ n <> 0 /\ (n | size)) /\
  (mvmu_error x s = Some ZeroDivisionError <-> four_typed /\ columns_are x (pt_mvmu s) 0) /\
  (soft (mvmu_error x s) \/ mvmu_error x s = Some ZeroDivisionError).
Proof.
  unfold mvmu_error. assert (F : fields_ok x mvmu_fields (pt_mvmu s) && fields_ok x dac_fields (pt_dac s) && fields_ok x xbar_fields (pt_xbar s) &&
           fields_ok x adc_fields (pt_adc s) = true <-> four_typed).
  { rewrite !andb_true_iff, !fields_ok_iff. unfold four_typed. tauto. }
  rewrite <- F. destruct (_ && _) eqn:B; cbn [negb].
  2:{ split; [|split]; [split; [discriminate|intros [[=] _]]|split; [discriminate|intros [[=] _]]|left; now right]. }
  destruct (proj1 F eq_refl) as (W1 & W2 & W3 & W4).
  assert (C : forall n, columns_are x (pt_mvmu s) n <-> n = setting (to_int x) (pt_mvmu s) "num_columns_per_adc" 16) by (intros; apply (read_int _ _ _ W1); here).
  assert (X : forall n, crossbar_is x (pt_xbar s) n <-> n = setting (to_int x) (pt_xbar s) "xbar_size" 128) by (intros; apply (read_int _ _ _ W3); here).
  set (size := setting (to_int x) (pt_xbar s) "xbar_size" 128) in *. set (n := setting (to_int x) (pt_mvmu s) "num_columns_per_adc" 16) in *.
  rewrite C. unfold num_adc_of. destruct (Z.eqb_spec n 0) as [E0|N0].
  - split; [|split].
    + split; [discriminate|]. intros (_ & a & b & Ha & Hb & N & _). apply C in Hb. congruence.
    + split; [|reflexivity]. intros _. split; [reflexivity|]. congruence.
    + now right.
  - destruct (Z.eqb_spec (size mod n) 0) as [M|M]; cbn [negb].
    + split; [|split].
      * split; [|reflexivity]. intros _. split; [reflexivity|]. exists size, n. rewrite X, C. repeat split; [exact N0|]. now apply Z.mod_divide.
      * split; [discriminate|]. intros (_ & H). congruence.
      * left. now left.
    + split; [|split].
      * split; [discriminate|]. intros (_ & a & b & Ha & Hb & N & D). apply X in Ha. apply C in Hb. subst a b. exfalso. apply M. now apply Z.mod_divide.
      * split; [discriminate|]. intros (_ & H). congruence.
      * left. now right.
Qed.
End Verdict.

Section Load.
Context (x : conv) (l : list (string * json)).
Let s := parts_of l.
Let wtext := setting str_of (pt_data s) "weight_format" "Q1.7".
Let atext := setting str_of (pt_data s) "activation_format" "Q4.4".
Let bits := setting (fun j => match j with JList l => bits_of l | _ => None end) (pt_data s) "storage_config" default_bits.
Definition formats_parse : Prop := (exists v, parse_format wtext = Ok v) /\ exists v, parse_format atext = Ok v.
Definition columns_fit : Prop := exists size n, crossbar_is x (pt_xbar s) size /\ columns_are x (pt_mvmu s) n /\ n <> 0 /\ (n | size).
Definition rate_fits : Prop := (exists r, rate_is x (pt_noc s) r /\ ~ too_fast r) /\ exists v, intra_is x (pt_noc s) v.
Lemma data_error_iff : data_error x (pt_data s) = None <-> well_typed x data_fields (pt_data s) /\ formats_parse.
Proof.
  unfold data_error, formats_parse. rewrite <- fields_ok_iff. fold wtext atext.
  destruct (fields_ok x data_fields (pt_data s)); cbn [negb]; [|split; [discriminate|intros [[=] _]]].
  destruct (parse_format wtext) as [v|]; [destruct (parse_format atext) as [v'|]|].
  - split; [intros _; repeat split; eauto|reflexivity].
  - split; [discriminate|intros (_ & _ & v' & H); discriminate].
  - split; [discriminate|intros (_ & (v' & H) & _); discriminate].
Qed.
Lemma unless_iff b e : unless b e = None <-> b = true.
Proof. destruct b; cbn; split; congruence. Qed.

Definition part_error (k : string) (e : option exn) : option exn := match section l k with Some _ => e | None => Some ValueError end.
Lemma part_error_none k e : part_error k e = None <-> is_some (section l k) = true /\ e = None.
Proof. unfold part_error. destruct (section l k); cbn; split; try tauto; try discriminate. intros [[=] _]. Qed.
Lemma part_error_hard k e f : f <> ValueError -> part_error k e = Some f <-> is_some (section l k) = true /\ e = Some f.
Proof. intros N. unfold part_error. destruct (section l k); cbn; split; try tauto; try congruence. intros [[=] _]. Qed.
Lemma part_error_soft k e : soft e -> soft (part_error k e).
Proof. unfold part_error. intros H. destruct (section l k); [exact H|now right]. Qed.
Let three := is_some (section (pt_mvmu s) "dac_config") && is_some (section (pt_mvmu s) "xbar_config") && is_some (section (pt_mvmu s) "adc_config").
Let e3 := part_error "noc_config" (noc_error x s).
Let e6 := part_error "mvmu_config" (if three then mvmu_error x s else Some ValueError).
Lemma field_errors_eq : exists e1 e2 e4 e5, field_errors x l = [e1; e2; e3; e4; e5; e6] /\ soft e1 /\ soft e2 /\ soft e4 /\ soft e5 /\
  (e1 = None <-> well_typed x top_fields l) /\
  (e2 = None <-> is_some (section l "data_config") = true /\ well_typed x data_fields (pt_data s) /\ formats_parse) /\
  (e4 = None <-> is_some (section l "tile_config") = true /\ well_typed x tile_fields (pt_tile s)) /\
  (e5 = None <-> is_some (section l "core_config") = true /\ well_typed x core_fields (pt_core s)).
Proof.
  exists (unless (fields_ok x top_fields l) ValueError), (part_error "data_config" (data_error x (pt_data s))),
    (part_error "tile_config" (unless (fields_ok x tile_fields (pt_tile s)) ValueError)), (part_error "core_config" (unless (fields_ok x core_fields (pt_core s)) ValueError)).
  split; [reflexivity|]. repeat match goal with |- _ /\ _ => split end.
  - apply unless_soft.
  - apply part_error_soft, data_soft.
  - apply part_error_soft, unless_soft.
  - apply part_error_soft, unless_soft.
  - now rewrite unless_iff, fields_ok_iff.
  - now rewrite part_error_none, data_error_iff.
  - now rewrite part_error_none, unless_iff, fields_ok_iff.
  - now rewrite part_error_none, unless_iff, fields_ok_iff.
Qed.
Lemma e3_cases : soft e3 \/ e3 = Some TypeError.
Proof.
  destruct (noc_error_iff x l) as (_ & _ & [H|H]); [left; now apply part_error_soft|]. unfold e3, part_error. fold s in H. rewrite H.
  destruct (section l "noc_config"); [now right|left; now right].
Qed.
Lemma e6_cases : soft e6 \/ e6 = Some ZeroDivisionError.
Proof.
  unfold e6. destruct three; [|left; apply part_error_soft; now right].
  destruct (mvmu_error_iff x l) as (_ & _ & [H|H]); [left; now apply part_error_soft|]. unfold part_error. fold s in H. rewrite H.
  destruct (section l "mvmu_config"); [now right|left; now right].
Qed.
Lemma first_error_soft e1 e2 e4 e5 : soft e1 -> soft e2 -> soft e4 -> soft e5 ->
  let r := first_error [e1; e2; e3; e4; e5; e6] false in
  (r = None <-> e1 = None /\ e2 = None /\ e3 = None /\ e4 = None /\ e5 = None /\ e6 = None) /\
  (r = Some TypeError <-> e3 = Some TypeError) /\
  (r = Some ZeroDivisionError <-> e3 <> Some TypeError /\ e6 = Some ZeroDivisionError) /\
  (r = None \/ r = Some ValueError \/ r = Some TypeError \/ r = Some ZeroDivisionError).
Proof.
  intros S1 S2 S4 S5. generalize e3_cases e6_cases. generalize e3 e6. intros a b [S3|S3] [S6|S6]; cbv zeta.
  all: destruct S1 as [-> | ->], S2 as [-> | ->], S4 as [-> | ->], S5 as [-> | ->];
    try destruct S3 as [-> | ->]; try destruct S6 as [-> | ->]; subst; cbn; intuition congruence.
Qed.
End Load.

Lemma value_nonneg ds : 0 <= value ds.
Proof. unfold value. induction (rev ds) as [|d t IH]; cbn [value_rev]; lia. Qed.

Section Load2.
Context (x : conv) (l : list (string * json)).
Let s := parts_of l.
Let wtext := setting str_of (pt_data s) "weight_format" "Q1.7".
Let atext := setting str_of (pt_data s) "activation_format" "Q4.4".
Let bits := setting (fun j => match j with JList l => bits_of l | _ => None end) (pt_data s) "storage_config" default_bits.
Definition good_fields : Prop := sections_ok l /\ typing x s /\ formats_parse l /\ columns_fit x l /\ rate_fits x l.
Lemma typing_split : typing x s <-> well_typed x top_fields l /\ well_typed x data_fields (pt_data s) /\ well_typed x noc_fields (pt_noc s) /\
  well_typed x tile_fields (pt_tile s) /\ well_typed x core_fields (pt_core s) /\ four_typed x l.
Proof. unfold four_typed. fold s. split; [intros []; tauto|]. intros (? & ? & ? & ? & ? & ? & ? & ? & ?). constructor; assumption. Qed.
Lemma fields_verdict :
  (first_error (field_errors x l) false = None <-> good_fields) /\
  (first_error (field_errors x l) false = Some TypeError <-> latency_missing x l) /\
  (first_error (field_errors x l) false = Some ZeroDivisionError <-> ~ latency_missing x l /\ zero_columns x l) /\
  (let r := first_error (field_errors x l) false in r = None \/ r = Some ValueError \/ r = Some TypeError \/ r = Some ZeroDivisionError).
Proof.
  destruct (field_errors_eq x l) as (e1 & e2 & e4 & e5 & -> & S1 & S2 & S4 & S5 & E1 & E2 & E4 & E5).
  destruct (first_error_soft x l e1 e2 e4 e5 S1 S2 S4 S5) as (F1 & F2 & F3 & F4). cbv zeta in *.
  fold s in E2, E4, E5 |- *.
  set (three := is_some (section (pt_mvmu s) "dac_config") && is_some (section (pt_mvmu s) "xbar_config") && is_some (section (pt_mvmu s) "adc_config")) in *.
  destruct (noc_error_iff x l) as (N1 & N2 & _). destruct (mvmu_error_iff x l) as (M1 & M2 & _). fold s in N1, N2, M1, M2.
  fold s in F1, F2, F3, F4. fold three in F1, F2, F3, F4.
  set (err := first_error _ false) in *.
  assert (P3 : part_error l "noc_config" (noc_error x s) = None <->
    is_some (section l "noc_config") = true /\ well_typed x noc_fields (pt_noc s) /\ rate_fits x l) by (rewrite part_error_none; unfold rate_fits; fold s; clear - N1; tauto).
  assert (T3 : three = true <-> is_some (section (pt_mvmu s) "dac_config") = true /\ is_some (section (pt_mvmu s) "xbar_config") = true /\
    is_some (section (pt_mvmu s) "adc_config") = true) by (unfold three; rewrite !andb_true_iff; clear; tauto).
  assert (P6 : part_error l "mvmu_config" (if three then mvmu_error x s else Some ValueError) = None <->
    is_some (section l "mvmu_config") = true /\ three = true /\ four_typed x l /\ columns_fit x l).
  { rewrite part_error_none. unfold columns_fit. fold s. destruct three; [clear - M1; tauto|]. split; [intros [_ [=]]|intros (_ & [=] & _)]. }
  assert (L : latency_missing x l <-> part_error l "noc_config" (noc_error x s) = Some TypeError).
  { rewrite part_error_hard by discriminate. rewrite N2. unfold latency_missing. split.
    - intros (n & Hn & H). assert (n = pt_noc s) by (symmetry; now apply part_or). subst n. split; [now apply part_some in Hn|exact H].
    - intros (H1 & H2). exists (pt_noc s). split; [now apply or_part|exact H2]. }
  split; [|split; [|split]].
  - rewrite F1, E1, E2, P3, E4, E5, P6, T3. unfold good_fields. rewrite typing_split. unfold sections_ok. fold s. clear; tauto.
  - now rewrite F2, L.
  - rewrite F3, L, !part_error_hard by discriminate.
    assert (Z : zero_columns x l <-> is_some (section l "mvmu_config") = true /\ (if three then mvmu_error x s else Some ValueError) = Some ZeroDivisionError).
    { unfold zero_columns. split.
      - intros (m & d & b & a & Hm & Hd & Hb & Ha & H). 
        assert (m = pt_mvmu s) by (symmetry; now apply part_or). subst m.
        assert (d = pt_dac s) by (symmetry; now apply part_or). subst d.
        assert (b = pt_xbar s) by (symmetry; now apply part_or). subst b.
        assert (a = pt_adc s) by (symmetry; now apply part_or). subst a.
        split; [now apply part_some in Hm|]. apply part_some in Hd, Hb, Ha. rewrite (proj2 T3 (conj Hd (conj Hb Ha))).
        apply M2. unfold four_typed. fold s. clear - H; tauto.
      - intros (H1 & H2). destruct three eqn:T; [|discriminate]. destruct (proj1 T3 eq_refl) as (A & B & C). apply M2 in H2. unfold four_typed in H2. fold s in H2.
        exists (pt_mvmu s), (pt_dac s), (pt_xbar s), (pt_adc s). split; [now apply or_part|]. repeat (split; [now apply or_part|]). clear - H2; tauto. }
    rewrite Z. reflexivity.
  - exact F4.
Qed.

(** ** The validator *)
Lemma validate_cases : formats_parse l ->
  exists wi wf ai af, parse_format wtext = Ok (wi, wf, wi + wf) /\ parse_format atext = Ok (ai, af, ai + af) /\
  ((zsum (map cell_bits bits) <> wi + wf /\ validate_and_calculate x s = Raise ValueError) \/
   (zsum (map cell_bits bits) = wi + wf /\ ai + af = 0 /\ validate_and_calculate x s = Raise ZeroDivisionError) \/
   (zsum (map cell_bits bits) = wi + wf /\ ai + af <> 0 /\ exists c, validate_and_calculate x s = Ok c)).
Proof.
  intros ([[[wi wf] ww] W] & [[[ai af] aw] A]). fold s wtext in W. fold s atext in A. pose proof (parse_width _ _ _ _ W). pose proof (parse_width _ _ _ _ A). subst ww aw.
  exists wi, wf, ai, af. split; [exact W|]. split; [exact A|].
  unfold validate_and_calculate. fold wtext atext bits. unfold format_of. rewrite W, A. rewrite validate_storage_eq.
  destruct (Z.eqb_spec (zsum (map cell_bits bits)) (wi + wf)) as [E|N]; [right|left; split; [exact N|reflexivity]].
  unfold edram_size_of. destruct (Z.eqb_spec (ai + af) 0) as [E0|N0]; [left; repeat split; assumption|right]. repeat split; try assumption. eauto.
Qed.
Definition bits_fit : Prop := exists wi wf b, weight_format_is s wi wf /\ storage_is s b /\ zsum (map cell_bits b) = wi + wf.
Lemma verdict_good : good_fields ->
  ((exists c, load_config x (JObj l) = Ok c) <-> bits_fit /\ exists ai af, activation_format_is s ai af /\ ai + af <> 0) /\
  (load_config x (JObj l) = Raise ZeroDivisionError <-> bits_fit /\ activation_format_is s 0 0) /\
  ((exists c, load_config x (JObj l) = Ok c) \/ load_config x (JObj l) = Raise ZeroDivisionError \/ load_config x (JObj l) = Raise ValueError).
Proof.
  intros G. pose proof (proj2 (proj1 fields_verdict) G) as E. cbn [load_config]. rewrite E. fold s.
  destruct G as (_ & T & F & _). pose proof (ty_data _ _ T) as W.
  destruct (validate_cases F) as (wi & wf & ai & af & Hw & Ha & H).
  pose proof (wformat_iff x l W) as Iw. pose proof (aformat_iff x l W) as Ia. pose proof (storage_iff x l W) as Is. fold s wtext in Iw. fold s atext in Ia. fold s bits in Is.
  assert (B : bits_fit <-> zsum (map cell_bits bits) = wi + wf).
  { unfold bits_fit. split.
    - intros (wi' & wf' & b & H1 & H2 & H3). apply Iw in H1. apply Is in H2. subst b. congruence.
    - intros H0. exists wi, wf, bits. split; [now apply Iw|]. split; [now apply Is|exact H0]. }
  assert (N0 : 0 <= ai /\ 0 <= af).
  { apply format_iff in Ha. destruct Ha as (a & b & _ & _ & _ & _ & _ & -> & ->). split; apply value_nonneg. }
  assert (Z0 : activation_format_is s 0 0 <-> ai + af = 0).
  { rewrite Ia. split; [intros H0; assert (ai = 0 /\ af = 0) by (split; congruence); lia|]. intros H0. assert (ai = 0) by lia. assert (af = 0) by lia. congruence. }
  assert (Z1 : (exists ai af, activation_format_is s ai af /\ ai + af <> 0) <-> ai + af <> 0).
  { split; [intros (a & b & H1 & H2); apply Ia in H1; assert (a = ai /\ b = af) by (split; congruence); lia|]. intros H0. exists ai, af. split; [now apply Ia|exact H0]. }
  rewrite B, Z0, Z1. destruct H as [[H1 ->]|[(H1 & H2 & ->)|(H1 & H2 & c & ->)]].
  - split; [|split]; [split; [intros (c & [=])|tauto]|split; [discriminate|tauto]|tauto].
  - split; [|split]; [split; [intros (c & [=])|tauto]|tauto|tauto].
  - split; [|split]; [split; [tauto|eauto]|split; [discriminate|tauto]|eauto].
Qed.
Lemma good_of_layout s' : layout l s' -> typing x s' ->
  (exists wi wf b, weight_format_is s' wi wf /\ storage_is s' b /\ zsum (map cell_bits b) = wi + wf) -> (exists ai af, activation_format_is s' ai af) ->
  (exists size n, crossbar_is x (pt_xbar s') size /\ columns_are x (pt_mvmu s') n /\ n <> 0 /\ (n | size)) ->
  (exists r, rate_is x (pt_noc s') r /\ ~ too_fast r) -> (exists v, intra_is x (pt_noc s') v) -> s' = s /\ good_fields /\ bits_fit.
Proof.
  intros L T B A C R V. apply layout_parts in L. destruct L as (-> & S). split; [reflexivity|]. split; [|exact B].
  split; [exact S|]. split; [exact T|]. split; [|split; [exact C|split; [exact R|exact V]]].
  pose proof (ty_data _ _ T) as W. destruct B as (wi & wf & b & Hw & _). destruct A as (ai & af & Ha).
  apply (wformat_iff x l W) in Hw. apply (aformat_iff x l W) in Ha. split; eauto.
Qed.
Lemma accepted_iff : (exists c, load_config x (JObj l) = Ok c) <-> exists s', layout l s' /\ acceptable x s'.
Proof.
  split.
  - intros (c & H). assert (G : good_fields).
    { apply (proj1 fields_verdict). cbn [load_config] in H. destruct (first_error _ _); [discriminate|reflexivity]. }
    destruct (proj1 (proj1 (verdict_good G)) (ex_intro _ c H)) as (B & A). exists s. destruct G as (S & T & F & C & R & V).
    split; [apply layout_parts; split; [reflexivity|exact S]|]. constructor; assumption.
  - intros (s' & L & [T B (ai & af & A & N) C R V]). destruct (good_of_layout s' L T B ltac:(eauto) C R V) as (-> & G & B').
    apply (proj1 (verdict_good G)). split; [exact B|]. eauto.
Qed.
Lemma type_error_iff : load_config x (JObj l) = Raise TypeError <-> latency_missing x l.
Proof.
  destruct fields_verdict as (F0 & F1 & _). rewrite <- F1. cbn [load_config]. destruct (first_error _ _) as [e|] eqn:E; [split; congruence|].
  split; [|discriminate]. intros H. destruct (verdict_good (proj1 F0 eq_refl)) as (_ & _ & [(c & H')|[H'|H']]); cbn [load_config] in H'; rewrite E in H'; congruence.
Qed.
Lemma zero_division_iff : load_config x (JObj l) = Raise ZeroDivisionError <-> (~ latency_missing x l /\ zero_columns x l) \/ zero_width x l.
Proof.
  destruct fields_verdict as (F0 & F1 & F2 & _). rewrite <- F2.
  assert (ZW : zero_width x l <-> good_fields /\ bits_fit /\ activation_format_is s 0 0).
  { unfold zero_width. split.
    - intros (s' & L & T & B & A & C & R & V). destruct (good_of_layout s' L T B ltac:(eauto) C R V) as (-> & G & B'). auto.
    - intros ((S & T & F & C & R & V) & B & A). exists s. split; [apply layout_parts; split; [reflexivity|exact S]|]. auto 10. }
  rewrite ZW. destruct (first_error (field_errors x l) false) as [e|] eqn:E.
  - cbn [load_config]. rewrite E. split; [intros [= ->]; now left|]. intros [[= ->]|(G & _)]; [reflexivity|]. apply F0 in G. discriminate.
  - pose proof (proj1 F0 eq_refl) as G. destruct (verdict_good G) as (_ & Z & _). rewrite Z. split; [intros H; right; split; [exact G|exact H]|].
    intros [[=]|(_ & H)]; exact H.
Qed.
Lemma errors_only e : load_config x (JObj l) = Raise e -> e = ValueError \/ e = TypeError \/ e = ZeroDivisionError.
Proof.
  destruct fields_verdict as (F0 & _ & _ & F3). cbv zeta in F3. destruct (first_error (field_errors x l) false) as [f|] eqn:E.
  - cbn [load_config]. rewrite E. intros [= <-]. destruct F3 as [[=]|[[= ->]|[[= ->]|[= ->]]]]; auto.
  - pose proof (proj1 F0 eq_refl) as G. destruct (verdict_good G) as (_ & _ & [(c & H)|[H|H]]); rewrite H; intros [= <-]; auto.
Qed.
End Load2.
