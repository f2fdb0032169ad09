(** Power, area and latency parameters of accepted configuration files; construction. *)
From Verif Require Import PyBase PyLemmas ConfigModel ConfigSpec ConfigProofs VfuModel FloatModel FloatSpec AnalogProofs FloatProofs MvmuModel MvmuSpec CoreModel CoreSpec
  RouterModel SystemModel SystemSpec StatsModel ReportModel ReportSpec LoaderModel SetupModel SetupSpec SetupProofs SetupValues.
From Flocq Require Import IEEE754.BinarySingleNaN Core.
From Coq Require Import Ascii String Reals Lra.
Open Scope Z_scope.

Definition all_params : list param :=
  [DacDyn; DacLeak; DacArea; AdcDyn; AdcLeak; AdcArea; InRead; InWrite; InLeak; InArea; XbarPow; XbarLeak; XbarArea; SramDyn; SramLeak; SramArea;
   CalcDyn; CalcLeak; CalcArea; OutDyn; OutLeak; OutArea; InterDyn; InterLeak; InterArea; IntraDyn; IntraLeak; IntraArea; TcuDyn; TcuLeak; TcuArea;
   EdramDyn; EdramLeak; EdramArea; TInstrDyn; TInstrLeak; TInstrArea; BusLeak; BusArea; CtrlDyn; CtrlLeak; CtrlArea; RecvDyn; RecvLeak; RecvArea;
   CcuDyn; CcuLeak; CcuArea; DataDyn; DataLeak; DataArea; CInstrDyn; CInstrLeak; CInstrArea; MulDyn; DivDyn; ActDyn; OtherDyn; AluLeak; AluArea; ActArea;
   SnhDyn; SnhLeak; SnhArea; MuxDyn; MuxLeak; MuxArea; SnaDyn; SnaLeak; SnaArea].
Lemma all_params_complete p : In p all_params.
Proof. destruct p; unfold all_params; repeat (try (left; reflexivity); right). Qed.
Definition keys_of (p : param) : option (list Z) := option_map fst (table_of (MkSizes 0 0 0 0 0 0 0 0) p).
Lemma table_keys z p : option_map fst (table_of z p) = keys_of p.
Proof. destruct p; reflexivity. Qed.

Definition entry_ok (p : param) (a : Z) : bool := match lookup (table p) a with Some v => is_finite v && Bltb f0 v | None => false end.
Definition order_ok (p : param) (a b : Z) : bool :=
  match lookup (table p) a, lookup (table p) b with Some v, Some w => implb (a <=? b) (Bleb v w) | _, _ => false end.
Definition param_ok (p : param) : bool :=
  match keys_of p with
  | Some keys => forallb (entry_ok p) keys && forallb (fun a => forallb (order_ok p a) keys) keys &&
                 forallb (fun t => existsb (Z.eqb (fst t)) keys) (table p) && match default p with Some _ => false | None => true end
  | None => match table p, default p with [], Some v => is_finite v && Bleb f0 v | _, _ => false end
  end.
Lemma params_checked : forallb param_ok all_params = true.
Proof. vm_compute. reflexivity. Qed.
Lemma param_checked p : param_ok p = true.
Proof. pose proof params_checked as H. rewrite forallb_forall in H. apply H, all_params_complete. Qed.

Lemma bltb_pos (v : f64) : is_finite v = true -> Bltb f0 v = true -> (0 < B2R v)%R.
Proof.
  intros F H. destruct (f_of_Z_correct 0 ltac:(lia)) as (F0 & E0). rewrite Bltb_correct in H by assumption. change (B2R f0) with (B2R (f_of_Z 0)) in H.
  rewrite E0 in H. revert H. now case Rlt_bool_spec.
Qed.
Lemma bleb_le (v w : f64) : is_finite v = true -> is_finite w = true -> Bleb v w = true -> (B2R v <= B2R w)%R.
Proof. intros F F' H. rewrite Bleb_correct in H by assumption. revert H. now case Rle_bool_spec. Qed.
Lemma lookup_none t n : (forall k v, In (k, v) t -> k <> n) -> lookup t n = None.
Proof.
  induction t as [|[k v] t IH]; cbn [lookup]; [reflexivity|]. intros H. destruct (Z.eqb_spec k n) as [E|_]; [exfalso; exact (H k v (or_introl eq_refl) E)|].
  apply IH. intros k' v' Hin. apply (H k' v'). now right.
Qed.
Lemma tabled p keys n : keys_of p = Some keys -> In n keys -> exists v, lookup (table p) n = Some v /\ above_zero v.
Proof.
  intros K H. pose proof (param_checked p) as C. unfold param_ok in C. rewrite K in C. rewrite !andb_true_iff in C. destruct C as (((C & _) & _) & _).
  rewrite forallb_forall in C. specialize (C n H). unfold entry_ok in C. destruct (lookup (table p) n) as [v|]; [|discriminate].
  apply andb_true_iff in C. destruct C as (C1 & C2). exists v. split; [reflexivity|]. split; [exact C1|now apply bltb_pos].
Qed.
Lemma tabled_le p keys a b v w : keys_of p = Some keys -> In a keys -> In b keys -> a <= b -> lookup (table p) a = Some v -> lookup (table p) b = Some w -> (B2R v <= B2R w)%R.
Proof.
  intros K Ha Hb Le Va Vb. destruct (tabled p keys a K Ha) as (v' & E1 & F1 & _). destruct (tabled p keys b K Hb) as (w' & E2 & F2 & _).
  pose proof (param_checked p) as C. unfold param_ok in C. rewrite K in C. rewrite !andb_true_iff in C. destruct C as (((_ & C) & _) & _).
  rewrite forallb_forall in C. specialize (C a Ha). rewrite forallb_forall in C. specialize (C b Hb). unfold order_ok in C. rewrite Va, Vb in C.
  rewrite (proj2 (Z.leb_le a b) Le) in C. apply bleb_le; [congruence|congruence|exact C].
Qed.
Lemma untabled p n : (forall keys, keys_of p = Some keys -> ~ In n keys) -> lookup (table p) n = None.
Proof.
  intros H. pose proof (param_checked p) as C. unfold param_ok in C. destruct (keys_of p) as [keys|].
  - rewrite !andb_true_iff in C. destruct C as ((_ & C) & _). rewrite forallb_forall in C. apply lookup_none. intros k v Hin E. subst k.
    specialize (C _ Hin). cbn [fst] in C. apply existsb_exists in C. destruct C as (k & Hk & E). apply Z.eqb_eq in E. subst k. exact (H keys eq_refl Hk).
  - destruct (table p); [reflexivity|discriminate].
Qed.
Lemma default_spec p : match keys_of p with Some _ => default p = None | None => exists v, default p = Some v /\ nonnegative v end.
Proof.
  pose proof (param_checked p) as C. unfold param_ok in C. destruct (keys_of p) as [keys|].
  - rewrite !andb_true_iff in C. destruct C as (_ & C). destruct (default p); [discriminate|reflexivity].
  - destruct (table p); [|discriminate]. destruct (default p) as [v|]; [|discriminate]. apply andb_true_iff in C. destruct C as (C1 & C2).
    exists v. split; [reflexivity|]. split; [exact C1|]. destruct (f_of_Z_correct 0 ltac:(lia)) as (F0 & E0). rewrite <- E0. now apply bleb_le.
Qed.

Lemma size_table_eq c p : size_table c p = table_of (config_sizes c) p.
Proof. destruct p; reflexivity. Qed.

Section Params.
Context (x : conv) (l : list (string * json)) (s : parts) (c : config) (H : load_config x (JObj l) = Ok c) (L : layout l s).
Lemma param_eq p : cf_param c p = param_in x s p /\ config_sizes c = sizes_in x s.
Proof.
  destruct (load_inv _ _ _ H) as (l' & [= <-] & L' & A & G & V). rewrite (layout_unique _ _ _ L L') in *.
  destruct (validate_inv x l c G V) as (wi & wf & ai & af & st & Hx). cbv zeta in Hx. destruct Hx as (_ & _ & _ & _ & ->). split; reflexivity.
Qed.
Lemma lat_eq p : cf_lat c p = lat_in x s p.
Proof.
  destruct (load_inv _ _ _ H) as (l' & [= <-] & L' & A & G & V). rewrite (layout_unique _ _ _ L L') in *.
  destruct (validate_inv x l c G V) as (wi & wf & ai & af & st & Hx). cbv zeta in Hx. destruct Hx as (_ & _ & _ & _ & ->). reflexivity.
Qed.
Lemma size_eq p : size_for (sizes_in x s) p = size_of_param c p.
Proof. unfold size_for, size_of_param. rewrite size_table_eq. destruct (param_eq p) as (_ & ->). reflexivity. Qed.
Lemma tabulated_in p : tabulated c p <-> exists keys, keys_of p = Some keys /\ In (size_of_param c p) keys.
Proof.
  unfold tabulated, size_of_param. rewrite size_table_eq, <- (table_keys (config_sizes c) p). destruct (table_of (config_sizes c) p) as [[keys size]|]; cbn [option_map fst snd].
  - split; [eauto|]. intros (k & [= <-] & Hk). exact Hk.
  - split; [intros []|intros (k & [=] & _)].
Qed.
Lemma tabulated_value p : p <> XbarPow -> tabulated c p -> exists v, cf_param c p = Some v /\ lookup (table p) (size_of_param c p) = Some v /\ above_zero v.
Proof.
  intros N T. apply tabulated_in in T. destruct T as (keys & K & Hin). destruct (tabled p keys _ K Hin) as (v & E & P). exists v.
  split; [|split; assumption]. rewrite (proj1 (param_eq p)). unfold param_in. rewrite size_eq, E. destruct p; try reflexivity. contradiction.
Qed.
Lemma untabulated_value p : ~ tabulated c p -> cf_param c p = match setting_opt (to_float x) (fst (param_field s p)) (snd (param_field s p)) with Some v => Some v | None => default p end.
Proof.
  intros T. rewrite (proj1 (param_eq p)). unfold param_in. rewrite size_eq, untabled; [reflexivity|]. intros keys K Hin. apply T, tabulated_in. eauto.
Qed.
Theorem from_file p v : ~ tabulated c p -> in_file x s p (Some v) -> cf_param c p = Some v.
Proof.
  intros T F. rewrite untabulated_value by exact T. unfold in_file in F. unfold setting_opt. destruct (field _ _) as [j|]; [|discriminate]. now rewrite <- F.
Qed.
Theorem missing p keys : keys_of p = Some keys -> ~ tabulated c p -> in_file x s p None -> cf_param c p = None.
Proof.
  intros K T F. rewrite untabulated_value by exact T. unfold in_file in F. pose proof (default_spec p) as D. rewrite K in D. rewrite D. unfold setting_opt.
  destruct (field _ _) as [j|]; [now rewrite <- F|reflexivity].
Qed.
Theorem constant p : keys_of p = None -> in_file x s p None -> exists v, cf_param c p = Some v /\ default p = Some v /\ nonnegative v.
Proof.
  intros K F. pose proof (default_spec p) as D. rewrite K in D. destruct D as (v & D & N). exists v. split; [|split; assumption].
  rewrite untabulated_value. 2:{ rewrite tabulated_in. intros (k & E & _). congruence. }
  unfold in_file in F. unfold setting_opt. destruct (field _ _) as [j|]; [now rewrite <- F|exact D].
Qed.
Theorem xbar_pow : tabulated c XbarPow -> exists a b, (exists d, nearest 100 d /\ gives (rd_float x) (pt_xbar s) "xbar_ip_lat" d a) /\
  gives (rd_float x) (pt_xbar s) "xbar_ip_pow" xbar_ip_pow0 b /\ cf_param c XbarPow = Some (fmul a b).
Proof.
  intros T. apply tabulated_in in T. destruct T as (keys & K & Hin). destruct (tabled _ keys _ K Hin) as (v & E & _).
  destruct (load_inv _ _ _ H) as (l' & [= <-] & L' & A & _). rewrite (layout_unique _ _ _ L' L) in A. pose proof (ty_xbar _ _ (ac_typing _ _ A)) as W.
  exists (setting (to_float x) (pt_xbar s) "xbar_ip_lat" xbar_ip_lat0), (setting (to_float x) (pt_xbar s) "xbar_ip_pow" xbar_ip_pow0). split; [|split].
  - exists xbar_ip_lat0. split; [|apply (read_float _ _ _ W); [here|reflexivity]].
    destruct (f_of_Z_correct 100 ltac:(lia)) as (F & R). split; [exact F|]. unfold xbar_ip_lat0, fint. rewrite R. symmetry. apply round_generic; [apply valid_rnd_N|].
    rewrite <- R. exact (generic_format_B2R prec64 emax64 (f_of_Z 100)).
  - apply (read_float _ _ _ W); [here|reflexivity].
  - rewrite (proj1 (param_eq XbarPow)). unfold param_in. rewrite size_eq, E. reflexivity.
Qed.
Theorem network_latencies : exists h v, gives (rd_float x) (pt_noc s) "noc_ht_lat" (f_of_Z 5) h /\ intra_is x (pt_noc s) v /\
  cf_lat c LIntra = Some v /\ cf_lat c LInter = Some (fadd h v).
Proof.
  destruct (load_inv _ _ _ H) as (l' & [= <-] & L' & A & _). rewrite (layout_unique _ _ _ L' L) in A. pose proof (ty_noc _ _ (ac_typing _ _ A)) as W.
  destruct (ac_latency _ _ A) as (v & Hv). exists (setting (to_float x) (pt_noc s) "noc_ht_lat" (fint 5)), v.
  split; [apply (read_float _ _ _ W); [here|reflexivity]|]. split; [exact Hv|]. apply (intra_iff _ _ W) in Hv. change (intra_of x (pt_noc s)) with (intra_in x s) in Hv.
  rewrite !lat_eq. unfold lat_in. rewrite Hv. split; reflexivity.
Qed.
End Params.
Theorem tables_monotone x l c x' l' c' p : load_config x (JObj l) = Ok c -> load_config x' (JObj l') = Ok c' -> p <> XbarPow -> tabulated c p -> tabulated c' p ->
  size_of_param c p <= size_of_param c' p -> exists v v', cf_param c p = Some v /\ cf_param c' p = Some v' /\ above_zero v /\ above_zero v' /\ (B2R v <= B2R v')%R.
Proof.
  intros H H' N T T' Le. destruct (load_inv _ _ _ H) as (a & [= <-] & L & _). destruct (load_inv _ _ _ H') as (b & [= <-] & L' & _).
  destruct (tabulated_value _ _ _ _ H L p N T) as (v & E & V & P). destruct (tabulated_value _ _ _ _ H' L' p N T') as (v' & E' & V' & P').
  exists v, v'. repeat (split; [assumption|]). apply tabulated_in in T, T'. destruct T as (keys & K & I). destruct T' as (keys' & K' & I').
  assert (keys' = keys) by congruence. subst keys'. exact (tabled_le p keys _ _ v v' K I I' Le V V').
Qed.
Theorem tables_fixed x l c x' l' c' p : load_config x (JObj l) = Ok c -> load_config x' (JObj l') = Ok c' -> p <> XbarPow -> tabulated c p ->
  size_of_param c' p = size_of_param c p -> cf_param c' p = cf_param c p.
Proof.
  intros H H' N T E. destruct (load_inv _ _ _ H) as (a & [= <-] & L & _). destruct (load_inv _ _ _ H') as (b & [= <-] & L' & _).
  assert (T' : tabulated c' p) by (apply tabulated_in in T; apply tabulated_in; destruct T as (k & K & I); exists k; rewrite E; tauto).
  destruct (tabulated_value _ _ _ _ H L p N T) as (v & -> & V & _). destruct (tabulated_value _ _ _ _ H' L' p N T') as (v' & -> & V' & _). congruence.
Qed.

(** The same without helpers. *)
Lemma keys_iff c p : keys_of p = option_map fst (size_table c p).
Proof. rewrite size_table_eq. symmetry. apply table_keys. Qed.
Theorem missing_value x l s c p : load_config x (JObj l) = Ok c -> layout l s -> size_table c p <> None -> ~ tabulated c p -> in_file x s p None -> cf_param c p = None.
Proof.
  intros H L N T F. destruct (size_table c p) as [[keys size]|] eqn:E; [|contradiction].
  apply (missing _ _ _ _ H L p keys); [rewrite (keys_iff c), E; reflexivity|exact T|exact F].
Qed.
Theorem constant_value p : (forall c, size_table c p = None) -> exists v, nonnegative v /\
  forall x l s c, load_config x (JObj l) = Ok c -> layout l s -> in_file x s p None -> cf_param c p = Some v.
Proof.
  intros N. assert (K : keys_of p = None) by (clear - N; destruct p; first [reflexivity|discriminate (N (MkConfig 0 0 0 0 [] 0 0 0 0 0 0 (MkStorage [] [] [] [] [] 0 0 false false) 0 0 false f0 f0 f0 false 0 0 0 0 0 0 0 0 0 0 0 0 (fun _ => None) (fun _ => None)))]).
  pose proof (default_spec p) as D. rewrite K in D. destruct D as (v & D & P). exists v. split; [exact P|]. intros x l s c H L F.
  destruct (SetupParams.constant _ _ _ _ H L p K F) as (w & -> & E & _). congruence.
Qed.
Lemma pow0_value : is_finite xbar_ip_pow0 = true /\ (Rabs (B2R xbar_ip_pow0 - 17 / 10) <= bpow radix2 (-50))%R.
Proof.
  split; [vm_compute; reflexivity|]. assert (E : B2SF xbar_ip_pow0 = SpecFloat.S754_finite false 7656119366529844 (-52)) by (vm_compute; reflexivity).
  rewrite <- SF2R_B2SF, E. cbn [SF2R cond_Zopp]. unfold F2R. cbn [Fnum Fexp]. change (bpow radix2 (-52)) with (/ 4503599627370496)%R.
  change (bpow radix2 (-50)) with (/ 1125899906842624)%R. apply Rabs_le. lra.
Qed.
Theorem xbar_power x l s c : load_config x (JObj l) = Ok c -> layout l s -> tabulated c XbarPow ->
  exists a b d, (is_finite d = true /\ (Rabs (B2R d - 17 / 10) <= bpow radix2 (-50))%R) /\
    gives (rd_float x) (pt_xbar s) "xbar_ip_lat" (f_of_Z 100) a /\ gives (rd_float x) (pt_xbar s) "xbar_ip_pow" d b /\ cf_param c XbarPow = Some (fmul a b).
Proof.
  intros H L T. destruct (xbar_pow _ _ _ _ H L T) as (a & b & (d & Hd & Ha) & Hb & E). exists a, b, xbar_ip_pow0. split; [exact pow0_value|].
  split; [|split; [exact Hb|exact E]]. assert (Ed : d = f_of_Z 100).
  { symmetry. apply (nearest_unique 100); [|exact Hd|]; destruct (f_of_Z_correct 100 ltac:(lia)) as (F & V).
    - split; [exact F|]. rewrite V. symmetry. apply round_generic; [apply valid_rnd_N|]. apply generic_format_FLT. exists (Float radix2 100 0); [unfold F2R; cbn; ring|cbn; lia|cbn; lia].
    - rewrite V. lra. }
  now subst d.
Qed.
