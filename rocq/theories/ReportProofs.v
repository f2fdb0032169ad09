(** The methods get_stats: what their dictionaries contain. *)
From Verif Require Import PyBase PyLemmas ConfigModel MemoryModel VfuModel FloatModel MvmuModel CoreModel DramModel RouterModel SystemModel NodeModel
  StatsModel ReportModel ReportSpec StatsProofs.
From Coq Require Import QArith Qcanon String Lia.
From Coq Require Import Permutation.
Open Scope Z_scope.

Definition items : Type := list (string * option xstats).
Fixpoint all_some (l : items) : option (list (string * xstats)) :=
  match l with
  | [] => Some []
  | (k, o) :: l => match o, all_some l with Some s, Some r => Some ((k, s) :: r) | _, _ => None end
  end.
Lemma all_some_app a b : all_some (a ++ b) =
  match all_some a, all_some b with Some x, Some y => Some (x ++ y) | _, _ => None end.
Proof.
  induction a as [|[k [s|]] a IH]; cbn.
  - now destruct (all_some b).
  - rewrite IH. now destruct (all_some a), (all_some b).
  - reflexivity.
Qed.
Lemma all_some_none l : all_some l = None <-> exists k, In (k, None) l.
Proof.
  induction l as [|[k [s|]] l IH]; cbn.
  - split; [discriminate|]. intros [k []].
  - destruct (all_some l).
    + split; [discriminate|]. intros [x [F|F]]; [discriminate|]. destruct IH as [_ IH]. discriminate IH. now exists x.
    + split; [|auto]. intros _. destruct IH as [IH _]. destruct (IH eq_refl) as [x Hx]. exists x. now right.
  - split; [|auto]. intros _. exists k. now left.
Qed.
Lemma all_some_map f l : all_some (map (fun x => (fst x, option_map f (snd x))) l) = option_map (map (fun x => (fst x, f (snd x)))) (all_some l).
Proof. induction l as [|[k [s|]] l IH]; cbn; [reflexivity| |reflexivity]. rewrite IH. now destruct (all_some l). Qed.
Lemma all_some_keys l v : all_some l = Some v -> map fst v = map fst l.
Proof.
  revert v. induction l as [|[k [s|]] l IH]; intros v; cbn; [intros [= <-]; reflexivity| |discriminate].
  destruct (all_some l) as [r|]; [|discriminate]. intros [= <-]. cbn. f_equal. now apply IH.
Qed.

(** A method that reports these items. *)
Definition outcome (h0 : heap exact_num) (o : res sdict * heap exact_num) (v : option (list (string * xstats))) : Prop :=
  match v with
  | Some v => exists d h, o = (Ok d, h) /\ keeps h0 h /\ own h0 d h /\ forall k, val_of d h k = total k v
  | None => exists h, o = (Raise TypeError, h) /\ keeps h0 h
  end.
Definition reports (r : rep exact_num) (l : items) : Prop := forall h0, outcome h0 (r h0) (all_some l).

Lemma build_reports l : NoDup (map fst l) -> reports (build l) l.
Proof.
  induction l as [|[k [s|]] l IH]; intros ND h0; cbn [map fst] in ND.
  - exists [], h0. split; [reflexivity|]. split; [apply keeps_refl|]. split; [split; [constructor|split; constructor]|]. reflexivity.
  - inversion ND as [|? ? NI ND']; subst. specialize (IH ND' (h0 ++ [s])). cbn [all_some build new].
    pose proof (new_keeps h0 s) as KN. unfold outcome in *.
    assert (LH : List.length (h0 ++ [s]) = S (List.length h0)) by (rewrite app_length; cbn; lia).
    destruct (all_some l) as [v|] eqn:AS.
    + destruct IH as (d & h & E & K & (O1 & O2 & O3) & V). rewrite E. exists ((k, List.length h0) :: d), h.
      split; [reflexivity|]. split; [exact (keeps_trans _ _ _ KN K)|].
      assert (KD : forall x, In x (map fst d) -> In x (map fst l)).
      { intros x Hx. rewrite <- (all_some_keys l v AS). destruct (in_dec string_dec x (map fst v)) as [|F]; [assumption|].
        exfalso. assert (T : total x v = None).
        { unfold total. replace (given x v) with (@nil xstats); [reflexivity|]. clear - F. unfold given. induction v as [|[a b] v IH]; [reflexivity|].
          cbn. destruct (String.eqb_spec a x) as [->|]; [exfalso; apply F; now left|]. apply IH. intros H. apply F. now right. }
        rewrite <- V in T. unfold val_of in T. destruct (dget d x) eqn:D; [discriminate|]. apply dget_none in D. now apply D. }
      split; [split; [|split]|].
      * cbn. constructor; [|exact O1]. intros F. now apply NI, KD.
      * cbn. constructor; [|exact O2]. intros H. apply in_map_iff in H as (kv & E' & Hkv). rewrite Forall_forall in O3. specialize (O3 kv Hkv). lia.
      * constructor; [cbn; destruct K; lia|]. eapply Forall_impl; [|exact O3]. cbn. intros; lia.
      * intros x. refine (eq_trans _ (eq_sym (total_cons k s v x _))).
        -- rewrite val_of_cons, V. destruct (String.eqb k x); [|reflexivity]. f_equal. rewrite (proj2 K) by lia. apply deref_new.
        -- rewrite (all_some_keys l v AS). exact ND.
    + destruct IH as (h & E & K). rewrite E. exists h. split; [reflexivity|]. exact (keeps_trans _ _ _ KN K).
  - cbn [all_some build]. exists h0. split; [reflexivity|apply keeps_refl].
Qed.

Lemma own_grow {A : arith} (h0 h h' : heap A) d : keeps h h' -> own h0 d h -> own h0 d h'.
Proof. intros [L _] (O1 & O2 & O3). split; [exact O1|]. split; [exact O2|]. eapply Forall_impl; [|exact O3]. cbn. intros; lia. Qed.

Lemma merge_all_outcome rs : forall its d h0 h1 v, Forall2 reports rs its -> keeps h0 h1 -> own h0 d h1 -> (forall k, val_of d h1 k = total k v) ->
  outcome h0 (merge_all d rs h1) (option_map (app v) (all_some (List.concat its))).
Proof.
  induction rs as [|r rs IH]; intros its d h0 h1 v F K O V; inversion F as [|? it ? its' R F']; subst.
  - cbn. exists d, h1. split; [reflexivity|]. split; [exact K|]. split; [exact O|]. intros k. now rewrite app_nil_r.
  - cbn [List.concat merge_all]. rewrite all_some_app. specialize (R h1). unfold outcome in R. destruct (all_some it) as [w|].
    + destruct R as (o & h2 & -> & K2 & O2 & V2).
      pose proof (merge_own h0 h1 h2 d o K O K2 O2) as M. destruct (dmerge d h2 o) as [d' h3]. destruct M as (K3 & O3 & V3).
      specialize (IH its' d' h0 h3 (v ++ w) F' K3 O3).
      assert (E : option_map (app v) match all_some (List.concat its') with Some y => Some (w ++ y) | None => None end
        = option_map (app (v ++ w)) (all_some (List.concat its'))).
      { destruct (all_some (List.concat its')); cbn; [|reflexivity]. now rewrite app_assoc. }
      rewrite E. apply IH. intros k. rewrite V3, V, V2. symmetry. apply total_app.
    + destruct R as (h2 & -> & K2). cbn. exists h2. split; [reflexivity|]. exact (keeps_trans _ _ _ K K2).
Qed.
Lemma merge_all_reports rs its : Forall2 reports rs its -> reports (merge_all [] rs) (List.concat its).
Proof.
  intros F h0. pose proof (merge_all_outcome rs its [] h0 h0 [] F (keeps_refl h0)) as M.
  assert (E : option_map (app []) (all_some (List.concat its)) = all_some (List.concat its)) by now destruct (all_some (List.concat its)).
  rewrite E in M. apply M; [split; [constructor|split; constructor]|reflexivity].
Qed.
Lemma start_merge_reports r it rs its : reports r it -> Forall2 reports rs its -> reports (start_merge r rs) (it ++ List.concat its).
Proof.
  intros R F h0. unfold start_merge. rewrite all_some_app. specialize (R h0). unfold outcome in R. destruct (all_some it) as [v|].
  - destruct R as (d & h & -> & K & O & V). pose proof (merge_all_outcome rs its d h0 h v F K O V) as M.
    destruct (all_some (List.concat its)); exact M.
  - destruct R as (h & -> & K). exists h. auto.
Qed.

(** ** Leakage *)
Definition scale (z : Z) (s : xstats) : xstats := MkStats (A := exact_num) (s_count s) (s_dyn s) (s_leak s * rational z)%Qc (s_area s).
Definition scaled (z : Z) (l : items) : items := map (fun x => (fst x, option_map (scale z) (snd x))) l.

Lemma leak_deref z d : forall h : heap exact_num, NoDup (map snd d) -> Forall (fun kv => (snd kv < List.length h)%nat) d ->
  List.length (update_leakage h d z) = List.length h /\
  forall i, deref (update_leakage h d z) i = if existsb (Nat.eqb i) (map snd d) then scale z (deref h i) else deref h i.
Proof.
  induction d as [|[k r] d IH]; intros h ND F; [split; reflexivity|]. cbn [map snd] in *. inversion ND as [|? ? NI ND']; subst.
  inversion F as [|? ? L F']; subst. cbn [snd] in L. unfold update_leakage. cbn [fold_left].
  set (h1 := leak_item z h (k, r)).
  assert (L1 : List.length h1 = List.length h) by apply length_upd.
  destruct (IH h1 ND') as [A B].
  { eapply Forall_impl; [|exact F']. cbn. intros; lia. }
  unfold update_leakage in A, B. split; [congruence|]. intros i. rewrite B. cbn [existsb].
  assert (D : deref h1 i = if (i =? r)%nat then scale z (deref h r) else deref h i).
  { unfold h1, leak_item. rewrite deref_upd by assumption. reflexivity. }
  rewrite D. clear D. destruct (Nat.eqb_spec i r) as [Eir|]; cbn [orb]; [|reflexivity]. rewrite Eir.
  replace (existsb (Nat.eqb r) (map snd d)) with false; [reflexivity|]. symmetry. apply Bool.not_true_is_false. intros H.
  apply existsb_exists in H as (x & Hx & E). apply Nat.eqb_eq in E. subst. now apply NI.
Qed.
Lemma total_scale z k v : total k (map (fun x => (fst x, scale z (snd x))) v) = option_map (scale z) (total k v).
Proof.
  unfold total. assert (G : given k (map (fun x => (fst x, scale z (snd x))) v) = map (scale z) (given k v)).
  { unfold given. induction v as [|[x s] v IH]; [reflexivity|]. cbn. destruct (String.eqb x k); cbn; [f_equal|]; exact IH. }
  rewrite G. destruct (given k v) as [|s l]; [reflexivity|]. cbn [map option_map]. f_equal. change (scale z s :: map (scale z) l) with (map (scale z) (s :: l)).
  generalize (s :: l). clear. intros l. unfold sum_stats, scale; cbn [s_count s_dyn s_leak s_area]. rewrite !map_map. cbn. f_equal.
  induction l as [|s l IH]; cbn.
  - rewrite r0. ring.
  - rewrite IH. ring.
Qed.
Lemma with_leakage_reports r it z : reports r it -> reports (with_leakage r z) (scaled z it).
Proof.
  intros R h0. unfold with_leakage, scaled. rewrite all_some_map. specialize (R h0). unfold outcome in R. destruct (all_some it) as [v|]; cbn [option_map].
  - destruct R as (d & h & -> & K & (O1 & O2 & O3) & V).
    destruct (leak_deref z d h O2) as [L D]; [eapply Forall_impl; [|exact O3]; cbn; intros; lia|].
    exists d, (update_leakage h d z). split; [reflexivity|]. split; [|split].
    + split; [destruct K; lia|]. intros i Hi. rewrite D. replace (existsb (Nat.eqb i) (map snd d)) with false; [now apply (proj2 K)|].
      symmetry. apply Bool.not_true_is_false. intros H. apply existsb_exists in H as (x & Hx & E). apply Nat.eqb_eq in E. subst.
      apply in_map_iff in Hx as (kv & <- & Hkv). rewrite Forall_forall in O3. specialize (O3 kv Hkv). lia.
    + split; [exact O1|]. split; [exact O2|]. now rewrite L.
    + intros k. rewrite total_scale, <- V. unfold val_of. destruct (dget d k) as [i|] eqn:E; [|reflexivity]. cbn. f_equal. rewrite D.
      replace (existsb (Nat.eqb i) (map snd d)) with true; [reflexivity|]. symmetry. apply existsb_exists. exists i. split; [|apply Nat.eqb_refl].
      apply dget_in in E. apply in_map_iff. now exists (k, i).
  - destruct R as (h & -> & K). exists h. auto.
Qed.

(** ** Numbers *)
Lemma rational_add a b : rational (a + b) = (rational a + rational b)%Qc.
Proof. unfold rational. apply Qc_is_canon. cbn -[Qred]. rewrite !Qred_correct, inject_Z_plus. reflexivity. Qed.
Lemma rational_mul a b : rational (a * b) = (rational a * rational b)%Qc.
Proof. unfold rational. apply Qc_is_canon. cbn -[Qred]. rewrite !Qred_correct, inject_Z_mult. reflexivity. Qed.
Lemma rational_1 : rational 1 = 1%Qc. Proof. reflexivity. Qed.
Lemma rational_2 : rational 2 = (1 + 1)%Qc. Proof. now apply Qc_is_canon. Qed.

Lemma total_absent k l : ~ In k (map fst l) -> total k l = None.
Proof.
  intros F. unfold total. replace (given k l) with (@nil xstats); [reflexivity|]. unfold given. induction l as [|[a b] l IH]; [reflexivity|].
  cbn. destruct (String.eqb_spec a k) as [->|]; [exfalso; apply F; now left|]. apply IH. intros H. apply F. now right.
Qed.

(** ** The matrix units *)
Section Units.
Context (q : param -> Qc) (g : rcfg exact_num) (P : provides g q).
Let mv := k_mv (y_core (g_sys g)).

Lemma known p : rram_only p = false -> g_param g p = Some (q p).
Proof. intros E. apply P. rewrite E. discriminate. Qed.
Lemma known_rram p : have_rram (c_storage mv) = true -> g_param g p = Some (q p).
Proof. intros E. apply P. auto. Qed.

Definition mvmu_items (u : mvmu) : list items :=
  let s := mv_stat u in
  (if have_rram (c_storage mv)
   then [rram_stats g s; dac_stats g s; adc_stats g s; snh_stats g (snh_pos_samples s); snh_stats g (snh_neg_samples s);
         mux_stats g (mux_pos_selections s) (mux_rram_size g); mux_stats g (mux_neg_selections s) (mux_rram_size g)]
   else []) ++
  (if have_sram (c_storage mv) then [sram_cim_stats g s; mux_stats g (mux_sram_selections s) (mux_sram_size g)] else []) ++
  [inreg_stats g (in_stat (mv_in u)); outreg_stats g (out_stat (mv_out u)); sna_stats g s].

Lemma mvmu_reports u : reports (mvmu_report g u) (List.concat (mvmu_items u)).
Proof.
  unfold mvmu_report. apply merge_all_reports.
  assert (B : forall k s, reports (build [(k, s)]) [(k, s)]) by (intros k s; apply build_reports; constructor; [intros []|constructor]).
  unfold mvmu_items. fold mv. cbv zeta. repeat apply Forall2_app.
  - destruct (have_rram (c_storage mv)); [|constructor]. cbn [map]. repeat constructor; apply B.
  - destruct (have_sram (c_storage mv)); [|constructor]. cbn [map]. repeat constructor; apply B.
  - cbn [map]. repeat constructor; apply B.
Qed.

Local Open Scope Qc_scope.
Definition raw (name : string) (activations : Z) (energy power area : Qc) : string * xstats :=
  (name, MkStats (A := exact_num) activations energy power area).
Definition mvmu_vals (u : mvmu) : list (string * xstats) :=
  let s := mv_stat u in
  (if have_rram (c_storage mv) then
     [raw "RRAM Xbar" (rram_mvm_operations s) (q XbarPow * rational (rram_mvm_operations s))
        (q XbarLeak * rational (num_rram (c_storage mv) * 2)) (q XbarArea * rational (num_rram (c_storage mv) * 2));
      raw "DAC" (dac_conversions s) (q DacDyn * rational (dac_conversions s)) (q DacLeak * rational (c_size mv)) (q DacArea * rational (c_size mv));
      raw "ADC" (adc_conversions s) (q AdcDyn * rational (adc_conversions s)) (q AdcLeak * rational (adc_size g)) (q AdcArea * rational (adc_size g));
      raw "Sample and Hold" (snh_pos_samples s) (q SnhDyn * rational (snh_pos_samples s)) (q SnhLeak * rational (snh_size g)) (q SnhArea * rational (snh_size g));
      raw "Sample and Hold" (snh_neg_samples s) (q SnhDyn * rational (snh_neg_samples s)) (q SnhLeak * rational (snh_size g)) (q SnhArea * rational (snh_size g));
      raw "MUX" (mux_pos_selections s) (q MuxDyn * rational (mux_pos_selections s)) (q MuxLeak * rational (mux_rram_size g)) (q MuxArea * rational (mux_rram_size g));
      raw "MUX" (mux_neg_selections s) (q MuxDyn * rational (mux_neg_selections s)) (q MuxLeak * rational (mux_rram_size g)) (q MuxArea * rational (mux_rram_size g))]
   else []) ++
  (if have_sram (c_storage mv) then
     [raw "SRAM CIM Unit" (sram_mac_operations s) ((q SramDyn + q CalcDyn) * rational (sram_mac_operations s))
        ((q SramLeak + q CalcLeak * rational (calculators g)) * rational (num_sram (c_storage mv) * 2))
        ((q SramArea + rational (calculators g)) * rational (num_sram (c_storage mv) * 2));
      raw "MUX" (mux_sram_selections s) (q MuxDyn * rational (mux_sram_selections s)) (q MuxLeak * rational (mux_sram_size g)) (q MuxArea * rational (mux_sram_size g))]
   else []) ++
  [raw "Input Register Array" (total_operations (in_stat (mv_in u)))
     (q InRead * rational (read_operations (in_stat (mv_in u))) + q InWrite * rational (write_cells (in_stat (mv_in u)))) (q InLeak) (q InArea);
   raw "Output Register Array" (total_operations (out_stat (mv_out u))) (q OutDyn * rational (total_operated_cells (out_stat (mv_out u)))) (q OutLeak) (q OutArea);
   raw "Shift and Add" (sna_operations s) (q SnaDyn * rational (sna_operations s)) (q SnaLeak) (q SnaArea)].

Lemma mvmu_known u : all_some (List.concat (mvmu_items u)) = Some (mvmu_vals u).
Proof.
  unfold mvmu_items, mvmu_vals. cbv zeta.
  pose proof known as K0. pose proof known_rram as K1.
  destruct (have_rram (c_storage mv)); destruct (have_sram (c_storage mv));
    unfold rram_stats, dac_stats, adc_stats, snh_stats, mux_stats, sram_cim_stats, inreg_stats, outreg_stats, sna_stats;
    cbn [List.concat app];
    repeat match goal with |- context [g_param g ?p] => first [rewrite (K0 p eq_refl) | rewrite (K1 p eq_refl)] end;
    reflexivity.
Qed.

Definition unit_names : list string :=
  ["RRAM Xbar"; "DAC"; "ADC"; "Sample and Hold"; "MUX"; "SRAM CIM Unit"; "Input Register Array"; "Output Register Array"; "Shift and Add"]%string.
Lemma vals_names u k : In k (map fst (mvmu_vals u)) -> In k unit_names.
Proof. unfold mvmu_vals. destruct (have_rram (c_storage mv)), (have_sram (c_storage mv)); cbn; tauto. Qed.
Lemma parts_names z us k : In k (map fst (units_parts q g z us)) -> In k unit_names.
Proof. unfold units_parts. fold mv. destruct us; [intros []|]. destruct (have_rram (c_storage mv)), (have_sram (c_storage mv)); cbn; tauto. Qed.

Lemma stats_eq (a b : xstats) : s_count a = s_count b -> @eq Qc (s_dyn a) (s_dyn b) -> @eq Qc (s_leak a) (s_leak b) -> @eq Qc (s_area a) (s_area b) -> a = b.
Proof. destruct a, b; cbn; congruence. Qed.
Lemma act_cons {B} (f : B -> Z) x l : activations_of f (x :: l) = (f x + activations_of f l)%Z.
Proof. reflexivity. Qed.
Lemma zlen_S {B} (x : B) l : zlen (x :: l) = (1 + zlen l)%Z.
Proof. unfold zlen. cbn [List.length]. lia. Qed.

Ltac rats := repeat first [rewrite rational_add | rewrite rational_mul | rewrite rational_1 | rewrite rational_2 | rewrite r0].

Lemma units_step z u us k : us <> [] ->
  oplus (option_map (scale z) (total k (mvmu_vals u))) (total k (units_parts q g z us)) = total k (units_parts q g z (u :: us)).
Proof.
  intros NE. destruct (in_dec string_dec k unit_names) as [IN|NI].
  2: { rewrite (total_absent k (mvmu_vals u)), (total_absent k (units_parts q g z us)), (total_absent k (units_parts q g z (u :: us))); [reflexivity|..];
       intros H; apply NI; first [exact (parts_names _ _ _ H) | exact (vals_names _ _ H)]. }
  unfold units_parts, mvmu_vals. fold mv. destruct us as [|u' us']; [congruence|]. clear NE. set (us := u' :: us').
  rewrite zlen_S. unfold adc_size, snh_size, mux_rram_size, mux_sram_size, calculators. fold mv.
  repeat (destruct IN as [<-|IN]); [..|destruct IN];
  (destruct (have_rram (c_storage mv)); destruct (have_sram (c_storage mv)); destruct (c_adc_differential mv);
   (reflexivity ||
    (unfold total, given; cbn [filter app fst map snd part raw String.eqb Ascii.eqb Bool.eqb orb option_map oplus];
     f_equal; apply stats_eq; cbn [sum_stats smerge scale s_count s_dyn s_leak s_area map fold_right zsum nadd nmul exact_num];
     rewrite ?act_cons; rats; (ring || lia)))).
Qed.

Lemma units_one z u k : option_map (scale z) (total k (mvmu_vals u)) = total k (units_parts q g z [u]).
Proof.
  destruct (in_dec string_dec k unit_names) as [IN|NI].
  2: { rewrite (total_absent k (mvmu_vals u)), (total_absent k (units_parts q g z [u])); [reflexivity|..];
       intros H; apply NI; first [exact (parts_names _ _ _ H) | exact (vals_names _ _ H)]. }
  unfold units_parts, mvmu_vals. fold mv.
  change (zlen [u]) with 1%Z. unfold adc_size, snh_size, mux_rram_size, mux_sram_size, calculators. fold mv.
  repeat (destruct IN as [<-|IN]); [..|destruct IN];
  (destruct (have_rram (c_storage mv)); destruct (have_sram (c_storage mv)); destruct (c_adc_differential mv);
   (reflexivity ||
    (unfold total, given; cbn [filter app fst map snd part raw String.eqb Ascii.eqb Bool.eqb orb option_map oplus];
     f_equal; apply stats_eq; cbn [sum_stats smerge scale s_count s_dyn s_leak s_area map fold_right zsum nadd nmul exact_num];
     rewrite ?act_cons; unfold activations_of; cbn [map zsum fold_right]; rats; (ring || lia)))).
Qed.

Lemma units_total z us k : total k (map (fun x => (fst x, scale z (snd x))) (flat_map mvmu_vals us)) = total k (units_parts q g z us).
Proof.
  induction us as [|u us IH]; [reflexivity|]. cbn [flat_map]. rewrite map_app, total_app, IH, total_scale.
  destruct us as [|u' us].
  - change (total k (units_parts q g z [])) with (@None xstats). rewrite <- units_one. now destruct (total k (mvmu_vals u)).
  - apply units_step. discriminate.
Qed.
End Units.
