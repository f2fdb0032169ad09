(** How often the numbers of the report are rounded. *)
From Verif Require Import PyBase PyLemmas ConfigModel MemoryModel VfuModel FloatModel MvmuModel CoreModel DramModel RouterModel SystemModel NodeModel StatsModel ReportModel ReportSpec StatsProofs FormulaSpec.
From Coq Require Import String Lia.
Open Scope nat_scope.

(** Powers of two above and below the value of a formula. *)
Fixpoint top (f : formula) : nat := match f with XPar _ => 100 | XInt _ => 53 | XSum a b => S (Nat.max (top a) (top b)) | XProd a b => top a + top b | XQuot a _ => top a end.
Fixpoint low (f : formula) : nat := match f with XPar _ => 100 | XInt _ => 0 | XSum a b => Nat.max (low a) (low b) | XProd a b => low a + low b | XQuot a _ => low a + 53 end.
Definition flat (K n : nat) (f : formula) : Prop := roundings f <= n /\ top f <= K + n /\ low f <= K.
Definition shallow (K n : nat) (s : stats formula_num) : Prop := flat K n (s_dyn s) /\ flat K n (s_leak s) /\ flat K n (s_area s).
Lemma shallow_le K a L b s : K <= L -> a <= b -> shallow K a s -> shallow L b s.
Proof. unfold shallow, flat. lia. Qed.
Lemma shallow_merge K n a b : shallow K n a -> shallow K n b -> shallow K (S n) (smerge a b).
Proof. unfold shallow, flat. cbn. lia. Qed.
Definition upto (K n : nat) (d : sdict) (h : heap formula_num) : Prop := forall k s, val_of d h k = Some s -> shallow K n s.
Definition deep (K n : nat) (r : rep formula_num) : Prop := forall h d h', r h = (Ok d, h') -> keeps h h' /\ own h d h' /\ upto K n d h'.
Lemma deep_le K a L b r : K <= L -> a <= b -> deep K a r -> deep L b r.
Proof. intros LK LA D h d h' E. destruct (D h d h' E) as (KP & O & U). split; [exact KP|]. split; [exact O|]. intros k s V. eapply shallow_le; [exact LK|exact LA|now apply (U k)]. Qed.
Definition leaf (l : list (string * option (stats formula_num))) : Prop := NoDup (map fst l) /\ forall k s, In (k, Some s) l -> shallow 250 4 s.
Lemma build_names l : forall h d h', build (A := formula_num) l h = (Ok d, h') -> map fst d = map fst l.
Proof.
  induction l as [|[k [s|]] l IH]; intros h d h'; cbn [build]; [intros [= <- _]; reflexivity| |discriminate]. cbn [new]. destruct (build l (h ++ [s])) as [[e|x] h2] eqn:E; [|discriminate].
  intros [= <- <-]. cbn. f_equal. exact (IH _ _ _ E).
Qed.
Lemma deep_build l : leaf l -> deep 250 4 (build l).
Proof.
  intros (ND & SH) h d h' E. pose proof (build_names _ _ _ _ E) as N. revert h d h' E ND SH N. induction l as [|[k [s|]] l IH]; intros h d h'; cbn [build].
  - intros [= <- <-] _ _ _. split; [apply keeps_refl|]. split; [split; [constructor|split; constructor]|]. intros k s V. discriminate V.
  - cbn [new]. destruct (build l (h ++ [s])) as [[e|x] h2] eqn:E; [|discriminate]. intros [= <- <-] ND SH N. cbn [map fst] in ND, N. injection N as N. inversion ND as [|? ? NI ND']; subst.
    destruct (IH (h ++ [s]) e h2 E ND' ltac:(intros; apply (SH k0); now right) N) as (K & (O1 & O2 & O3) & U).
    pose proof (new_keeps h s) as KN. pose proof (keeps_trans _ _ _ KN K) as KT. assert (LH : List.length (h ++ [s]) = S (List.length h)) by (rewrite app_length; cbn; lia).
    split; [exact KT|]. split; [split; [|split]|].
    + cbn. now rewrite N.
    + cbn. constructor; [|exact O2]. intros H. apply in_map_iff in H as (kv & Ek & Hkv). rewrite Forall_forall in O3. specialize (O3 kv Hkv). lia.
    + constructor; [cbn; destruct K; lia|]. eapply Forall_impl; [|exact O3]. cbn. intros; lia.
    + intros k1 s1. rewrite val_of_cons. destruct (String.eqb_spec k k1) as [->|NE]; [|apply U]. rewrite (proj2 K) by lia. rewrite deref_new. intros [= <-]. apply (SH k1). now left.
  - discriminate.
Qed.
Lemma deep_merge K n rs : Forall (deep K n) rs -> forall d h0 h1 b d' h', keeps h0 h1 -> own h0 d h1 -> upto K b d h1 -> n <= b -> merge_all d rs h1 = (Ok d', h') ->
  keeps h0 h' /\ own h0 d' h' /\ upto K (b + List.length rs) d' h'.
Proof.
  induction 1 as [|r rs D _ IH]; intros d h0 h1 b d' h' KP O U L; cbn [merge_all List.length].
  - intros [= <- <-]. rewrite Nat.add_0_r. auto.
  - destruct (r h1) as [[o|e] h2] eqn:E; [|discriminate]. destruct (D h1 o h2 E) as (K2 & O2 & U2). pose proof (merge_own h0 h1 h2 d o KP O K2 O2) as M. destruct (dmerge d h2 o) as [d1 h3]. destruct M as (K3 & O3 & V3).
    intros Q. replace (b + S (List.length rs)) with (S b + List.length rs) by lia. apply (IH d1 h0 h3 (S b) d' h'); [exact K3|exact O3| |lia|exact Q].
    intros k s V. rewrite V3 in V. unfold oplus in V. destruct (val_of d h1 k) as [x|] eqn:E1, (val_of o h2 k) as [y|] eqn:E2; try discriminate V; injection V as <-.
    + apply shallow_merge; [now apply (U k)|]. eapply shallow_le; [| |now apply (U2 k)]; lia.
    + eapply shallow_le; [| |now apply (U k)]; lia.
    + eapply shallow_le; [| |now apply (U2 k)]; lia.
Qed.
Lemma deep_all K n rs : Forall (deep K n) rs -> deep K (n + List.length rs) (merge_all [] rs).
Proof.
  intros F h d h' E. apply (deep_merge K n rs F [] h h n d h'); [apply keeps_refl|split; [constructor|split; constructor]|intros k s V; discriminate V|lia|exact E].
Qed.
Lemma deep_start K n r rs : deep K n r -> Forall (deep K n) rs -> deep K (n + List.length rs) (start_merge r rs).
Proof.
  intros D F h d h'. unfold start_merge. destruct (r h) as [[o|e] h1] eqn:E; [|discriminate]. destruct (D h o h1 E) as (KP & O & U). intros Q. now apply (deep_merge K n rs F o h h1 n d h').
Qed.
Definition scale_up (z : Z) (s : stats formula_num) : stats formula_num := MkStats (A := formula_num) (s_count s) (s_dyn s) (XProd (s_leak s) (XInt z)) (s_area s).
Lemma leak_values z d : forall h : heap formula_num, NoDup (map snd d) -> Forall (fun kv => snd kv < List.length h) d ->
  List.length (update_leakage h d z) = List.length h /\ forall i, deref (update_leakage h d z) i = if existsb (Nat.eqb i) (map snd d) then scale_up z (deref h i) else deref h i.
Proof.
  induction d as [|[k r] d IH]; intros h ND F; [split; reflexivity|]. cbn [map snd] in *. inversion ND as [|? ? NI ND']; subst. inversion F as [|? ? L F']; subst. cbn [snd] in L. unfold update_leakage. cbn [fold_left].
  set (h1 := leak_item z h (k, r)). assert (L1 : List.length h1 = List.length h) by apply length_upd. destruct (IH h1 ND') as [A B]; [eapply Forall_impl; [|exact F']; cbn; intros; lia|].
  unfold update_leakage in A, B. split; [congruence|]. intros i. rewrite B. cbn [existsb]. assert (D : deref h1 i = if (i =? r) then scale_up z (deref h r) else deref h i) by (unfold h1, leak_item; rewrite deref_upd by assumption; reflexivity).
  rewrite D. clear D. destruct (Nat.eqb_spec i r) as [Eir|]; cbn [orb]; [|reflexivity]. rewrite Eir. replace (existsb (Nat.eqb r) (map snd d)) with false; [reflexivity|]. symmetry. apply Bool.not_true_is_false. intros H.
  apply existsb_exists in H as (x & Hx & E). apply Nat.eqb_eq in E. subst. now apply NI.
Qed.
Lemma deep_leakage K n r z : deep K n r -> deep (K + 53) (S n) (with_leakage r z).
Proof.
  intros D h d h'. unfold with_leakage. destruct (r h) as [[o|e] h1] eqn:E; [|discriminate]. intros [= <- <-]. destruct (D h o h1 E) as (KP & (O1 & O2 & O3) & U).
  destruct (leak_values z o h1 O2) as (LL & LV); [eapply Forall_impl; [|exact O3]; cbn; lia|]. split; [|split].
  - split; [destruct KP; lia|]. intros i L. rewrite LV. destruct (existsb (Nat.eqb i) (map snd o)) eqn:X; [|now apply KP]. exfalso. apply existsb_exists in X as (x & Hx & Ex). apply Nat.eqb_eq in Ex. subst x.
    apply in_map_iff in Hx as (kv & <- & Hkv). rewrite Forall_forall in O3. specialize (O3 kv Hkv). lia.
  - split; [exact O1|]. split; [exact O2|]. eapply Forall_impl; [|exact O3]. cbn. intros; lia.
  - intros k s V. unfold val_of in V. destruct (dget o k) as [i|] eqn:G; [|discriminate V]. injection V as <-. rewrite LV. assert (UK : shallow K n (deref h1 i)) by (apply (U k); unfold val_of; now rewrite G).
    destruct (existsb _ _); [|eapply shallow_le; [| |exact UK]; lia]. unfold shallow, flat in *. cbn. lia.
Qed.
Lemma deep_energy K n (e : val formula_num) r : 1 <= n -> (forall x : formula, e = Some x -> flat K n x) -> deep K n r -> deep K (S n) (add_router_energy e r).
Proof.
  intros N HE D h d h'. unfold add_router_energy. destruct (r h) as [[o|x] h1] eqn:E; [|discriminate]. destruct e as [e|]; [|discriminate]. destruct (dget o "Router"%string) as [i|] eqn:G; [|discriminate]. intros [= <- <-].
  destruct (D h o h1 E) as (KP & (O1 & O2 & O3) & U). specialize (HE e eq_refl). pose proof (dget_in _ _ _ G) as IN. rewrite Forall_forall in O3. pose proof (O3 _ IN) as B. cbn in B. split; [|split].
  - split; [rewrite length_upd; destruct KP; lia|]. intros j L. rewrite deref_upd by lia. destruct (Nat.eqb_spec j i); [lia|]. now apply KP.
  - split; [exact O1|]. split; [exact O2|]. rewrite Forall_forall. intros kv I. rewrite length_upd. now apply O3.
  - intros k s V. unfold val_of in V. destruct (dget o k) as [j|] eqn:G'; [|discriminate V]. injection V as <-. rewrite deref_upd by lia. assert (UI : shallow K n (deref h1 i)) by (apply (U "Router"%string); unfold val_of; now rewrite G).
    assert (UJ : shallow K n (deref h1 j)) by (apply (U k); unfold val_of; now rewrite G'). destruct (j =? i); unfold shallow, flat in *; cbn; lia.
Qed.
Section Named.
Context {A : arith} (x : rcfg A).
Notation g := (named x).
Lemma small_param p (a : formula) : g_param g p = Some a -> a = XPar p.
Proof. cbn. destruct (g_param x p); [|discriminate]. now intros [= <-]. Qed.
Ltac leaf_tac := split; [cbn [map fst sram_stats dram_stats inreg_stats outreg_stats vfu_stats rram_stats dac_stats adc_stats snh_stats mux_stats sram_cim_stats sna_stats core_own ctrl_stats router_stats tile_own]; repeat (apply NoDup_cons; [cbn [In]; intuition discriminate|]); apply NoDup_nil|]; intros k s I; cbn [In sram_stats dram_stats inreg_stats outreg_stats vfu_stats rram_stats dac_stats adc_stats snh_stats mux_stats sram_cim_stats sna_stats core_own ctrl_stats router_stats tile_own] in I;
  repeat match goal with I : _ \/ _ |- _ => destruct I as [I|I] end; try contradiction; apply (f_equal snd) in I; cbn [snd] in I; revert I; unfold mk, mk_count, vadd, vmul, vdiv, vint;
  repeat match goal with |- context [g_param g ?p] => let E := fresh "E" in destruct (g_param g p) eqn:E; [apply small_param in E; subst|]; try discriminate end;
  intros [= <-]; unfold shallow, flat; cbn [s_dyn s_leak s_area roundings top low nadd nmul ndiv nint formula_num]; lia.
Lemma l_sram m : leaf (sram_stats g m). Proof. leaf_tac. Qed.
Lemma l_dram m : leaf (dram_stats g m). Proof. leaf_tac. Qed.
Lemma l_inreg m : leaf (inreg_stats g m). Proof. leaf_tac. Qed.
Lemma l_outreg m : leaf (outreg_stats g m). Proof. leaf_tac. Qed.
Lemma l_vfu m : leaf (vfu_stats g m). Proof. leaf_tac. Qed.
Lemma l_rram m : leaf (rram_stats g m). Proof. leaf_tac. Qed.
Lemma l_dac m : leaf (dac_stats g m). Proof. leaf_tac. Qed.
Lemma l_adc m : leaf (adc_stats g m). Proof. leaf_tac. Qed.
Lemma l_snh m : leaf (snh_stats g m). Proof. leaf_tac. Qed.
Lemma l_mux m n : leaf (mux_stats g m n). Proof. leaf_tac. Qed.
Lemma l_cim m : leaf (sram_cim_stats g m). Proof. leaf_tac. Qed.
Lemma l_sna m : leaf (sna_stats g m). Proof. leaf_tac. Qed.
Lemma l_core m n : leaf (core_own g m n). Proof. leaf_tac. Qed.
Lemma l_ctrl m : leaf (ctrl_stats g m). Proof. leaf_tac. Qed.
Lemma l_router m : leaf (router_stats g m). Proof. leaf_tac. Qed.
Lemma l_tile m n : leaf (tile_own g m n). Proof. leaf_tac. Qed.
Lemma l_noc : leaf (noc_stats g). Proof. unfold noc_stats. cbv zeta. leaf_tac. Qed.
Ltac builds := repeat (apply Forall_cons; [apply deep_build; auto using l_sram, l_dram, l_inreg, l_outreg, l_vfu, l_rram, l_dac, l_adc, l_snh, l_mux, l_cim, l_sna, l_ctrl, l_router, l_noc|]); apply Forall_nil.
Lemma d_mvmu u : deep 250 16 (mvmu_report g u).
Proof.
  unfold mvmu_report. eapply deep_le; [apply Nat.le_refl| |apply deep_all with (n := 4)].
  - rewrite !app_length. destruct (have_rram _), (have_sram _); cbn; lia.
  - apply Forall_app. split; [destruct (have_rram _); [cbn [map]; builds|constructor]|]. apply Forall_app. split; [destruct (have_sram _); [cbn [map]; builds|constructor]|cbn [map]; builds].
Qed.
Lemma d_core k n c m : List.length (co_mvmus k) <= m -> deep 303 (19 + m) (core_report g k n c).
Proof.
  intros L. unfold core_report. replace (19 + m) with (S (16 + S (S m))) by lia. apply (deep_leakage 250). eapply deep_le; [apply Nat.le_refl| |apply deep_start with (n := 16)].
  - cbn [List.length]. rewrite map_length. lia.
  - eapply deep_le; [| |apply deep_build, l_core]; lia.
  - constructor; [eapply deep_le; [| |apply deep_build, l_sram]; lia|]. constructor; [eapply deep_le; [| |apply deep_build, l_vfu]; lia|]. apply Forall_forall. intros r I. apply in_map_iff in I as (u & <- & _). apply d_mvmu.
Qed.
Lemma d_tile id d r n c l b : 8 <= b -> Forall (deep 303 b) l -> deep 303 (b + List.length l) (tile_report g id d r n c l).
Proof.
  intros B F. unfold tile_report. destruct ((id =? 0) || (id =? 1))%Z; [eapply deep_le; [| |apply deep_build, l_router]; lia|]. apply deep_start; [|exact F]. eapply deep_le; [apply Nat.le_refl|exact B|]. apply (deep_leakage 250 7), (deep_start 250 4); [apply deep_build, l_tile|builds].
Qed.
Lemma d_node j n m c : (forall i, (0 <= i < Z.of_nat (Z.to_nat (w_tiles (y_net (g_sys x)))))%Z -> let l := t_cores (s_tile (nd_sys n) i) in List.length l <= c /\ Forall (fun k => List.length (co_mvmus (cp_core k)) <= m) l) ->
  deep 303 (20 + m + c + Z.to_nat (w_tiles (y_net (g_sys x)))) (node_report g j n).
Proof.
  intros H. unfold node_report. replace (20 + m + c + Z.to_nat (w_tiles (y_net (g_sys x)))) with (S (19 + m + c + Z.to_nat (w_tiles (y_net (g_sys x))))) by lia. apply deep_energy; [lia| |].
  - intros e. unfold vmul, vint. destruct (g_param g IntraDyn) as [a|] eqn:E; [|discriminate]. apply small_param in E. subst a. intros [= <-]. unfold flat. cbn [roundings top low nmul formula_num]. lia.
  - eapply deep_le; [apply Nat.le_refl| |apply deep_start with (n := 19 + m + c)].
    + rewrite map_length. unfold zrange. rewrite map_length, seq_length. cbn [named g_sys]. lia.
    + eapply deep_le; [| |apply (deep_leakage 250 5), (deep_all 250 4); builds]; lia.
    + apply Forall_forall. intros r I. apply in_map_iff in I as (i & <- & Ii). destruct (H i) as (LC & FM); [unfold zrange in Ii; apply in_map_iff in Ii as (z & <- & Iz); apply in_seq in Iz; cbn [named g_sys] in Iz; lia|]. unfold tile_of. eapply deep_le; [apply Nat.le_refl| |apply d_tile with (b := 19 + m); [lia|]].
      * rewrite map_length, combine_length. lia.
      * apply Forall_forall. intros r I. apply in_map_iff in I as (y & <- & I). apply d_core. destruct y as [y k]. apply in_combine_r in I. rewrite Forall_forall in FM. now apply FM.
Qed.
Theorem report_depth nodes m c d f k i : at_most (Z.to_nat (w_tiles (y_net (g_sys x)))) m c nodes -> sim_report g nodes [] = (Ok d, f) -> In (k, i) d ->
  shallow 303 (20 + m + c + Z.to_nat (w_tiles (y_net (g_sys x))) + List.length nodes) (deref f i).
Proof.
  intros M E I. unfold sim_report in E. pose proof (deep_all 303 (20 + m + c + Z.to_nat (w_tiles (y_net (g_sys x)))) (map (fun y => node_report g (fst y) (snd y)) nodes)) as D. rewrite map_length in D.
  assert (F : Forall (deep 303 (20 + m + c + Z.to_nat (w_tiles (y_net (g_sys x))))) (map (fun y => node_report g (fst y) (snd y)) nodes)).
  { apply Forall_forall. intros r Ir. apply in_map_iff in Ir as (y & <- & Iy). apply d_node. unfold at_most in M. rewrite Forall_forall in M. exact (M y Iy). }
  destruct (D F [] d f E) as (_ & (ND & _) & U). apply (U k). unfold val_of. now rewrite (dget_some _ _ _ ND I).
Qed.
End Named.
