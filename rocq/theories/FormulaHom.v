(** The report does not look at the numbers it computes with. *)
From Verif Require Import PyBase PyLemmas ConfigModel MemoryModel VfuModel FloatModel MvmuModel CoreModel DramModel RouterModel SystemModel NodeModel StatsModel ReportModel ReportSpec StatsProofs FormulaSpec.
From Coq Require Import String Lia.
Open Scope Z_scope.

Section Hom.
Context {A B : arith} (phi : num A -> num B).
Hypothesis Hadd : forall x y, phi (nadd A x y) = nadd B (phi x) (phi y).
Hypothesis Hmul : forall x y, phi (nmul A x y) = nmul B (phi x) (phi y).
Hypothesis Hdiv : forall x y, phi (ndiv A x y) = ndiv B (phi x) (phi y).
Hypothesis Hint : forall z, phi (nint A z) = nint B z.
Definition shift (s : stats A) : stats B := MkStats (s_count s) (phi (s_dyn s)) (phi (s_leak s)) (phi (s_area s)).
Lemma shift_zero : shift stats0 = stats0.
Proof. unfold shift, stats0. cbn. now rewrite Hint. Qed.
Lemma shift_merge a b : shift (smerge a b) = smerge (shift a) (shift b).
Proof. unfold shift, smerge. cbn. now rewrite !Hadd. Qed.
Lemma shift_deref h r : deref (map shift h) r = shift (deref h r).
Proof. unfold deref. rewrite <- shift_zero. apply map_nth. Qed.
Lemma shift_upd h : forall r s, upd (map shift h) r (shift s) = map shift (upd h r s).
Proof. induction h as [|x h IH]; intros [|r] s; cbn; try reflexivity. now rewrite IH. Qed.
Definition hom (r : rep A) (r' : rep B) : Prop := forall h, r' (map shift h) = (fst (r h), map shift (snd (r h))).
Definition over (l : list (string * option (stats A))) : list (string * option (stats B)) := map (fun x => (fst x, option_map shift (snd x))) l.
Lemma hom_build l : hom (build l) (build (over l)).
Proof.
  induction l as [|[k [s|]] l IH]; intros h; [reflexivity| |reflexivity]. cbn [over map fst snd option_map build new]. rewrite map_length.
  change [shift s] with (map shift [s]). rewrite <- map_app. fold (over l). rewrite IH. destruct (build l (h ++ [s])) as [[d|e] h2]; reflexivity.
Qed.
Lemma hom_dmerge o : forall d h, dmerge d (map shift h) o = (fst (dmerge d h o), map shift (snd (dmerge d h o))).
Proof.
  unfold dmerge. induction o as [|kv o IH]; intros d h; [reflexivity|]. cbn [fold_left]. unfold merge_item at 2 4 6. destruct (dget d (fst kv)) as [r|]; [|apply IH].
  rewrite !shift_deref, <- shift_merge, shift_upd. apply IH.
Qed.
Lemma hom_merge l l' : Forall2 hom l l' -> forall d, hom (merge_all d l) (merge_all d l').
Proof.
  induction 1 as [|r r' l l' H _ IH]; intros d h; [reflexivity|]. cbn [merge_all]. rewrite (H h). destruct (r h) as [[o|e] h1]; cbn [fst snd]; [|reflexivity].
  rewrite hom_dmerge. destruct (dmerge d h1 o) as [d' h2]. apply IH.
Qed.
Lemma hom_start r r' l l' : hom r r' -> Forall2 hom l l' -> hom (start_merge r l) (start_merge r' l').
Proof. intros H L h. unfold start_merge. rewrite (H h). destruct (r h) as [[o|e] h1]; cbn [fst snd]; [|reflexivity]. now apply hom_merge. Qed.
Lemma hom_leakage r r' c : hom r r' -> hom (with_leakage r c) (with_leakage r' c).
Proof.
  intros H h. unfold with_leakage. rewrite (H h). destruct (r h) as [[d|e] h1]; cbn [fst snd]; [|reflexivity]. f_equal. unfold update_leakage. clear H h. revert h1. induction d as [|kv d IH]; intros h1; [reflexivity|].
  cbn [fold_left]. rewrite <- IH. f_equal. unfold leak_item. rewrite shift_deref, <- shift_upd. f_equal. unfold shift. cbn. now rewrite Hmul, Hint.
Qed.

Context (g : rcfg A) (g' : rcfg B).
Hypothesis Hp : forall q, g_param g' q = option_map phi (g_param g q).
Hypothesis Hc : g_calc_cols g' = g_calc_cols g.
Hypothesis Ho : g_port g' = g_port g.
Hypothesis Hs : g_sys g' = g_sys g.
Lemma shift_add x y : vadd (option_map phi x) (option_map phi y) = option_map phi (vadd x y).
Proof. destruct x, y; cbn; now rewrite ?Hadd. Qed.
Lemma shift_mul x y : vmul (option_map phi x) (option_map phi y) = option_map phi (vmul x y).
Proof. destruct x, y; cbn; now rewrite ?Hmul. Qed.
Lemma shift_div x y : vdiv (option_map phi x) (option_map phi y) = option_map phi (vdiv x y).
Proof. destruct x, y; cbn; now rewrite ?Hdiv. Qed.
Lemma shift_int z : vint z = option_map phi (vint z).
Proof. cbn. now rewrite Hint. Qed.
Lemma shift_mk n x y z : mk n (option_map phi x) (option_map phi y) (option_map phi z) = option_map shift (mk n x y z).
Proof. destruct x, y, z; reflexivity. Qed.
Lemma shift_count n : mk_count n = option_map shift (mk_count (A := A) n).
Proof. cbn. unfold shift. cbn. now rewrite Hint. Qed.
Ltac shifted := unfold over; cbn [map fst snd]; rewrite ?Hp, ?Hs, ?Hc, ?Ho; repeat match goal with |- context [@vint B ?z] => rewrite (shift_int z) end; repeat first [rewrite shift_mul|rewrite shift_add|rewrite shift_div]; rewrite ?shift_mk, ?(shift_count _); reflexivity.
Lemma o_sram m : sram_stats g' m = over (sram_stats g m). Proof. unfold sram_stats. shifted. Qed.
Lemma o_dram m : dram_stats g' m = over (dram_stats g m). Proof. unfold dram_stats. shifted. Qed.
Lemma o_inreg m : inreg_stats g' m = over (inreg_stats g m). Proof. unfold inreg_stats. shifted. Qed.
Lemma o_outreg m : outreg_stats g' m = over (outreg_stats g m). Proof. unfold outreg_stats. shifted. Qed.
Lemma o_vfu m : vfu_stats g' m = over (vfu_stats g m). Proof. unfold vfu_stats. shifted. Qed.
Lemma z_adc : adc_size g' = adc_size g. Proof. unfold adc_size. now rewrite Hs. Qed.
Lemma z_snh : snh_size g' = snh_size g. Proof. unfold snh_size. now rewrite Hs. Qed.
Lemma z_muxr : mux_rram_size g' = mux_rram_size g. Proof. unfold mux_rram_size. now rewrite Hs. Qed.
Lemma z_muxs : mux_sram_size g' = mux_sram_size g. Proof. unfold mux_sram_size. now rewrite Hs. Qed.
Lemma z_calc : calculators g' = calculators g. Proof. unfold calculators. now rewrite Hs, Hc. Qed.
Lemma o_rram m : rram_stats g' m = over (rram_stats g m). Proof. unfold rram_stats. shifted. Qed.
Lemma o_dac m : dac_stats g' m = over (dac_stats g m). Proof. unfold dac_stats. shifted. Qed.
Lemma o_adc m : adc_stats g' m = over (adc_stats g m). Proof. unfold adc_stats. rewrite z_adc. shifted. Qed.
Lemma o_snh m : snh_stats g' m = over (snh_stats g m). Proof. unfold snh_stats. rewrite z_snh. shifted. Qed.
Lemma o_mux m n : mux_stats g' m n = over (mux_stats g m n). Proof. unfold mux_stats. shifted. Qed.
Lemma o_cim m : sram_cim_stats g' m = over (sram_cim_stats g m). Proof. unfold sram_cim_stats. rewrite z_calc. shifted. Qed.
Lemma o_sna m : sna_stats g' m = over (sna_stats g m). Proof. unfold sna_stats. shifted. Qed.
Lemma o_core m n : core_own g' m n = over (core_own g m n). Proof. unfold core_own. shifted. Qed.
Lemma o_ctrl m : ctrl_stats g' m = over (ctrl_stats g m). Proof. unfold ctrl_stats. shifted. Qed.
Lemma o_router m : router_stats g' m = over (router_stats g m). Proof. unfold router_stats. shifted. Qed.
Lemma o_tile m n : tile_own g' m n = over (tile_own g m n). Proof. unfold tile_own. shifted. Qed.
Lemma o_noc : noc_stats g' = over (noc_stats g). Proof. unfold noc_stats. shifted. Qed.
Lemma hom_mvmu u : hom (mvmu_report g u) (mvmu_report g' u).
Proof.
  unfold mvmu_report. apply hom_merge. rewrite Hs, z_muxr, z_muxs, o_rram, o_dac, o_adc, !o_snh, !o_mux, o_cim, o_inreg, o_outreg, o_sna.
  apply Forall2_app; [|apply Forall2_app]; [destruct (have_rram _)|destruct (have_sram _)|]; cbn [map]; repeat (constructor; [apply hom_build|]); constructor.
Qed.
Lemma hom_core k n c : hom (core_report g k n c) (core_report g' k n c).
Proof.
  unfold core_report. apply hom_leakage, hom_start; [rewrite o_core; apply hom_build|]. rewrite o_sram, o_vfu. constructor; [apply hom_build|]. constructor; [apply hom_build|].
  induction (co_mvmus k) as [|u l IH]; cbn [map]; constructor; [apply hom_mvmu|exact IH].
Qed.
Lemma hom_tile id d r n c l l' : Forall2 hom l l' -> hom (tile_report g id d r n c l) (tile_report g' id d r n c l').
Proof.
  intros L. unfold tile_report. rewrite o_router, o_tile, o_dram, o_ctrl. destruct ((id =? 0) || (id =? 1)); [apply hom_build|]. apply hom_start; [|exact L]. apply hom_leakage, hom_start; [apply hom_build|].
  repeat (constructor; [apply hom_build|]). constructor.
Qed.
Lemma hom_energy e r r' : hom r r' -> hom (add_router_energy e r) (add_router_energy (option_map phi e) r').
Proof.
  intros H h. unfold add_router_energy. rewrite (H h). destruct (r h) as [[d|x] h1]; cbn [fst snd]; [|reflexivity]. destruct e as [e|]; cbn [option_map]; [|reflexivity]. destruct (dget d _) as [i|]; [|reflexivity].
  cbn [fst snd]. rewrite shift_deref, <- shift_upd. f_equal. f_equal. unfold shift. cbn. now rewrite Hadd.
Qed.
Lemma hom_node j n : hom (node_report g j n) (node_report g' j n).
Proof.
  unfold node_report. rewrite Hp, Hs, (shift_int (nd_busy n)), shift_mul. apply hom_energy, hom_start.
  - apply hom_leakage, hom_merge. rewrite o_noc. constructor; [apply hom_build|constructor].
  - induction (zrange _) as [|i l IH]; cbn [map]; constructor; [|exact IH]. unfold tile_of. apply hom_tile. induction (combine _ _) as [|x m IHM]; cbn [map]; constructor; [apply hom_core|exact IHM].
Qed.
Theorem hom_sim nodes : hom (sim_report g nodes) (sim_report g' nodes).
Proof. unfold sim_report. apply hom_merge. induction nodes as [|x l IH]; cbn [map]; constructor; [apply hom_node|exact IH]. Qed.
End Hom.

Theorem report_formula {A : arith} (g : rcfg A) v nodes : gives g v ->
  sim_report g nodes [] = let '(r, h) := sim_report (named g) nodes [] in (r, map (valued v) h).
Proof.
  intros G. pose proof (hom_sim (A := formula_num) (B := A) (value v)) as H. specialize (H ltac:(reflexivity) ltac:(reflexivity) ltac:(reflexivity) ltac:(reflexivity) (named g) g).
  specialize (H ltac:(intros q; cbn; destruct (g_param g q) as [x|] eqn:E; cbn; [now rewrite (G q x E)|reflexivity]) eq_refl eq_refl eq_refl nodes []). cbn [map] in H. rewrite H.
  destruct (sim_report (named g) nodes []) as [r h]. reflexivity.
Qed.
