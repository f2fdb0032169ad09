(** A machine without data: of the registers it knows only the constants that were set, of the memory only which of the first
    4200 cells are valid.  What it can do, the code's cores and memories can do too. *)
From Verif Require Import PyBase PyLemmas ConfigModel MemoryModel MemorySpec MemoryProofs VfuModel FloatModel MvmuModel MvmuSpec MvmuLists MvmuLoad MvmuRun MvmuProofs
  CoreModel CoreSpec CoreProofs CoreUse CoreInstr DramModel RouterModel SystemModel SymMachine SymCore DesModel DesShape.
From Coq Require Import ZifyBool ZifyNat.
Open Scope Z_scope.

Definition known (s : list (Z * Z)) (a : Z) : option Z := match find (fun x => fst x =? a) s with Some x => Some (snd x) | None => None end.
Definition forget (s : list (Z * Z)) (d n : Z) : list (Z * Z) := filter (fun x => negb ((d <=? fst x) && (fst x <? d + n))) s.
Lemma known_forget s d n a z : known (forget s d n) a = Some z -> known s a = Some z /\ ~ (d <= a < d + n).
Proof.
  unfold known, forget. induction s as [|[b y] s IH]; [discriminate|]. cbn [filter fst]. destruct ((d <=? b) && (b <? d + n)) eqn:E; cbn [negb find fst].
  - destruct (b =? a) eqn:B; [|exact IH]. intros H. apply IH in H as [_ H]. lia.
  - destruct (b =? a) eqn:B; [|exact IH]. intros [= ->]. split; [reflexivity|lia].
Qed.

Definition sk_geo : geo := MkGeo 128 6 4096 4200 5 1 (fun _ _ _ => None).
Definition sk_ok (b : bool) (s s' : list (Z * Z)) : res unit * list (Z * Z) := if b then (Ok tt, s') else (Raise IndexError, s).
Definition sk_local (s : list (Z * Z)) (o : cop) : res unit * list (Z * Z) :=
  match o with
  | CSet d imm v => sk_ok (swritable sk_geo d v && int32b imm) s (if v =? 1 then (d, imm) :: forget s d v else forget s d v)
  | CCopy d r v => sk_ok (swritable sk_geo d v && sreadable sk_geo r v) s (forget s d v)
  | CVfu Vadd d r1 (Some r2) v => sk_ok (swritable sk_geo d v && sreadable sk_geo r1 v && sreadable sk_geo r2 v) s (forget s d v)
  | CVfu Vrelu d r None v => sk_ok (swritable sk_geo d v && sreadable sk_geo r v) s (forget s d v)
  | CMvm [u] => sk_ok ((0 <=? u) && (u <? 6)) s (forget (forget s (6 * 128 + u * 128) 128) (u * 128) 128)
  | CHlt => (Ok tt, s)
  | _ => (Raise IndexError, s)
  end.
Definition sk_address (s : list (Z * Z)) (r : Z) : option Z := guard (sreadable sk_geo r 1) (known s r).
Definition sk_load (s : list (Z * Z)) (r : Z) : res Z * list (Z * Z) :=
  match sk_address s r with Some a => (Ok a, s) | None => (Raise IndexError, s) end.
Definition sk_loaded (s : list (Z * Z)) (d : Z) (data : list Z) : res unit * list (Z * Z) :=
  sk_ok (swritable sk_geo d (zlen data)) s (forget s d (zlen data)).
Definition sk_store (s : list (Z * Z)) (d r w v : Z) : res (Z * list Z) * list (Z * Z) :=
  match sk_address s d with
  | Some a => if sreadable sk_geo r (w * v) && (0 <=? w) && (0 <=? v) then (Ok (a, repeat 0 (Z.to_nat (w * v))), s) else (Raise IndexError, s)
  | None => (Raise IndexError, s)
  end.
Definition within (a l : Z) : bool := (0 <=? a) && (0 <? l) && (a + l <=? 4200).
Definition all_flags (size : Z) (m : list bool) : list bool := m ++ repeat false (Z.to_nat (size - 4200)).
Definition sk_ready (size : Z) (m : list bool) (r : req) : bool :=
  if within (q_start r) (q_length r) then forallb (fun b => b) (block m (q_start r) (q_length r)) else ready (all_flags size m) r.
Definition sk_read (m : list bool) (r : req) : res (list Z) * list bool :=
  if within (q_start r) (q_length r) then (Ok (repeat 0 (Z.to_nat (q_length r))), m) else (Raise IndexError, m).
Definition sk_write (m : list bool) (r : req) (rows : list (list Z)) : res unit * list bool :=
  if within (q_start r) (q_length r) then (Ok tt, blit m (q_start r) (repeat true (Z.to_nat (q_length r)))) else (Raise IndexError, m).
Definition skel (size : Z) : machine (list (Z * Z)) (list bool) :=
  MkMachine sk_local sk_load sk_loaded sk_store (sk_ready size) sk_read sk_write.

Section Follow.
Context (cfg : list bitcfg) (ww : Z) (c : sys_cfg) (OK : core_ok cfg ww (y_core c)) (ID : ideal cfg (k_mv (y_core c))).
Context (HW : 0 <= v_width (k_vfu (y_core c)) <= 31).
Context (Hn : c_size (k_mv (y_core c)) = 128) (Hm : k_mvmus (y_core c) = 6) (Hq : k_cache (y_core c) = 4096) (HS : 4200 <= y_size c).
Notation cc := (y_core c).
Notation cr := (crel cfg cc sk_geo (fun _ => 0) (fun _ _ _ _ => 0) (fun _ _ _ => []) 0 0).
Notation is := (is (k_vfu cc) (fun _ => 0) (fun _ _ _ _ => 0)).
Notation shows := (shows (k_vfu cc) (fun _ => 0) (fun _ _ _ _ => 0)).

Definition knows (s : list (Z * Z)) (K : core) : Prop := exists r, cr r K /\ forall a z, known s a = Some z -> 0 <= a < total_registers cc -> znth VX r a = VC z.
Definition cells_of (m : list bool) (M : cells_valid) : Prop :=
  msize (y_mem M) = y_size c /\ zlen (cells (y_mem M)) = y_size c /\ zlen m = 4200 /\ y_valid M = all_flags (y_size c) m.

Let G1 : g_n sk_geo = c_size (k_mv cc). Proof. now rewrite Hn. Qed.
Let G2 : g_m sk_geo = k_mvmus cc. Proof. now rewrite Hm. Qed.
Let G3 : g_q sk_geo = k_cache cc. Proof. now rewrite Hq. Qed.
Let HE : forall i k u l xs, g_in sk_geo i k u = Some l -> zlen xs = c_size (k_mv cc) -> Forall2 is l xs ->
  forall j, 0 <= j < c_size (k_mv cc) -> (fun _ _ _ _ => 0) i k u j = wrap32 (mvm_value (k_mv cc) cfg (znth [] ((fun _ _ _ => []) i k u) j) xs) / 2 ^ c_weight_frac (k_mv cc).
Proof. discriminate. Qed.

Lemma sk_write_any r K s zs : cr r K -> swritable sk_geo s (zlen zs) = true ->
  exists K', write_to_register cc K s zs = (Ok tt, K') /\ cr (blit r s (repeat VX (length zs))) K'.
Proof.
  intros R H. destruct (swritable_ok cfg ww cc OK HW sk_geo G1 G2 G3 (fun _ => 0) (fun _ _ _ _ => 0) (fun _ _ _ => []) HE s _ H) as (Hl & WR & H0 & H1).
  destruct (write_good cfg ww cc OK K s zs (cr_reached _ _ _ _ _ _ _ _ _ _ R) Hl WR) as (K' & E & S & ST).
  exists K'. split; [exact E|]. pose proof (reached_snoc cc K (KWrite s zs) (cr_reached _ _ _ _ _ _ _ _ _ _ R)) as R'. cbn [core_step] in R'. rewrite E in R'.
  assert (L : zlen (repeat VX (length zs)) = zlen zs) by (unfold zlen; now rewrite repeat_length).
  apply (crel_stored cfg ww cc OK HW sk_geo (fun _ => 0) (fun _ _ _ _ => 0) (fun _ _ _ => []) HE 0 0 r K K' s (repeat VX (length zs)) (fun i v => is_int32_of v (znth 0 zs i))); rewrite ?L; try assumption.
  intros j z Hj _. unfold znth. rewrite nth_repeat_lt by (unfold zlen in Hj; lia). intros y. discriminate.
Qed.
Lemma knows_blit s r K d n vs : cr (blit r d vs) K -> (forall a z, known s a = Some z -> 0 <= a < total_registers cc -> znth VX r a = VC z) ->
  zlen vs = n -> 0 <= d -> d + n <= total_registers cc -> zlen r = total_registers cc -> knows (forget s d n) K.
Proof.
  intros R HKn L H0 H1 LR. exists (blit r d vs). split; [exact R|]. intros a z HF HA. apply known_forget in HF as [HF HO].
  rewrite (znth_blit VX) by lia. replace ((d <=? a) && (a <? d + zlen vs)) with false by lia. now apply HKn.
Qed.
Lemma sk_mvm r K u : cr r K -> 0 <= u < 6 ->
  exists K', exec_local cc K (CMvm [u]) = (Ok tt, K') /\ cr (blit (blit r (6 * 128 + u * 128) (repeat VX (Z.to_nat 128))) (u * 128) (repeat VX (Z.to_nat 128))) K'.
Proof.
  intros R Hu. pose proof (reached_inv _ _ (cr_reached _ _ _ _ _ _ _ _ _ _ R)) as IV.
  assert (L : (Z.to_nat u < length (co_mvmus K))%nat) by (rewrite (ki_len _ _ IV); lia).
  destruct (nth_error (co_mvmus K) (Z.to_nat u)) as [U|] eqn:EU; [|apply nth_error_None in EU; lia].
  cbn [exec_local]. rewrite (exec_mvm_single cc K u U IV ltac:(lia) EU). set (U' := execute_mvm (k_mv cc) U).
  exists (set_mvmu K u U'). split; [reflexivity|].
  assert (TR : total_registers cc = 5632). { unfold total_registers, cache_start, outreg_start. rewrite Hn, Hm, Hq. reflexivity. }
  assert (LX : zlen (repeat VX (Z.to_nat 128)) = 128) by (apply zlen_repeat'; lia).
  assert (LR : zlen r = 5632) by (rewrite <- TR; apply R).
  assert (LB : zlen (blit r (6 * 128 + u * 128) (repeat VX (Z.to_nat 128))) = 5632) by (rewrite zlen_blit; lia).
  constructor.
  - apply (local_reached cc K (CMvm [u]) _ (Ok tt)); [apply R|]. cbn [exec_local]. now apply exec_mvm_single; [|lia|].
  - rewrite zlen_blit; lia.
  - intros a p P. pose proof (place_nonneg cfg ww cc OK HW sk_geo (fun _ => 0) (fun _ _ _ _ => 0) (fun _ _ _ => []) HE a p P) as HA. rewrite TR in HA.
    rewrite (znth_blit VX) by lia. rewrite LX. destruct ((u * 128 <=? a) && (a <? u * 128 + 128)) eqn:E1; [rewrite znth_repeat by lia; intros y; discriminate|].
    rewrite (znth_blit VX) by lia. rewrite LX. destruct ((6 * 128 + u * 128 <=? a) && (a <? 6 * 128 + u * 128 + 128)) eqn:E2; [rewrite znth_repeat by lia; intros y; discriminate|].
    replace (visible cc (set_mvmu K u U') p) with (visible cc K p); [now apply R|].
    destruct p as [w o|w o|o]; cbn [visible content]; [| |reflexivity].
    + apply (place_in cfg ww cc OK) in P. rewrite Hn, Hm in P. rewrite nth_error_set_mvmu by lia.
      destruct (Z.to_nat w =? Z.to_nat u)%nat eqn:EW; [|reflexivity]. exfalso. assert (w = u) by lia. subst w. lia.
    + apply (place_out cfg ww cc OK) in P. rewrite Hn, Hm in P. rewrite nth_error_set_mvmu by lia.
      destruct (Z.to_nat w =? Z.to_nat u)%nat eqn:EW; [|reflexivity]. exfalso. assert (w = u) by lia. subst w. lia.
  - discriminate.
Qed.
Lemma sk_ok_inv b s s' x : sk_ok b s s' = (Ok tt, x) -> b = true /\ x = s'.
Proof. unfold sk_ok. destruct b; [|discriminate]. intros [= <-]. now split. Qed.
Lemma local_via o r K s d n vs : cr r K -> slocal sk_geo 0 0 r o = Some (blit r d vs) -> zlen vs = n -> swritable sk_geo d n = true ->
  (forall a z, known s a = Some z -> 0 <= a < total_registers cc -> znth VX r a = VC z) ->
  exists K', exec_local cc K o = (Ok tt, K') /\ cr (blit r d vs) K' /\ knows (forget s d n) K'.
Proof.
  intros R E L WR HKn. destruct (crel_local cfg ww cc OK ID HW sk_geo G1 G2 G3 (fun _ => 0) (fun _ _ _ _ => 0) (fun _ _ _ => []) HE 0 0 r K o (blit r d vs) R E) as (K' & E' & R').
  exists K'. split; [exact E'|]. split; [exact R'|]. destruct (swritable_ok cfg ww cc OK HW sk_geo G1 G2 G3 (fun _ => 0) (fun _ _ _ _ => 0) (fun _ _ _ => []) HE d _ WR) as (_ & _ & H0 & H1).
  apply (knows_blit s r K' d n vs); auto. apply R.
Qed.

Notation SP := (skel (y_size c)).
Notation RP := (real c).
Lemma skel_can :
  (forall k k' o x, knows k k' -> m_local SP k o = (Ok tt, x) -> exists x', m_local RP k' o = (Ok tt, x') /\ knows x x') /\
  (forall k k' r a x, knows k k' -> m_load SP k r = (Ok a, x) -> exists x', m_load RP k' r = (Ok a, x') /\ knows x x') /\
  (forall k k' d v v' x, knows k k' -> alike v v' -> m_loaded SP k d v = (Ok tt, x) -> exists x', m_loaded RP k' d v' = (Ok tt, x') /\ knows x x') /\
  (forall k k' d r w n a v x, knows k k' -> m_store SP k d r w n = (Ok (a, v), x) ->
    exists v' x', m_store RP k' d r w n = (Ok (a, v'), x') /\ alike v v' /\ knows x x') /\
  (forall g m m' r r', cells_of m m' -> req_alike g r r' -> m_ready SP m r = m_ready RP m' r') /\
  (forall g m m' r r' v x, cells_of m m' -> req_alike g r r' -> m_read SP m r = (Ok v, x) ->
    zlen v = q_length r /\ exists v' x', m_read RP m' r' = (Ok v', x') /\ alike v v' /\ cells_of x x') /\
  (forall g m m' r r' l l' x, cells_of m m' -> req_alike g r r' -> q_kind r = RWrite l -> q_kind r' = RWrite l' -> rows_alike l l' ->
    m_write SP m r l = (Ok tt, x) -> exists x', m_write RP m' r' l' = (Ok tt, x') /\ cells_of x x').
Proof.
  assert (TR : total_registers cc = 5632). { unfold total_registers, cache_start, outreg_start. rewrite Hn, Hm, Hq. reflexivity. }
  assert (AD : forall s K r a, knows s K -> sk_address s r = Some a -> exists K', load_address cc K r = (Ok a, K') /\ (exists v, read_from_register cc K r 1 = (Ok (a :: v), K')) /\ knows s K').
  { intros s K r a (rg & R & HKn) H. apply guard_some in H as [H1 H2]. pose proof (sreadable_ok cfg ww cc OK HW sk_geo G1 G2 G3 (fun _ => 0) (fun _ _ _ _ => 0) (fun _ _ _ => []) HE r 1 H1) as (_ & _ & H3 & H4).
    destruct (crel_address cfg ww cc OK HW sk_geo G1 G2 G3 (fun _ => 0) (fun _ _ _ _ => 0) (fun _ _ _ => []) HE 0 0 rg K r a R) as (K' & E1 & E2 & R').
    { unfold reg_address. rewrite H1. cbn [guard]. now rewrite (HKn _ _ H2 ltac:(lia)). }
    exists K'. split; [exact E1|]. split; [exact E2|]. exists rg. now split. }
  assert (INS : forall a l, within a l = true -> 0 <= a /\ 0 < l /\ a + l <= 4200) by (unfold within; lia).
  cbn [skel real m_local m_load m_loaded m_store m_ready m_read m_write]. split; [|split; [|split; [|split; [|split; [|split]]]]].
  - intros s K o x (r & R & HKn) E. assert (LR : zlen r = 5632) by (rewrite <- TR; apply R).
    assert (LEN : forall a v, sreadable sk_geo a v = true -> zlen (block r a v) = v).
    { intros a v H. destruct (sreadable_ok cfg ww cc OK HW sk_geo G1 G2 G3 (fun _ => 0) (fun _ _ _ _ => 0) (fun _ _ _ => []) HE a v H) as (Hl & _ & H0 & H1). apply zlen_block; lia. }
    destruct o as [d a w v|d a w v|d imm v|d a v|xbar|op d s1 s2 v|]; cbn [sk_local] in E; try discriminate.
    + apply sk_ok_inv in E as [G ->]. pose proof G as G'. apply andb_prop in G' as [WR _]. destruct (swritable_ok cfg ww cc OK HW sk_geo G1 G2 G3 (fun _ => 0) (fun _ _ _ _ => 0) (fun _ _ _ => []) HE d v WR) as (Hv & _ & H0 & H1).
      destruct (local_via (CSet d imm v) r K s d v (repeat (VC imm) (Z.to_nat v)) R) as (K' & E' & R' & HK'); auto.
      { cbn [slocal]. rewrite G. reflexivity. } { apply zlen_repeat'. lia. }
      exists K'. split; [exact E'|]. destruct (v =? 1) eqn:V; [|exact HK']. assert (v = 1) by lia. subst v.
      exists (blit r d (repeat (VC imm) (Z.to_nat 1))). split; [exact R'|]. intros a z HF HA. unfold known in HF. cbn [find fst] in HF.
      rewrite (znth_blit VX) by (change (zlen (repeat (VC imm) (Z.to_nat 1))) with 1; lia). change (zlen (repeat (VC imm) (Z.to_nat 1))) with 1. destruct (d =? a) eqn:DA.
      * injection HF as <-. replace ((d <=? a) && (a <? d + 1)) with true by lia. replace (a - d) with 0 by lia. reflexivity.
      * replace ((d <=? a) && (a <? d + 1)) with false by lia. fold (known (forget s d 1) a) in HF. apply known_forget in HF as [HF _]. now apply HKn.
    + apply sk_ok_inv in E as [G ->]. pose proof G as G'. apply andb_prop in G' as [WR RD].
      destruct (local_via (CCopy d a v) r K s d v (block r a v) R) as (K' & E' & R' & HK'); auto; [cbn [slocal]; rewrite G; reflexivity|]. eauto.
    + destruct xbar as [|u [|]]; try discriminate. apply sk_ok_inv in E as [G ->]. destruct (sk_mvm r K u R ltac:(lia)) as (K' & E' & R'). exists K'. split; [exact E'|].
      exists (blit (blit r (6 * 128 + u * 128) (repeat VX (Z.to_nat 128))) (u * 128) (repeat VX (Z.to_nat 128))). split; [exact R'|]. intros a z HF HA.
      apply known_forget in HF as [HF O1]. apply known_forget in HF as [HF O2]. assert (LX : zlen (repeat VX (Z.to_nat 128)) = 128) by (apply zlen_repeat'; lia).
      assert (LB : zlen (blit r (6 * 128 + u * 128) (repeat VX (Z.to_nat 128))) = 5632) by (rewrite zlen_blit; lia).
      rewrite (znth_blit VX) by lia. rewrite LX. replace ((u * 128 <=? a) && (a <? u * 128 + 128)) with false by lia.
      rewrite (znth_blit VX) by lia. rewrite LX. replace ((6 * 128 + u * 128 <=? a) && (a <? 6 * 128 + u * 128 + 128)) with false by lia. now apply HKn.
    + destruct op; try discriminate; destruct s2 as [s2|]; try discriminate; apply sk_ok_inv in E as [G ->]; pose proof G as G'.
      * apply andb_prop in G' as [G' R2]. apply andb_prop in G' as [WR R1].
        destruct (local_via (CVfu Vadd d s1 (Some s2) v) r K s d v (zipwith SymMachine.VAdd (block r s1 v) (block r s2 v)) R) as (K' & E' & R' & HK'); auto; [cbn [slocal]; rewrite G; reflexivity| |eauto].
        rewrite zlen_zipwith; rewrite !LEN; auto.
      * apply andb_prop in G' as [WR R1].
        destruct (local_via (CVfu Vrelu d s1 None v) r K s d v (map VRelu (block r s1 v)) R) as (K' & E' & R' & HK'); auto; [cbn [slocal]; rewrite G; reflexivity| |eauto].
        rewrite zlen_map; auto.
    + injection E as <-. exists K. split; [reflexivity|]. exists r. now split.
  - intros s K r a x HK E. unfold sk_load in E. destruct (sk_address s r) as [b|] eqn:A; [|discriminate]. injection E as <- <-.
    destruct (AD _ _ _ _ HK A) as (K' & E1 & _ & HK'). eauto.
  - intros s K d v v' x (r & R & HKn) LV E. apply sk_ok_inv in E as [G ->]. assert (LZ : zlen v = zlen v') by (unfold zlen; now rewrite LV). rewrite LZ in *.
    destruct (sk_write_any r K d v' R G) as (K' & E' & R'). exists K'. split; [exact E'|].
    destruct (swritable_ok cfg ww cc OK HW sk_geo G1 G2 G3 (fun _ => 0) (fun _ _ _ _ => 0) (fun _ _ _ => []) HE d _ G) as (_ & _ & H0 & H1).
    apply (knows_blit s r K' d (zlen v') (repeat VX (length v'))); auto; [unfold zlen; now rewrite repeat_length|apply R].
  - intros s K d r w n a v x HK E. unfold sk_store in E. destruct (sk_address s d) as [b|] eqn:A; [|discriminate].
    destruct (sreadable sk_geo r (w * n) && (0 <=? w) && (0 <=? n)) eqn:G; [|discriminate]. injection E as <- <- <-.
    apply andb_prop in G as [G N0]. apply andb_prop in G as [RD W0]. destruct (AD _ _ _ _ HK A) as (K1 & _ & (y & E1) & (rg & R1 & HK1)).
    destruct (crel_read cfg ww cc OK HW sk_geo G1 G2 G3 (fun _ => 0) (fun _ _ _ _ => 0) (fun _ _ _ => []) HE 0 0 rg K1 r (w * n) R1 RD) as (z & K2 & E2 & FZ & R2).
    exists z, K2. split; [|split].
    + unfold store_request. rewrite E1, E2. now replace ((w <? 0) || (n <? 0)) with false by lia.
    + unfold alike. rewrite repeat_length. apply forall2_length' in FZ. destruct (sreadable_ok cfg ww cc OK HW sk_geo G1 G2 G3 (fun _ => 0) (fun _ _ _ _ => 0) (fun _ _ _ => []) HE r _ RD) as (Hl & _ & H0 & H1).
      assert (zlen (block rg r (w * n)) = w * n). { apply zlen_block; try lia. rewrite (cr_len _ _ _ _ _ _ _ _ _ _ R1). lia. } unfold zlen in *. lia.
    + exists rg. now split.
  - intros g m M r r' (M1 & M2 & M3 & M4) HR. assert (L : q_length r' = q_length r) by (symmetry; exact (req_length _ _ HR)). assert (S : q_start r' = q_start r) by (now destruct HR).
    unfold sk_ready. rewrite M4. destruct (within (q_start r) (q_length r)) eqn:W; [|unfold ready; now rewrite S, L].
    apply INS in W as (W0 & W1 & W2). unfold ready. rewrite S, L. f_equal. unfold pyslice, slice_bound. rewrite <- M4. 
    assert (LV : zlen (y_valid M) = y_size c). { rewrite M4. unfold all_flags, zlen in *. rewrite app_length, repeat_length. lia. }
    rewrite LV, M4. replace (q_start r <? 0) with false by lia. replace (q_start r + q_length r <? 0) with false by lia.
    rewrite !Z.min_l by lia. replace (Z.max 0 (q_start r + q_length r - q_start r)) with (q_length r) by lia.
    unfold all_flags, block. unfold zlen in M3. rewrite skipn_app, firstn_app, skipn_length.
    replace (Z.to_nat (q_length r) - (length m - Z.to_nat (q_start r)))%nat with 0%nat by lia. cbn [firstn]. now rewrite app_nil_r.
  - intros g m M r r' v x (M1 & M2 & M3 & M4) HR E. assert (L : q_length r' = q_length r) by (symmetry; exact (req_length _ _ HR)). assert (S : q_start r' = q_start r) by (now destruct HR).
    unfold sk_read in E. destruct (within _ _) eqn:W; [|discriminate]. injection E as <- <-. apply INS in W as (W0 & W1 & W2).
    unfold mem_read. rewrite S, L, M1. replace ((q_start r <? 0) || (y_size c <? q_start r + q_length r)) with false by lia. replace (q_length r <=? 0) with false by lia.
    split; [apply zlen_repeat'; lia|]. eexists _, _. split; [reflexivity|]. split.
    + unfold alike. rewrite repeat_length. symmetry. apply length_block; unfold zlen in *; lia.
    + now repeat split.
  - intros g m M r r' l l' x (M1 & M2 & M3 & M4) HR K1 K2 HL E. assert (L : q_length r' = q_length r) by (symmetry; exact (req_length _ _ HR)). assert (S : q_start r' = q_start r) by (now destruct HR).
    assert (LC : zlen (concat l') = q_length r) by (rewrite <- L; unfold q_length; now rewrite K2).
    unfold sk_write in E. destruct (within _ _) eqn:W; [|discriminate]. injection E as <-. apply INS in W as (W0 & W1 & W2).
    unfold mem_write. rewrite S, LC, M1. replace ((q_start r <? 0) || (y_size c <? q_start r + q_length r)) with false by lia.
    eexists. split; [reflexivity|]. assert (LM : length (map wrap32 (concat l')) = Z.to_nat (q_length r)) by (rewrite map_length; unfold zlen in LC; lia).
    split; [reflexivity|]. split; [cbn [y_mem cells]; rewrite zlen_blit; [exact M2|lia|unfold zlen in *; lia]|].
    split; [rewrite zlen_blit; [exact M3|lia|rewrite zlen_repeat' by lia; lia]|].
    cbn [y_valid]. rewrite L. unfold set_valid, slice_bound. rewrite M4.
    assert (LV : zlen (all_flags (y_size c) m) = y_size c). { unfold all_flags, zlen in *. rewrite app_length, repeat_length. lia. }
    rewrite LV. replace (q_start r <? 0) with false by lia. replace (q_start r + q_length r <? 0) with false by lia. rewrite !Z.min_l by lia.
    replace (Z.max 0 (q_start r + q_length r - q_start r)) with (q_length r) by lia. unfold all_flags, blit. unfold zlen in M3.
    rewrite firstn_app, skipn_app, repeat_length. replace (Z.to_nat (q_start r) - length m)%nat with 0%nat by lia. cbn [firstn]. rewrite app_nil_r.
    replace (Z.to_nat (q_start r) + Z.to_nat (q_length r) - length m)%nat with 0%nat by lia. cbn [skipn]. now rewrite !app_assoc.
Qed.
Theorem skel_follows : follows SP RP (fun _ => False) (fun s K _ => knows s K) cells_of.
Proof.
  destruct skel_can as (C1 & C2 & C3 & C4 & C5 & C6 & C7). constructor.
  - intros k k' o l x H _ E. destruct (C1 _ _ _ _ H E) as (x' & -> & Q). exact Q.
  - intros k k' d r w v l a x H E. destruct (C2 _ _ _ _ _ H E) as (x' & -> & Q). now split.
  - intros k k' d r w v l a b x H _ HA E. destruct (C3 _ _ _ _ _ _ H HA E) as (x' & -> & Q). exact Q.
  - intros k k' d r w n l a v x H E. destruct (C4 _ _ _ _ _ _ _ _ _ H E) as (v' & x' & -> & Q). now split.
  - exact C5.
  - intros g m m' r r' v x H HR _ E. destruct (C6 _ _ _ _ _ _ _ H HR E) as (LV & v' & x' & -> & Q). now split.
  - intros g m m' r r' l l' x H HR K1 K2 HL E. destruct (C7 _ _ _ _ _ _ _ _ H HR K1 K2 HL E) as (x' & -> & Q). exact Q.
Qed.
End Follow.
