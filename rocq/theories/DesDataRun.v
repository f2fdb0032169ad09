(** The simulations of two jobs that differ only in data. *)
From Verif Require Import PyBase PyLemmas ConfigModel MemoryModel MemorySpec MemoryProofs VfuModel FloatModel MvmuModel MvmuSpec MvmuLists MvmuLoad MvmuRun MvmuProofs MvmuCount
  CoreModel CoreSpec CoreProofs CoreUse CoreInstr DramModel RouterModel SystemModel SystemSpec SymCore DesModel DesSpec DesExamples DesIdleSpec DesIdle DesShape DesDoneSpec DesDone DesDataSpec DesData.
From Coq Require Import ZifyBool ZifyNat.
Open Scope Z_scope.

Section Run.
Context (cfg : list bitcfg) (ww : Z) (c : sys_cfg) (OK : core_ok cfg ww (y_core c)) (D : Prop).
Notation RK := (tracked (y_core c) D).
Notation may := (div_error D).
Definition same_cells_but (m m' : cells_valid) : Prop :=
  msize (y_mem m) = msize (y_mem m') /\ zlen (cells (y_mem m)) = msize (y_mem m) /\ zlen (cells (y_mem m')) = msize (y_mem m') /\
  mstat (y_mem m) = mstat (y_mem m') /\ y_valid m = y_valid m'.
Notation RM := same_cells_but.

Theorem real_follows : follows (real c) (real c) may RK RM.
Proof.
  constructor; cbn [real m_local m_load m_loaded m_store m_ready m_read m_write].
  - intros k k' o l x (m & R & R' & A & H & H' & S & HD) NM E. cbn [fixed_addresses] in S. apply andb_prop in S as [_ S].
    destruct (local_both cfg ww _ OK D m k k' o x R R' A H H' (HD o (or_introl eq_refl)) NM E) as [(x' & E' & RX & RX' & AX & HX & HX')|(x' & E' & Q)]; rewrite E'; cbn [okr].
    + exists (learn o m). repeat (split; [assumption|]). intros o' I. apply HD. now right.
    + now split.
  - intros k k' d r w v l a x (m & R & R' & A & H & H' & S & HD) E. unfold load_address in *. pose proof S as S0. cbn [fixed_addresses] in S. apply andb_prop in S as [S _].
    destruct (read_from_register (y_core c) k r 1) as [[v1|] k1] eqn:E1; [|discriminate]. destruct (read_both cfg ww _ OK _ _ _ _ _ _ R R' A E1) as (v1' & k1' & E1' & HV & LV & A1).
    destruct (read_known cfg ww _ OK _ _ _ _ _ R H S E1) as (z & M1 & ->). destruct (read_known cfg ww _ OK _ _ _ _ _ R' H' S E1') as (z' & M2 & ->).
    rewrite E1'. injection E as <- <-. cbn [okr]. split; [congruence|]. exists m.
    split; [exact (read_reached _ _ _ _ _ _ R E1)|]. split; [exact (read_reached _ _ _ _ _ _ R' E1')|]. split; [exact A1|].
    split; [exact (holds_same _ _ _ _ (read_keeps _ _ _ _ _ _ E1) H)|]. split; [exact (holds_same _ _ _ _ (read_keeps _ _ _ _ _ _ E1') H')|]. now split.
  - intros k k' d r w v l a b x (m & R & R' & A & H & H' & S & HD) LA HA E. unfold load_finish in *. cbn [fixed_addresses] in S. apply andb_prop in S as [_ S].
    destruct (write_both cfg ww _ OK _ _ _ _ _ _ R R' A HA E) as (x' & E' & AX). rewrite E'. cbn [okr]. exists (learn (CLoad d r w v) m).
    split; [exact (write_reached _ _ _ _ _ R E)|]. split; [exact (write_reached _ _ _ _ _ R' E')|]. split; [exact AX|].
    pose proof (zlen_nonneg a) as LN. assert (LB : zlen b = zlen a) by (unfold zlen; now rewrite HA).
    split; [exact (holds_hidden cfg ww _ OK _ _ _ _ _ (w * v) R H E ltac:(lia))|]. split; [exact (holds_hidden cfg ww _ OK _ _ _ _ _ (w * v) R' H' E' ltac:(lia))|].
    split; [exact S|]. intros o' I. apply HD. now right.
  - intros k k' d r w n l a v x (m & R & R' & A & H & H' & S & HD) E. unfold store_request in *. cbn [fixed_addresses] in S. apply andb_prop in S as [S SL].
    destruct (read_from_register (y_core c) k d 1) as [[v1|] k1] eqn:E1; [|discriminate]. destruct (read_both cfg ww _ OK _ _ _ _ _ _ R R' A E1) as (v1' & k1' & E1' & HV & LV & A1).
    destruct (read_known cfg ww _ OK _ _ _ _ _ R H S E1) as (z & M1 & ->). destruct (read_known cfg ww _ OK _ _ _ _ _ R' H' S E1') as (z' & M2 & ->). rewrite E1'.
    pose proof (read_reached _ _ _ _ _ _ R E1) as R1. pose proof (read_reached _ _ _ _ _ _ R' E1') as R1'.
    destruct (read_from_register (y_core c) k1 r (w * n)) as [[v2|] k2] eqn:E2; [|discriminate]. destruct (read_both cfg ww _ OK _ _ _ _ _ _ R1 R1' A1 E2) as (v2' & k2' & E2' & HV2 & LV2 & A2).
    rewrite E2'. destruct ((w <? 0) || (n <? 0)); [discriminate|]. injection E as <- <- <-. cbn [okr fst snd]. split; [congruence|]. split; [exact HV2|]. exists m.
    split; [exact (read_reached _ _ _ _ _ _ R1 E2)|]. split; [exact (read_reached _ _ _ _ _ _ R1' E2')|]. split; [exact A2|].
    split; [exact (holds_same _ _ _ _ (read_keeps _ _ _ _ _ _ E2) (holds_same _ _ _ _ (read_keeps _ _ _ _ _ _ E1) H))|].
    split; [exact (holds_same _ _ _ _ (read_keeps _ _ _ _ _ _ E2') (holds_same _ _ _ _ (read_keeps _ _ _ _ _ _ E1') H'))|].
    split; [exact SL|]. intros o' I. apply HD. now right.
  - intros g m m' r r' (M1 & M2 & M3 & M4 & M5) HR. unfold ready. rewrite M5, (req_length _ _ HR). now replace (q_start r') with (q_start r) by (now destruct HR).
  - intros g m m' r r' v x (M1 & M2 & M3 & M4 & M5) HR _ E. unfold mem_read in *. rewrite <- (req_length _ _ HR), <- (req_batches _ _ HR). replace (q_start r') with (q_start r) by (now destruct HR).
    rewrite <- M1. destruct ((q_start r <? 0) || _) eqn:E1; [discriminate|]. destruct (q_length r <=? 0) eqn:E2; [discriminate|]. injection E as <- <-.
    split; [apply zlen_block; lia|]. cbn [okr]. split; [unfold alike; rewrite !length_block; unfold zlen in *; lia|].
    cbn [same_cells_but y_mem y_valid]. unfold same_cells_but. cbn [y_mem y_valid msize cells mstat]. repeat (split; [congruence|]). congruence.
  - intros g m m' r r' l l' x (M1 & M2 & M3 & M4 & M5) HR K1 K2 HL E. pose proof (req_length _ _ HR) as QL. unfold mem_write in *.
    rewrite <- QL, <- (req_batches _ _ HR). replace (q_start r') with (q_start r) by (now destruct HR). rewrite <- (concat_length _ _ HL).
    rewrite <- M1. destruct ((q_start r <? 0) || _) eqn:E1; [discriminate|]. injection E as <-. cbn [okr]. unfold same_cells_but. cbn [y_mem y_valid msize cells mstat].
    split; [reflexivity|]. split; [rewrite zlen_blit; [exact M2|lia|rewrite zlen_map; lia]|]. split; [rewrite zlen_blit; [congruence|lia|rewrite zlen_map, <- (concat_length _ _ HL); lia]|].
    split; congruence.
Qed.

Lemma cells_start act act' i : 0 <= y_size c -> zlen act = zlen act' -> RM (cells_new c act i) (cells_new c act' i).
Proof.
  intros H0 L. assert (LR : zlen (repeat 0 (Z.to_nat (y_size c))) = y_size c) by (unfold zlen; rewrite repeat_length; lia).
  assert (LA := zlen_nonneg act).
  assert (Q : forall x, RM x x \/ zlen (cells (y_mem x)) <> msize (y_mem x)).
  { intros x. destruct (Z.eq_dec (zlen (cells (y_mem x))) (msize (y_mem x))) as [E|E]; [left|now right]. unfold same_cells_but. now repeat split. }
  unfold cells_new. cbv zeta. destruct (i =? 0).
  - unfold dc_preload, dram_init, mem_init. cbn [d_mem msize d_valid cells mstat]. rewrite <- L. destruct (y_size c <? zlen act) eqn:E.
    + destruct (Q (MkCells (MkMem (y_size c) (repeat 0 (Z.to_nat (y_size c))) mstats0) (repeat false (Z.to_nat (y_size c))))) as [G|G]; [exact G|now destruct (G LR)].
    + unfold same_cells_but. cbn [y_mem y_valid d_mem d_valid msize cells mstat]. split; [reflexivity|].
      split; [rewrite zlen_blit; [exact LR|lia|rewrite zlen_map; lia]|]. split; [rewrite zlen_blit; [exact LR|lia|rewrite zlen_map; lia]|]. now split.
  - destruct (Q (MkCells (d_mem (dram_init (y_size c))) (d_valid (dram_init (y_size c))))) as [G|G]; [exact G|now destruct (G LR)].
Qed.

Context (j j' : job) (SC : same_code c j j') (FX : programs_fixed c j) (SZ : 0 <= y_size c).
Context (HD : forall i k p o, on_node c i -> In (k, p) (j_cores j i) -> In o p -> is_div o = true -> D).
Lemma data_start t0 : des_alike RK RM (des_first c t0 j) (des_first c t0 j').
Proof.
  unfold des_first, des_begin. rewrite !map_length. set (l := zrange (w_tiles (y_net c))).
  assert (HI : Forall (on_node c) l) by (apply Forall_forall; intros i I; now apply in_zrange).
  assert (E : forall X (a b : list X), match map (fun i => tile_new (cells_new c (j_activation j) i) (j_cores j i) (j_prog j i)) l with [] => a | _ => b end =
    match map (fun i => tile_new (cells_new c (j_activation j') i) (j_cores j' i) (j_prog j' i)) l with [] => a | _ => b end) by (intros; now destruct l).
  rewrite E. constructor. constructor. clear E. induction HI as [|i l N _ IH]; [constructor|]. cbn [map]. constructor; [|exact IH].
  unfold tile_new. rewrite (scd_tile _ _ _ SC i N). apply (ta _ _ []).
  - constructor; [now apply cells_start, SC|..]; constructor.
  - constructor; constructor.
  - pose proof (scd_core _ _ _ SC i N) as HC. specialize (FX i N). specialize (HD i). clear - HC FX HD N. revert FX HD. induction HC as [|[k p] [k' p'] l l' (E & R & R' & A) _ IH]; intros FX HD; [constructor|].
    inversion FX as [|? ? F1 F2]; subst. cbn [map]. constructor; [|apply IH; [exact F2|intros; apply (HD k0 p0 o); auto; now right]]. cbn [fst snd] in *. subst p'.
    unfold core_new. cbn [fst snd]. constructor; [|exact I|constructor]. exists nothing. split; [exact R|]. split; [exact R'|]. split; [exact A|]. split; [apply holds_nothing|]. split; [apply holds_nothing|].
    split; [exact F1|]. intros o I. apply (HD k p o N); [now left|exact I].
  - constructor.
Qed.
Lemma alike_timing s s' : des_alike RK RM s s' -> same_timing s s'.
Proof.
  intros H. constructor; [now destruct H|exact (numbers_alike _ _ _ _ H)|]. destruct H as [t q n n' [l l' b nx y m f H]]. cbn [w_node z_tiles].
  induction H as [|x z l l' HX _ IH]; [constructor|]. constructor; [|exact IH]. destruct HX as [g d d' u u' ks ks' p f1 f2 cy e HC HU HK HP]. cbn [x_ctl x_cores].
  destruct HC as [m1 m1' r i i' h h' p1 p1' s s' bb b' w w' st tt nn v v' (M1 & M2 & M3 & M4 & M5)]. cbn [c_mem]. split; [exact M5|]. split; [exact M4|].
  clear - HK. induction HK as [|a b ks ks' HA _ IH]; [constructor|]. cbn [map]. constructor; [|exact IH]. destruct HA as [k k' ? ? ? ? ? ? ? ? ? (m & _ & _ & A & _)]. exact A.
Qed.
Lemma times_refl : same_times c c.
Proof. constructor; reflexivity. Qed.
Lemma reach_alike t0 s : sim_reach c j t0 s ->
  (exists s', sim_reach c j' t0 s' /\ des_alike RK RM s s') \/ (exists s' e, sim_reach c j' t0 s' /\ raised c s' e /\ may e).
Proof.
  induction 1 as [|s r R IH E]; [left; exists (des_first c t0 j'); split; [constructor|apply data_start]|]. destruct IH as [(s' & R' & A)|Q]; [|now right].
  destruct (step_alike _ _ _ _ _ _ _ times_refl real_follows _ _ _ A E) as [(r' & E' & A')|(e & E' & M)]; [left|right].
  - exists r'. split; [exact (sim_step c j' t0 s' r' R' E')|exact A'].
  - exists s', e. split; [exact R'|]. split; [exact E'|exact M].
Qed.
Lemma ticks_one s s' : des_alike RK RM s s' -> only_ticks s -> only_ticks s'.
Proof.
  intros [t q n n' H]. unfold only_ticks. cbn [w_node w_queue]. destruct H as [l l' b nx y m f H]. cbn [z_fin]. intros (E & Q). split; [exact E|]. intros x I. specialize (Q x I).
  assert (G : forall i, (exists T, the_tile (MkDNode l b nx y m f) i = Some T /\ u_queue (x_rt T) <> []) -> exists T, the_tile (MkDNode l' b nx y m f) i = Some T /\ u_queue (x_rt T) <> []).
  { clear - H. intros i (T & E & N). unfold the_tile in *. cbn [z_tiles] in *. destruct (i <? 0); [discriminate|]. revert E. generalize (Z.to_nat i) as k. induction H as [|a a' l l' HA _ IH]; intros [|k] E; cbn in *; try discriminate.
    - injection E as ->. exists a'. split; [reflexivity|]. destruct HA as [g d d' u u' ks ks' p f1 f2 cy e _ HU _ _]. cbn [x_rt] in *. destruct HU as [r qq qq' z z' bb bb' e' s F _ _]. cbn [u_queue] in *. destruct F; [contradiction|discriminate].
    - now apply IH. }
  destruct (e_ev x); auto.
Qed.
Lemma returned_one s s' : des_alike RK RM s s' -> returned c s -> returned c s'.
Proof. exact (over_alike _ _ _ _ _ _ _ _). Qed.
Lemma ticks_back s s' : des_alike RK RM s s' -> only_ticks s' -> only_ticks s.
Proof.
  intros [t q n n' H]. unfold only_ticks. cbn [w_node w_queue]. destruct H as [l l' b nx y m f H]. cbn [z_fin]. intros (E & Q). split; [exact E|]. intros x I. specialize (Q x I).
  assert (G : forall i, (exists T, the_tile (MkDNode l' b nx y m f) i = Some T /\ u_queue (x_rt T) <> []) -> exists T, the_tile (MkDNode l b nx y m f) i = Some T /\ u_queue (x_rt T) <> []).
  { clear - H. intros i (T & E & N). unfold the_tile in *. cbn [z_tiles] in *. destruct (i <? 0); [discriminate|]. revert E. generalize (Z.to_nat i) as k. induction H as [|a a' l l' HA _ IH]; intros [|k] E; cbn in *; try discriminate.
    - injection E as ->. exists a. split; [reflexivity|]. destruct HA as [g d d' u u' ks ks' p f1 f2 cy e _ HU _ _]. cbn [x_rt] in *. destruct HU as [r qq qq' z z' bb bb' e' s F _ _]. cbn [u_queue] in *. destruct F; [contradiction|discriminate].
    - now apply IH. }
  destruct (e_ev x); auto.
Qed.
Lemma returned_back s s' : des_alike RK RM s s' -> returned c s' -> returned c s.
Proof.
  intros [t q n n' H]. unfold returned, des_step. cbn [w_node w_queue]. replace (z_fin n') with (z_fin n) by (now destruct H).
  destruct (z_fin n); try reflexivity; (destruct q as [|x q]; [discriminate|]); destruct (fire (real c) c _ _ n'); discriminate.
Qed.
Lemma alike_end s s' : des_alike RK RM s s' -> ends_together c s s'.
Proof. intros A. constructor; split; [now apply returned_one|now apply returned_back|now apply ticks_one|now apply ticks_back]. Qed.
(** Step by step, when nothing is divided. *)
Lemma next_alike t0 n : ~ D -> forall s, goes_on c n (des_first c t0 j) s -> exists s', goes_on c n (des_first c t0 j') s' /\ des_alike RK RM s s'.
Proof.
  intros ND s G. unfold goes_on in *. pose proof (data_start t0) as A. revert A G. generalize (des_first c t0 j) as a, (des_first c t0 j') as a'. induction n as [|n IH]; intros a a' A G; cbn [des_run] in *.
  - injection G as <-. exists a'. now split.
  - destruct (des_step (real c) c a) as [r| | | |] eqn:E; try discriminate. destruct (step_alike _ _ _ _ _ _ _ times_refl real_follows _ _ _ A E) as [(r' & E' & A')|(e & _ & _ & M)]; [|contradiction].
    rewrite E'. exact (IH r r' A' G).
Qed.
End Run.

Lemma code_sym c j j' : same_code c j j' -> same_code c j' j.
Proof.
  intros [A B C]. constructor; [intros i N; symmetry; auto| |now symmetry]. intros i N. specialize (B i N). induction B as [|x y l l' (E & R & R' & S) _ IH]; constructor; [|exact IH].
  repeat (split; [assumption || now symmetry|]). destruct S. constructor; now symmetry.
Qed.
Lemma fixed_same c j j' : same_code c j j' -> programs_fixed c j -> programs_fixed c j'.
Proof.
  intros [_ B _] F i N. specialize (B i N). specialize (F i N). revert F. induction B as [|x y l l' (E & _) _ IH]; intros F; [constructor|]. inversion F; subst. constructor; [now rewrite <- E|auto].
Qed.
Lemma divides_same c j j' : same_code c j j' -> divides c j' -> divides c j.
Proof.
  intros [_ B _] (i & k & p & o & N & I & IO & Q). specialize (B i N).
  assert (H : exists x, In x (j_cores j i) /\ snd x = p).
  { revert I. induction B as [|x y l l' (E & _) _ IH]; [intros []|]. intros [->|I']; [exists x; split; [now left|exact E]|]. destruct (IH I') as (z & Z & EZ). exists z. split; [now right|exact EZ]. }
  destruct H as ([k0 p0] & IX & E). cbn [snd] in E. subst p0. exists i, k0, p, o. auto.
Qed.
Theorem timing_of_data cfg ww c j j' t0 : core_ok cfg ww (y_core c) -> 0 <= y_size c -> same_code c j j' -> programs_fixed c j ->
  forall s, sim_reach c j t0 s ->
  (exists s', sim_reach c j' t0 s' /\ same_timing s s' /\ ends_together c s s') \/
  (divides c j /\ exists s', sim_reach c j' t0 s' /\ raised c s' ZeroDivisionError).
Proof.
  intros OK SZ SC FX s R. assert (HD : forall i k p o, on_node c i -> In (k, p) (j_cores j i) -> In o p -> is_div o = true -> divides c j) by (intros i k p o N I J Q; exists i, k, p, o; auto).
  destruct (reach_alike cfg ww c OK (divides c j) j j' SC FX SZ HD t0 s R) as [(s' & R' & A)|(s' & e & R' & Q & -> & D)]; [left|right].
  - exists s'. split; [exact R'|]. split; [exact (alike_timing _ _ _ _ A)|exact (alike_end _ _ _ _ A)].
  - split; [exact D|]. exists s'. now split.
Qed.
(** Without divisions one run raises an exception if and only if the other one does, at the same event. *)
Theorem errors_of_data cfg ww c j j' t0 : core_ok cfg ww (y_core c) -> 0 <= y_size c -> same_code c j j' -> programs_fixed c j -> ~ divides c j ->
  forall s, sim_reach c j t0 s ->
  exists s', sim_reach c j' t0 s' /\ same_timing s s' /\ ends_together c s s' /\ ((exists e, raised c s e) <-> exists e, raised c s' e).
Proof.
  intros OK SZ SC FX ND s R.
  assert (HD : forall i k p o, on_node c i -> In (k, p) (j_cores j i) -> In o p -> is_div o = true -> divides c j) by (intros i k p o N I J Q; exists i, k, p, o; auto).
  assert (HD' : forall i k p o, on_node c i -> In (k, p) (j_cores j' i) -> In o p -> is_div o = true -> divides c j) by (intros i k p o N I J Q; apply (divides_same _ _ _ SC); exists i, k, p, o; auto).
  destruct (reach_runs c j t0 s R) as (n & G). destruct (next_alike cfg ww c OK (divides c j) j j' SC FX SZ HD t0 n ND s G) as (s' & G' & A).
  destruct (next_alike cfg ww c OK (divides c j) j' j (code_sym _ _ _ SC) (fixed_same _ _ _ SC FX) SZ HD' t0 n ND s' G') as (s2 & G2 & A').
  assert (s2 = s) as -> by (unfold goes_on in *; congruence).
  assert (R' : sim_reach c j' t0 s').
  { pose proof (run_reach c j' t0 n _ (sim_first c j' t0)) as Q. unfold goes_on in G'. rewrite G' in Q. exact Q. }
  exists s'. split; [exact R'|]. split; [exact (alike_timing _ _ _ _ A)|]. split; [exact (alike_end _ _ _ _ A)|]. split; intros (e & E).
  - destruct (sim_goes_on c j' t0 s' R') as [(r & Q)|[Q|Q]]; [|exact Q|apply (returned_back _ _ _ _ A) in Q; unfold returned, raised in *; congruence].
    destruct (step_alike _ _ _ _ _ _ _ (times_refl c) (real_follows cfg ww c OK (divides c j)) _ _ _ A' Q) as [(r' & E' & _)|(e' & _ & _ & M)]; [unfold raised in *; congruence|contradiction].
  - destruct (sim_goes_on c j t0 s R) as [(r & Q)|[Q|Q]]; [|exact Q|apply (returned_one _ _ _ _ A) in Q; unfold returned, raised in *; congruence].
    destruct (step_alike _ _ _ _ _ _ _ (times_refl c) (real_follows cfg ww c OK (divides c j)) _ _ _ A Q) as [(r' & E' & _)|(e' & _ & _ & M)]; [unfold raised in *; congruence|contradiction].
Qed.
