(** Refinement: the events of a core. *)
From Verif Require Import PyBase PyLemmas MemoryModel CoreModel DramModel RouterModel SystemModel NodeModel NodeSpec DesModel DesRel DesCtl.

(** An instruction whose delays are not negative. *)
Definition timed (c : sys_cfg) (o : cop) : Prop :=
  match o with
  | CLoad _ _ _ vec | CStore _ _ _ vec => 0 <= k_data_lat (y_core c) * vec
  | _ => exists t, exec_time (y_core c) o = Ok t /\ 0 <= t
  end.

Section Core.
  Variable Q : cop -> Prop.
  Variables (c : sys_cfg) (b now i k : Z).
  Notation P := (real c).
  Notation dcore := (dcore core).
  Notation core_rel := (core_rel Q).
  Definition usable : Prop := 0 <= k_fetch_lat (y_core c) /\ 0 <= k_data_lat (y_core c) /\ forall o, Q o -> timed c o.

  (** Changes that the transition system does not see. *)
  Record inert (x x' : dcore) : Prop := {
    in_core : k_core x' = k_core x; in_over : over x' = over x; in_cycles : k_cycles x' = k_cycles x;
    in_ended : core_over x = true -> core_over x' = true;
    in_rest : rest_of x' = rest_of x;
    in_phase : forall values p, xphase_rel values p x -> xphase_rel values p x';
    in_dead : t_x (k_stage x) = GDead -> t_x (k_stage x') = GDead;
    in_comp : (t_x (k_comp x) <> Pending -> t_x (k_stage x) = GDead) -> t_x (k_comp x') <> Pending -> t_x (k_stage x') = GDead;
    in_mon : (t_x (k_comp x) <> Pending -> t_x (k_stage x) = GDead) -> (k_mon x = MEnd -> t_x (k_comp x) = Processed) -> k_mon x' = MEnd -> t_x (k_comp x') = Processed }.
  Lemma inert_refl x : inert x x.
  Proof. constructor; auto. Qed.
  Lemma inert_trans x y z : inert x y -> inert y z -> inert x z.
  Proof. intros [] []. constructor; try congruence; auto. Qed.
  Lemma inert_rel values cy p x x' : inert x x' -> core_rel values cy p x -> core_rel values cy p x'.
  Proof.
    intros [] []. constructor; try congruence; auto.
    - intro H. rewrite in_over0 in H. destruct (kr_run H) as (H1 & H2 & H3). rewrite in_rest0. auto.
    - intro H. rewrite in_over0 in H. destruct (kr_over H) as (H1 & H2 & H3). rewrite in_cycles0. auto.
  Qed.

  Ltac inert := constructor; cbn; auto; try congruence.

  Lemma buf_get_inert s x : inert x (fst (buf_get i k s x)).
  Proof.
    unfold buf_get. destruct (tget (k_stage x) s) eqn:Es, (tget (k_buf x) s) eqn:Eb; try apply inert_refl.
    destruct s; cbn in *; constructor; cbn; auto; try congruence; unfold rest_of; cbn; rewrite ?Es, ?Eb; try reflexivity.
    - intros values p. unfold xphase_rel. cbn. now rewrite Es.
    - intros H1 H2. specialize (H1 H2). congruence.
  Qed.
  Lemma buf_put_inert s x : inert x (fst (buf_put i k s x)).
  Proof.
    unfold buf_put. destruct (tget (k_buf x) s) eqn:Eb; [|apply inert_refl]. destruct s; cbn in Eb.
    - destruct (k_wait x) eqn:Ew; [apply inert_refl|]. constructor; cbn; auto.
      unfold rest_of; cbn. now rewrite Eb, Ew.
    - destruct (t_f (k_stage x)) eqn:Es; try apply inert_refl. constructor; cbn; auto.
      unfold rest_of; cbn. now rewrite Eb, Es.
    - destruct (t_d (k_stage x)) eqn:Es; try apply inert_refl. constructor; cbn; auto.
      unfold rest_of; cbn. now rewrite Eb, Es.
  Qed.
  (** The first two stages. *)
  Lemma stage_inert s g x : s <> SX -> part g = part (tget (k_stage x) s) -> inert x (set_stage x s g).
  Proof.
    intros H E. destruct s; [| |congruence]; constructor; cbn; auto; unfold rest_of; cbn; cbn in E; now rewrite E.
  Qed.
  Lemma comp_inert s o x : s <> SX -> inert x (set_comp x s o).
  Proof. intro H. destruct s; [| |congruence]; constructor; cbn; auto. Qed.
  Lemma stage_get_inert s x : s <> SX -> part (tget (k_stage x) s) = [] -> inert x (fst (stage_get i k s x)).
  Proof.
    intros H E. unfold stage_get. eapply inert_trans; [|apply buf_get_inert]. apply stage_inert; [exact H|now rewrite E].
  Qed.
  Lemma stage_end_inert s o x : s <> SX -> part (tget (k_stage x) s) = [] -> inert x (fst (stage_end i k s o x)).
  Proof.
    intros H E. unfold stage_end. destruct (is_hlt o); [|now apply stage_get_inert]. cbn [fst].
    eapply inert_trans; [apply (comp_inert s Triggered x H)|]. apply stage_inert; [exact H|]. destruct s; cbn in *; now rewrite E.
  Qed.

  Definition core_sim (x : dcore) (r : dres dcore) : Prop :=
    match r with DGo x' _ => inert x x' | _ => True end.

  Lemma core_start_sim x : core_sim x (core_start b now i k x).
  Proof.
    unfold core_start. destruct (k_proc x) eqn:Ep; try exact I. destruct (negb (now =? b)); [exact I|].
    destruct (buf_put i k SF (set_proc x CRunning (k_cycles x))) as [x1 l] eqn:E. cbn.
    assert (H := buf_put_inert SF (set_proc x CRunning (k_cycles x))). rewrite E in H. cbn in H.
    eapply inert_trans; [|exact H]. constructor; cbn; auto. unfold over. cbn. now rewrite Ep.
    unfold core_over. now rewrite Ep.
  Qed.
  Lemma stage_start_sim s x : core_sim x (stage_start i k s x).
  Proof.
    unfold stage_start. destruct (tget (k_stage x) s) eqn:Es; try exact I. cbn.
    destruct s; [apply stage_get_inert; [discriminate|now rewrite Es]..|].
    unfold stage_get. eapply inert_trans; [|apply buf_get_inert]. cbn in Es.
    constructor; cbn; auto; try congruence.
    - unfold rest_of; cbn. now rewrite Es.
    - intros values p. unfold xphase_rel. cbn. now rewrite Es.
    - intros H1 H2. specialize (H1 H2). congruence.
  Qed.
  Lemma on_put_sim s x : core_sim x (on_put i k s x).
  Proof.
    unfold on_put. destruct (buf_get i k s x) as [x1 l1] eqn:E. assert (H := buf_get_inert s x). rewrite E in H. cbn in H.
    destruct s; [exact H| |].
    - destruct (t_f (k_stage x1)) eqn:Es; try exact I. destruct (stage_end i k SF o x1) as [x2 l2] eqn:E2. cbn.
      eapply inert_trans; [exact H|]. assert (H2 := stage_end_inert SF o x1). rewrite E2 in H2. cbn in H2. apply H2; [discriminate|now rewrite Es].
    - destruct (t_d (k_stage x1)) eqn:Es; try exact I. destruct (stage_end i k SD o x1) as [x2 l2] eqn:E2. cbn.
      eapply inert_trans; [exact H|]. assert (H2 := stage_end_inert SD o x1). rewrite E2 in H2. cbn in H2. apply H2; [discriminate|now rewrite Es].
  Qed.
  Lemma mon_inert m x : (m = MEnd -> t_x (k_comp x) = Processed) -> inert x (set_mon x m).
  Proof. intro H. constructor; cbn; auto. Qed.
  Lemma mon_from_inert s x : inert x (fst (mon_from i k s x)).
  Proof.
    unfold mon_from, mon_wait, mon_end.
    destruct s; repeat match goal with |- context [match tget (k_comp x) ?s with _ => _ end] => destruct (tget (k_comp x) s) eqn:? end;
      cbn [fst]; apply mon_inert; intro; try discriminate; assumption.
  Qed.
  Lemma pipe_start_sim x : core_sim x (pipe_start i k x).
  Proof. unfold pipe_start. destruct (k_mon x); try exact I. apply mon_from_inert. Qed.
  Lemma stage_done_sim s x : core_sim x (stage_done i k s x).
  Proof.
    unfold stage_done. destruct (tget (k_comp x) s) eqn:Ec; try exact I.
    assert (H : inert x (set_comp x s Processed)).
    { destruct s; constructor; cbn; auto. intros H1 _. cbn in Ec. apply H1. congruence. }
    destruct (k_mon x); try exact H. destruct (st_eqb s s0); [|exact H]. cbn.
    eapply inert_trans; [exact H|apply mon_from_inert].
  Qed.

  (** The end of an instruction in the execution stage. *)
  Lemma stage_end_x o ph x : t_x (k_stage x) = GWork o -> k_xp x = ph -> xpart (GWork o) ph = (if is_hlt o then [o] else []) ->
    (match ph with XTiming | XLoaded | XStored => True | _ => False end) ->
    inert x (fst (stage_end i k SX o (set_xp x XNone))).
  Proof.
    intros Es Ex Ep Eph. unfold stage_end. destruct (is_hlt o) eqn:Eh.
    - assert (o = CHlt) by (destruct o; cbn in Eh; congruence). subst o. cbn [fst].
      constructor; cbn; auto; try congruence.
      + unfold rest_of; cbn. rewrite Es, Ex, Ep. reflexivity.
      + intros values p. unfold xphase_rel. cbn. rewrite Es, Ex. destruct ph; tauto.
      + intros H1 H2 H3. specialize (H2 H3). rewrite H2 in H1. assert (H := H1 ltac:(discriminate)). congruence.
    - unfold stage_get. eapply inert_trans; [|apply buf_get_inert].
      constructor; cbn; auto; try congruence.
      + unfold rest_of; cbn. rewrite Es, Ex, Ep. reflexivity.
      + intros values p. unfold xphase_rel. cbn. rewrite Es, Ex. destruct ph; tauto.
      + intros H1 H2. specialize (H1 H2). congruence.
  Qed.
  Lemma on_time_sim s x : core_sim x (on_time i k s x).
  Proof.
    unfold on_time. destruct (tget (k_stage x) s) eqn:Es; try exact I. destruct s.
    - cbn. eapply inert_trans; [|apply buf_put_inert]. apply stage_inert; [discriminate|now rewrite Es].
    - cbn. eapply inert_trans; [|apply buf_put_inert]. apply stage_inert; [discriminate|now rewrite Es].
    - destruct (k_xp x) eqn:Ex; try exact I. cbn. apply (stage_end_x o XTiming); auto.
  Qed.
  Lemma memory_end_sim load x : (forall o, t_x (k_stage x) = GWork o -> k_xp x = XLoaded \/ k_xp x = XStored -> is_hlt o = false) ->
    core_sim x (memory_end i k load x).
  Proof.
    intro H. unfold memory_end. destruct (k_xp x) eqn:Ex; try exact I.
    - destruct (t_x (k_stage x)) eqn:Es; try exact I. destruct load; [|exact I]. cbn.
      apply (stage_end_x o XLoaded); auto. now rewrite (H o eq_refl (or_introl eq_refl)).
    - destruct (t_x (k_stage x)) eqn:Es; try exact I. destruct load; [exact I|]. cbn.
      apply (stage_end_x o XStored); auto. now rewrite (H o eq_refl (or_intror eq_refl)).
  Qed.

  (** ** Lifting to the tile *)
  Notation booted_rel := (booted_rel Q c b now i).
  Notation vgo := (vgo c b now i). Notation vcrash := (vcrash c b now i). Notation vstep := (vstep c b now i).
  Notation tile_sim := (tile_sim Q c b now i).
  Notation dtile := (dtile core cells_valid).
  Definition upd_cc (cc : Z -> Z) (cy : Z) : Z -> Z := fun j => if j =? k then cy else cc j.

  Lemma booted_core (x : dtile) v D' d' p' (y y' : dcore) cc' :
    booted_rel x v -> 0 <= k -> nth_error (x_cores x) (Z.to_nat k) = Some y ->
    keeps (x_ctl x) d' -> ctl_rel D' d' -> core_rel (c_values d') (cc' k) p' y' -> (core_over y = true -> core_over y' = true) ->
    (forall j, j <> k -> cc' j = v_cc v j) ->
    booted_rel (dt_core (dt_ctl x d') k y') (MkView (with_core (v_tile v) D' k p') (v_rt v) (v_tc v) cc').
  Proof.
    intros [] Hk Hy [K1 K2] R Hr Ho Hc. constructor; cbn; try assumption.
    - destruct br_cores as [L C]. split; [now rewrite !length_upd|]. intros j p z Hp Hz.
      cbn in Hp, Hz. rewrite nth_error_upd in Hp. rewrite nth_error_upd in Hz. destruct (Z.to_nat k =? j)%nat eqn:E.
      + apply Nat.eqb_eq in E. subst j. rewrite Hy in Hz. destruct (nth_error (t_cores (v_tile v)) (Z.to_nat k)); [|discriminate].
        inversion Hp; subst. inversion Hz; subst. rewrite Z2Nat.id by lia. exact Hr.
      + apply Nat.eqb_neq in E. rewrite Hc by lia. eapply core_mono; [exact K2|]. now apply C.
    - assert (Ha : all_over (x_cores x) -> all_over (upd (x_cores x) (Z.to_nat k) y')).
      { unfold all_over. rewrite !forallb_forall. intros H z Hz. apply In_nth_error in Hz as [j Hj].
        rewrite nth_error_upd in Hj. destruct (Z.to_nat k =? j)%nat eqn:E.
        - apply Nat.eqb_eq in E. subst j. rewrite Hy in Hj. inversion Hj; subst. apply Ho, H. eapply nth_error_In; eassumption.
        - apply H. eapply nth_error_In; eassumption. }
      unfold phase_rel in *. cbn. destruct (x_phase x); auto; intuition.
    - unfold run_rel in *. cbn. rewrite K1. exact br_run.
  Qed.
  Lemma booted_find (x : dtile) v (y : dcore) : booted_rel x v -> 0 <= k -> nth_error (x_cores x) (Z.to_nat k) = Some y ->
    exists p, nth_error (t_cores (v_tile v)) (Z.to_nat k) = Some p /\ core_rel (c_values (x_ctl x)) (v_cc v k) p y.
  Proof.
    intros [] Hk Hy. destruct br_cores as [L C].
    destruct (nth_error (t_cores (v_tile v)) (Z.to_nat k)) as [p|] eqn:E.
    - exists p. split; [reflexivity|]. specialize (C _ _ _ E Hy). now rewrite Z2Nat.id in C by lia.
    - apply nth_error_None in E. rewrite L in E. apply nth_error_None in E. congruence.
  Qed.
  Lemma keeps_refl (d : dctl cells_valid) : keeps d d.
  Proof. split; auto. Qed.
  Lemma view_same v p : nth_error (t_cores (v_tile v)) (Z.to_nat k) = Some p ->
    MkView (with_core (v_tile v) (t_dram (v_tile v)) k p) (v_rt v) (v_tc v) (v_cc v) = v.
  Proof.
    intro H. destruct v as [[d cs pr ph lg] r tc cc]. cbn in *. f_equal. unfold with_core. cbn. f_equal.
    apply list_ext with (d := p); [apply length_upd|]. intros j Hj. rewrite length_upd in Hj.
    rewrite nth_upd by (apply nth_error_Some; congruence). destruct (j =? Z.to_nat k)%nat eqn:E; [|reflexivity].
    apply Nat.eqb_eq in E. subst j. symmetry. now apply nth_error_nth.
  Qed.

  Definition core2 (x : dtile) (f : dctl cells_valid -> dcore -> dres (dctl cells_valid * dcore)) : dres dtile :=
    if k <? 0 then DStuck
    else match nth_error (x_cores x) (Z.to_nat k) with
         | Some y => dmap (fun dx => dt_core (dt_ctl x (fst dx)) k (snd dx)) (f (x_ctl x) y)
         | None => DStuck
         end.
  (** What an event of the core may do: nothing, or one step of the core. *)
  Definition step_sim (U : Prop) (values : list (Z * list Z)) (cy : Z) (D : dram) (d : dctl cells_valid) (p : cproc) (y : dcore)
      (r : dres (dctl cells_valid * dcore)) : Prop :=
    match r with
    | DGo (d', y') _ =>
        (core_over y = true -> core_over y' = true) /\ keeps d d' /\
        ((ctl_rel D d' /\ core_rel (c_values d') cy p y') \/
         (exists e, core_step_sys c now k D p = Crash e) \/
         exists D' p', core_step_sys c now k D p = Go (D', p') /\ ctl_rel D' d' /\
           core_rel (c_values d') (if halted p' && negb (halted p) then now - b else cy) p' y')
    | DRaise _ => U -> exists e, core_step_sys c now k D p = Crash e
    | DStuck => True
    end.
  Lemma lift_core2 U x v f : booted_rel x v ->
    (forall y p, ctl_rel (t_dram (v_tile v)) (x_ctl x) -> core_rel (c_values (x_ctl x)) (v_cc v k) p y ->
       step_sim U (c_values (x_ctl x)) (v_cc v k) (t_dram (v_tile v)) (x_ctl x) p y (f (x_ctl x) y)) ->
    tile_sim U v (core2 x f).
  Proof.
    intros B S. unfold core2. destruct (k <? 0) eqn:Ek; [exact I|].
    destruct (nth_error (x_cores x) (Z.to_nat k)) as [y|] eqn:Ey; [|exact I].
    destruct (booted_find x v y B ltac:(lia) Ey) as (p & Hp & Hr).
    specialize (S y p (br_ctl _ _ _ _ _ _ _ B) Hr).
    destruct (f (x_ctl x) y) as [[d' y'] new|e|]; cbn in *; [| |exact I].
    - destruct S as (Ho & K & [[R1 R2]|[[e Hc]|(D' & p' & Hs & R1 & R2)]]).
      + apply vgo_here. rewrite <- (view_same v p Hp). eapply booted_core; eauto; lia.
      + right. eapply v_core_crash; [|exact Hp|exact Hc]. lia.
      + eapply vgo_one; [eapply v_core; [|exact Hp|exact Hs]; lia|].
        eapply booted_core; eauto; try lia.
        * unfold cc_after. destruct (_ && _); [unfold set_fun; now rewrite Z.eqb_refl|exact R2].
        * intros j Hj. unfold cc_after. destruct (_ && _); [|reflexivity]. unfold set_fun. destruct (j =? k) eqn:E; [lia|reflexivity].
    - intro HU. destruct (S HU) as [e' Hc]. eapply v_core_crash; [|exact Hp|exact Hc]. lia.
  Qed.
  Lemma lift_inert (U : Prop) x v f : booted_rel x v ->
    (forall values cy p y, core_rel values cy p y -> core_sim y (f y)) ->
    (forall values cy p y e, core_rel values cy p y -> f y = DRaise e -> U -> False) ->
    tile_sim U v (core2 x (fun d y => dmap (fun y' => (d, y')) (f y))).
  Proof.
    intros B S NR. apply lift_core2; [exact B|]. intros y p R1 R2. specialize (S _ _ _ _ R2).
    destruct (f y) as [y' new|e|] eqn:E; cbn in *; [| |exact I].
    - split; [apply (in_ended _ _ S)|]. split; [apply keeps_refl|]. left. split; [exact R1|]. eapply inert_rel; eassumption.
    - intro HU. exact (False_ind _ (NR _ _ _ _ _ R2 E HU)).
  Qed.

  (** ** Events with a step of the transition system *)
  Lemma live_core values cy p y : core_rel values cy p y -> t_x (k_stage y) <> GDead -> over y = false.
  Proof. intros [] H. destruct (over y); [|reflexivity]. destruct (kr_over eq_refl) as (_ & H1 & _). congruence. Qed.

  Lemma load_new_sim values cy p y : core_rel values cy p y -> core_sim y (load_new c i k y).
  Proof.
    intros R. unfold load_new. destruct (k_xp y) eqn:Ex; try exact I. destruct (t_x (k_stage y)) as [| | |[]| | |] eqn:Es; try exact I.
    unfold timeout. destruct (_ <? 0); [exact I|]. cbn. constructor; cbn; auto.
    - unfold rest_of. cbn. now rewrite Es, Ex.
    - intros vs q. unfold xphase_rel. cbn. now rewrite Es, Ex.
  Qed.
  Lemma store_new_sim values cy p y : core_rel values cy p y -> core_sim y (store_new c i k y).
  Proof.
    intros R. unfold store_new. destruct (k_xp y) eqn:Ex; try exact I. destruct (t_x (k_stage y)) as [| | |[]| | |] eqn:Es; try exact I.
    unfold timeout. destruct (_ <? 0); [exact I|]. cbn. constructor; cbn; auto.
    - unfold rest_of. cbn. now rewrite Es, Ex.
    - intros vs q. unfold xphase_rel. cbn. now rewrite Es, Ex.
  Qed.
  Lemma in_rest_x o values cy p y : core_rel values cy p y -> t_x (k_stage y) = GWork o ->
    match k_xp y with XTiming => is_hlt o = true | XLoaded | XStored => False | _ => True end -> Q o.
  Proof.
    intros R Es Ex. assert (Ho := live_core _ _ _ _ R ltac:(congruence)). destruct (kr_run _ _ _ _ _ R Ho) as (_ & _ & F).
    unfold rest_of in F. rewrite Es in F. apply Forall_app in F as [F _].
    cbn in F. destruct (k_xp y); try rewrite Ex in F; try contradiction; now inversion F.
  Qed.
  Lemma load_new_raise values cy p y e : core_rel values cy p y -> load_new c i k y = DRaise e -> usable -> False.
  Proof.
    intros R H (_ & _ & U). unfold load_new in H. destruct (k_xp y) eqn:Ex; try discriminate.
    destruct (t_x (k_stage y)) as [| | |o| | |] eqn:Es; try discriminate.
    assert (Hq := in_rest_x _ _ _ _ _ R Es ltac:(now rewrite Ex)). apply U in Hq.
    destruct o; try discriminate. unfold timeout in H. cbn in Hq. destruct (_ <? 0) eqn:E in H; [lia|discriminate].
  Qed.
  Lemma store_new_raise values cy p y e : core_rel values cy p y -> store_new c i k y = DRaise e -> usable -> False.
  Proof.
    intros R H (_ & _ & U). unfold store_new in H. destruct (k_xp y) eqn:Ex; try discriminate.
    destruct (t_x (k_stage y)) as [| | |o| | |] eqn:Es; try discriminate.
    assert (Hq := in_rest_x _ _ _ _ _ R Es ltac:(now rewrite Ex)). apply U in Hq.
    destruct o; try discriminate. unfold timeout in H. cbn in Hq. destruct (_ <? 0) eqn:E in H; [lia|discriminate].
  Qed.

  Lemma load_time_sim D d p y cy : ctl_rel D d -> core_rel (c_values d) cy p y ->
    step_sim usable (c_values d) cy D d p y (dmap (fun y' => (d, y')) (load_time P i k y)).
  Proof.
    intros R1 R2. unfold load_time. destruct (k_xp y) eqn:Ex; try exact I.
    destruct (t_x (k_stage y)) as [| | |[]| | |] eqn:Es; try exact I.
    assert (Ho := live_core _ _ _ _ R2 ltac:(congruence)). destruct R2. destruct (kr_run Ho) as (H1 & H2 & H3).
    unfold rest_of in H1. unfold xphase_rel in H2. rewrite Es, Ex in H1, H2. destruct H2 as (_ & id & a & H2 & H4).
    assert (Hs : core_step_sys c now k D p =
              match load_finish (y_core c) (k_core y) dest data with
              | (Raise e, _) => Crash e
              | (Ok _, k1) => Go (D, MkCProc k1 (tl (cp_prog p)) PReady (cp_writes p))
              end).
    { unfold core_step_sys. rewrite H2, H1, (cr_values _ _ R1), H4, kr_core. reflexivity. }
    cbn [real m_loaded]. destruct (load_finish (y_core c) (k_core y) dest data) as [[u|e] k1]; cbn.
    - split; [auto|]. split; [apply keeps_refl|]. right; right. eexists _, _. split; [exact Hs|]. split; [exact R1|]. cbn.
      constructor; cbn; auto.
      + intros _. unfold rest_of, xphase_rel. cbn. rewrite Es. rewrite H1. cbn. split; [reflexivity|]. split; [auto|].
        unfold rest_of in H3. rewrite Es, Ex in H3. cbn in H3. now inversion H3.
      + intro Hd. unfold over in Ho, Hd. cbn in Hd. congruence.
    - intros _. eexists. exact Hs.
  Qed.

  Lemma store_time_sim D d p y cy : ctl_rel D d -> core_rel (c_values d) cy p y ->
    step_sim usable (c_values d) cy D d p y (store_time now i k d y).
  Proof.
    intros R1 R2. unfold store_time. destruct (k_xp y) eqn:Ex; try exact I.
    destruct (t_x (k_stage y)) as [| | |o| | |] eqn:Es; try exact I.
    assert (Ho := live_core _ _ _ _ R2 ltac:(congruence)). destruct R2. destruct (kr_run Ho) as (H1 & H2 & H3).
    unfold xphase_rel in H2. rewrite Es, Ex in H2. destruct H2 as (Hh & H2).
    assert (S := submit_rel now i D d k addr (RWrite rows) R1).
    destruct (submit now i k addr (RWrite rows) d) as [[r d'] new|e|]; cbn; [| |contradiction].
    - destruct S as (D' & S & R' & K & _). split; [auto|]. split; [exact K|]. right; right.
      eexists D', _. split; [unfold core_step_sys; rewrite H2, S; reflexivity|]. split; [exact R'|]. cbn.
      constructor; cbn; auto.
      + intros _. unfold rest_of, xphase_rel in *. cbn. rewrite Es in *. rewrite Ex in H1, H3. cbn in *. auto.
      + intro Hd. unfold over in Ho, Hd. cbn in Hd. congruence.
    - intros _. exists e. unfold core_step_sys. rewrite H2, S. reflexivity.
  Qed.

  Lemma load_done_sim D d p y cy id : ctl_rel D d -> core_rel (c_values d) cy p y ->
    step_sim usable (c_values d) cy D d p y (dmap (fun y' => (d, y')) (load_done i k id (c_values d) y)).
  Proof.
    intros R1 R2. unfold load_done. destruct (k_xp y) eqn:Ex; try exact I.
    - destruct (t_x (k_stage y)) as [| | |o| | |] eqn:Es; try exact I.
      destruct (value_of id (c_values d)) as [data|] eqn:Ev; [|exact I]. destruct (id =? id0) eqn:Ei; [|exact I].
      assert (id0 = id) by lia. subst id0.
      cbn. split; [auto|]. split; [apply keeps_refl|]. left. split; [exact R1|].
      assert (Ho := live_core _ _ _ _ R2 ltac:(congruence)). destruct R2. destruct (kr_run Ho) as (H1 & H2 & H3).
      constructor; cbn; auto; try (intro Hd; unfold over in Ho, Hd; cbn in Hd; congruence).
      intros _. unfold rest_of, xphase_rel in *. cbn. rewrite Es in *. rewrite Ex in H1, H2, H3. cbn in *.
      split; [exact H1|]. split; [|exact H3]. destruct H2 as (Hh & a & H2). split; [exact Hh|]. exists id, a. auto.
    - destruct (t_x (k_stage y)) as [| | |o| | |] eqn:Es; try exact I.
      destruct (value_of id (c_values d)) as [data|] eqn:Ev; [|exact I]. destruct (id =? id0) eqn:Ei; [|exact I].
      assert (id0 = id) by lia. subst id0.
      cbn. split; [auto|]. split; [apply keeps_refl|]. right; right.
      assert (Ho := live_core _ _ _ _ R2 ltac:(congruence)). destruct R2. destruct (kr_run Ho) as (H1 & H2 & H3).
      unfold rest_of, xphase_rel in H1, H2, H3. rewrite Es, Ex in H1, H2, H3. cbn in H1, H3. destruct H2 as [Hh H2].
      eexists D, _. split; [unfold core_step_sys; rewrite H2, (cr_values _ _ R1), Ev, H1; reflexivity|]. split; [exact R1|]. cbn.
      constructor; cbn; auto; try (intro Hd; unfold over in Ho, Hd; cbn in Hd; congruence).
      intros _. unfold rest_of, xphase_rel. cbn. rewrite Es. cbn. split; [reflexivity|]. split; [auto|]. now inversion H3.
  Qed.

  Lemma pipe_done_sim D d p y cy : ctl_rel D d -> core_rel (c_values d) cy p y ->
    step_sim usable (c_values d) cy D d p y (dmap (fun y' => (d, y')) (pipe_done b now i k y)).
  Proof.
    intros R1 R2. unfold pipe_done. destruct (k_proc y) eqn:Ep; try exact I. destruct (k_mon y) eqn:Em; try exact I. cbn.
    destruct R2. assert (Hd : t_x (k_stage y) = GDead) by (apply kr_comp; rewrite (kr_mon Em); discriminate).
    destruct (kr_run ltac:(unfold over; now rewrite Ep)) as (H1 & H2 & H3).
    unfold rest_of, xphase_rel in H1, H2. rewrite Hd in H1, H2. cbn in H1.
    split; [unfold core_over; rewrite Ep; discriminate|]. split; [apply keeps_refl|]. right; right.
    eexists D, _. split; [unfold core_step_sys; rewrite H2, H1; reflexivity|]. split; [exact R1|].
    replace (halted p) with false by (unfold halted; now rewrite H2). cbn.
    constructor; cbn; auto. discriminate.
  Qed.

  Lemma on_got_sim s D d p y cy : ctl_rel D d -> core_rel (c_values d) cy p y ->
    step_sim usable (c_values d) cy D d p y (on_got P c now i k s d y).
  Proof.
    intros R1 R0. unfold on_got. destruct (buf_put i k s y) as [y1 l1] eqn:E.
    assert (Hi := buf_put_inert s y). rewrite E in Hi. cbn in Hi.
    assert (R2 := inert_rel _ _ _ _ _ Hi R0). assert (Hend := in_ended _ _ Hi).
    destruct (tget (k_stage y1) s) as [| |o| | | |] eqn:Es; try exact I.
    destruct s.
    - unfold timeout. cbn. destruct (k_fetch_lat (y_core c) <? 0) eqn:El; cbn; [intros (U & _); lia|].
      split; [exact Hend|]. split; [apply keeps_refl|]. left. split; [exact R1|].
      eapply inert_rel; [|exact R2]. apply stage_inert; [discriminate|now rewrite Es].
    - unfold timeout. cbn. destruct (k_data_lat (y_core c) <? 0) eqn:El; cbn; [intros (_ & U & _); lia|].
      split; [exact Hend|]. split; [apply keeps_refl|]. left. split; [exact R1|].
      eapply inert_rel; [|exact R2]. apply stage_inert; [discriminate|now rewrite Es].
    - cbn in Es. assert (Ho := live_core _ _ _ _ R2 ltac:(congruence)). destruct R2. destruct (kr_run Ho) as (H1 & H2 & H3).
      unfold rest_of, xphase_rel in H1, H2, H3. rewrite Es in H1, H2, H3. cbn in H1, H3.
      assert (Hq : Q o) by now inversion H3.
      assert (Ht : Forall Q (t_x (k_buf y1) ++ part (t_d (k_stage y1)) ++ t_d (k_buf y1) ++ part (t_f (k_stage y1)) ++ t_f (k_buf y1) ++ k_wait y1))
        by now inversion H3.
      assert (Hc : t_x (k_comp y1) <> Pending -> GWork o = GDead) by (intro Hc; specialize (kr_comp Hc); congruence).
      assert (Hov : forall y2 : dcore, k_proc y2 = k_proc y1 -> over y2 = true -> False).
      { intros y2 Hp Hv. unfold over in Ho, Hv. rewrite Hp in Hv. congruence. }
      assert (local : forall u k1 t, exec_local (y_core c) (k_core y1) o = (Ok u, k1) -> is_hlt o = false ->
                (match o with CLoad _ _ _ _ | CStore _ _ _ _ => False | _ => True end) ->
                step_sim usable (c_values d) cy D d p y
                  (match timeout t (VTime i k SX) (d, set_xp (set_core (set_stage y1 SX (GWork o)) k1) XTiming) with
                   | DGo b0 new' => DGo b0 (l1 ++ new') | DRaise e => DRaise e | DStuck => DStuck end) \/ t < 0).
      { intros u k1 t He Hh Hm. unfold timeout. destruct (t <? 0) eqn:Et; [right; lia|left]. cbn.
        split; [exact Hend|]. split; [apply keeps_refl|]. right; right.
        eexists D, _. split.
        - unfold core_step_sys. rewrite H2, H1, kr_core. destruct o; try contradiction; try discriminate; rewrite He; reflexivity.
        - split; [exact R1|]. cbn. constructor; cbn; auto.
          + intros _. unfold rest_of, xphase_rel. cbn. rewrite Hh. cbn. auto.
          + intro Hv. destruct (Hov _ eq_refl Hv). }
      destruct o as [dest read width vec|dest read width vec| | | | |].
      + clear local. unfold execute, dbind. cbn [real m_load].
        assert (Hs : core_step_sys c now k D p =
              match load_address (y_core c) (k_core y1) read with
              | (Raise e, _) => Crash e
              | (Ok a, k1) =>
                  match dc_submit now k a (RRead width vec) D with
                  | (Raise e, _) => Crash e
                  | (Ok r, d') => Go (d', MkCProc k1 (cp_prog p) (PLoad (q_id r) a) (cp_writes p))
                  end
              end) by (unfold core_step_sys; rewrite H2, H1, kr_core; reflexivity).
        destruct (load_address (y_core c) (k_core y1) read) as [[a|e] k1]; [|intros _; eexists; exact Hs].
        assert (S := submit_rel now i D d k a (RRead width vec) R1).
        destruct (submit now i k a (RRead width vec) d) as [[r d'] new|e|]; cbn; [| |contradiction].
        * destruct S as (D' & S & R' & K & _). rewrite S in Hs. split; [exact Hend|]. split; [exact K|]. right; right.
          eexists D', _. split; [exact Hs|]. split; [exact R'|]. cbn. constructor; cbn; auto.
          -- intros _. unfold rest_of, xphase_rel. cbn. rewrite H1. split; [reflexivity|]. split; [|exact H3].
             split; [reflexivity|]. eexists. reflexivity.
          -- intro Hv. destruct (Hov _ eq_refl Hv).
        * intros _. rewrite S in Hs. eexists; exact Hs.
      + clear local. unfold execute, dbind. cbn [real m_store].
        assert (Hs : core_step_sys c now k D p =
              match store_request (y_core c) (k_core y1) dest read width vec with
              | (Raise e, _) => Crash e
              | (Ok (a, v), k1) => Go (D, MkCProc k1 (cp_prog p) (PStoring a (rows_of width vec v)) (cp_writes p))
              end) by (unfold core_step_sys; rewrite H2, H1, kr_core; reflexivity).
        destruct (store_request (y_core c) (k_core y1) dest read width vec) as [[[a v]|e] k1]; [|intros _; eexists; exact Hs].
        cbn. split; [exact Hend|]. split; [apply keeps_refl|]. right; right.
        eexists D, _. split; [exact Hs|]. split; [exact R1|]. cbn. constructor; cbn; auto.
        * intro Hv. destruct (Hov _ eq_refl Hv).
      + unfold execute, dbind. cbn [real m_local].
        destruct (exec_local (y_core c) (k_core y1) _) as [[u|e] k1] eqn:Ee;
          [|intros _; exists e; unfold core_step_sys; rewrite H2, H1, kr_core, Ee; reflexivity].
        destruct (exec_time (y_core c) _) as [t|e] eqn:Et; [|intros (_ & _ & U); apply U in Hq as (t & Hq & _); congruence].
        destruct (local u k1 t eq_refl eq_refl I) as [L|L]; [exact L|]. unfold timeout. destruct (t <? 0) eqn:E0; [|lia].
        intros (_ & _ & U); apply U in Hq as (t' & Hq & Hq'). assert (t' = t) by congruence. lia.
      + unfold execute, dbind. cbn [real m_local].
        destruct (exec_local (y_core c) (k_core y1) _) as [[u|e] k1] eqn:Ee;
          [|intros _; exists e; unfold core_step_sys; rewrite H2, H1, kr_core, Ee; reflexivity].
        destruct (exec_time (y_core c) _) as [t|e] eqn:Et; [|intros (_ & _ & U); apply U in Hq as (t & Hq & _); congruence].
        destruct (local u k1 t eq_refl eq_refl I) as [L|L]; [exact L|]. unfold timeout. destruct (t <? 0) eqn:E0; [|lia].
        intros (_ & _ & U); apply U in Hq as (t' & Hq & Hq'). assert (t' = t) by congruence. lia.
      + unfold execute, dbind. cbn [real m_local].
        destruct (exec_local (y_core c) (k_core y1) _) as [[u|e] k1] eqn:Ee;
          [|intros _; exists e; unfold core_step_sys; rewrite H2, H1, kr_core, Ee; reflexivity].
        destruct (exec_time (y_core c) _) as [t|e] eqn:Et; [|intros (_ & _ & U); apply U in Hq as (t & Hq & _); congruence].
        destruct (local u k1 t eq_refl eq_refl I) as [L|L]; [exact L|]. unfold timeout. destruct (t <? 0) eqn:E0; [|lia].
        intros (_ & _ & U); apply U in Hq as (t' & Hq & Hq'). assert (t' = t) by congruence. lia.
      + unfold execute, dbind. cbn [real m_local].
        destruct (exec_local (y_core c) (k_core y1) _) as [[u|e] k1] eqn:Ee;
          [|intros _; exists e; unfold core_step_sys; rewrite H2, H1, kr_core, Ee; reflexivity].
        destruct (exec_time (y_core c) _) as [t|e] eqn:Et; [|intros (_ & _ & U); apply U in Hq as (t & Hq & _); congruence].
        destruct (local u k1 t eq_refl eq_refl I) as [L|L]; [exact L|]. unfold timeout. destruct (t <? 0) eqn:E0; [|lia].
        intros (_ & _ & U); apply U in Hq as (t' & Hq & Hq'). assert (t' = t) by congruence. lia.
      + clear local. unfold execute, dbind. cbn.
        split; [exact Hend|]. split; [apply keeps_refl|]. left. split; [exact R1|].
        constructor; cbn; auto.
        * intro Hv. destruct (Hov _ eq_refl Hv).
  Qed.
End Core.
