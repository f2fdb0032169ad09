(** The start and the end of a tile, and which events it waits for (continues DesWaitTile). *)
From Coq Require Import Permutation.
From Verif Require Import PyBase PyLemmas CoreModel DramModel DramProofs RouterModel SystemModel StatsProofs DesModel DesWait DesWaitCtl DesWaitTile.

Section Stop.
  Context {K M : Type}.
  Variable P : machine K M.
  Variable c : sys_cfg.
  Notation dcore := (dcore K). Notation dctl := (dctl M). Notation dtile := (dtile K M). Notation dnode := (dnode K M).
  Notation tile_inv := (@tile_inv K M c). Notation tile_waits := (@tile_waits K M c). Notation tile_moves := (@tile_moves K M c). Notation tile_good := (@tile_good K M c).

  Ltac only_tac EP := split;
    [ let t := fresh in let e' := fresh in let F1 := fresh in let HW := fresh in intros t e' F1 HW; destruct e'; cbn in F1, HW |- *; try discriminate F1; auto; try (rewrite EP in HW); try (exfalso; exact HW); try (injection F1 as ->); auto;
      let HU := fresh in destruct HW as [HU HW]; unfold asked in HW; rewrite EP in HW; match type of HW with if ?kk =? -1 then _ else _ => destruct (Z.eqb_spec kk (-1)) as [-> |]; auto end; first [contradiction HW | subst; auto]
    | let id := fresh in let H := fresh in intros id H; unfold asked in H; cbn in H; rewrite EP in H; first [contradiction H | subst; auto] ].

  (** ** The router stops *)
  (** The sender waits for a packet. *)
  Lemma idle_sender u : rt_inv c u -> u_running u = true -> (forall n, u_event u <> Some (n, Pending)) -> u_sender u <> ZNew -> (forall p s, u_sender u <> ZGot p s) -> u_sender u = ZWaiting.
  Proof.
    intros [RE RA RL] HR HE H1 H2. unfold under_way in RE. specialize (RA HR). destruct (u_sender u) eqn:ES; auto; try (destruct RE as [_ [n RE]]; exfalso; exact (HE n RE)); try contradiction.
    exfalso. exact (H2 _ _ eq_refl).
  Qed.
  Definition stopped (T : dtile) (ev0 : option (Z * once)) : dtile :=
    dt_phase (dt_rt T (MkRt false (u_queue (x_rt T)) (u_sender (x_rt T)) (u_buffers (x_rt T)) ev0 (u_stat (x_rt T)))) TStopEnd.
  (** [e] is the event that ended the wait. *)
  Lemma stopped_moves b now i e (T : dtile) ev0 : tile_inv T -> is_new T = false -> u_sender (x_rt T) = ZWaiting -> u_running (x_rt T) = true -> x_ended T = false -> (forall n, ev0 <> Some (n, Pending)) ->
    (forall t e', ev_tile e' = Some i -> own_waits c t e' T -> key e' = e \/ match e' with VDone _ k _ => k <> -1 | VSent _ _ => True | _ => False end) -> (forall id, ~ asked T (-1) id) ->
    part_of e = POwn -> prio_of e = Normal -> VStopped i <> e ->
    tile_moves b now i [e] T (stopped T ev0) [start (VSenderInt i); soon (VStopped i)].
  Proof.
    intros IT N ES ER EE HEV HK NA HP HPR NE. destruct IT as [IC ID IR IA IP IE].
    assert (OUT : forall f, part_of f <> POwn -> ~ In f [e]) by (intros f H [<- |[]]; auto).
    assert (HO : only c i e T) by (split; [exact HK|intros id H; now apply NA in H]).
    constructor.
    - constructor; cbn; auto.
      + destruct IR as [RE RA RL]. constructor; unfold under_way in *; cbn in *; rewrite ES in *; auto; try discriminate.
      + intros r H. pose proof (IA r H) as H1. unfold asked in *. cbn. destruct (q_core r =? -1) eqn:EQ; auto. exfalso. apply (NA (q_id r)). unfold asked. cbn. exact H1.
      + unfold phase_inv. cbn. split; intros [].
    - reflexivity.
    - apply (tile_comp c b now i [e] T _ 0 [] [] [start (VSenderInt i)] [soon (VStopped i)]); auto.
      + apply comp_same. auto.
      + apply comp_same. auto.
      + constructor.
        * intros t f HE HI HW. right. destruct f; try contradiction HE; try discriminate HI; cbn in *; rewrite ?ES in *; auto. intuition discriminate.
        * apply Forall_cons; [|constructor]. cbn. repeat split; auto. intros _. right. intros t [H _]. congruence.
        * cbn. constructor; [intros []|constructor].
      + apply (own_step c now i e T (stopped T ev0) 0 (VStopped i)); auto. cbn. exact I.
    - cbn. congruence.
    - intros t f HE HI HW. unfold DesWaitTile.tile_waits in *. destruct (imm_part f HI) as [H|H]; rewrite H in *; destruct HW as [_ HW].
      + left. split; auto. apply OUT. congruence.
      + right. destruct f; try discriminate HI; try discriminate H. cbn in HE. injection HE as ->. split; [|apply Forall_cons; [exact HPR|constructor]]. exists [], [soon (VStopped i)]. split; [reflexivity|repeat constructor].
    - cbn. intros H. left. split; auto. split; auto. apply OUT. discriminate.
    - cbn. rewrite ES. discriminate.
    - cbn. rewrite ES. discriminate.
    - cbn. discriminate.
  Qed.
  Lemma on_empty_good b now i (T : dtile) : tile_inv T -> tile_waits b now (VEmpty i) T -> u_sender (x_rt T) <> ZNew -> (forall p s, u_sender (x_rt T) <> ZGot p s) ->
    tile_good b now i [VEmpty i] T (on_empty i T).
  Proof.
    intros IT [N HW] H1 H2. cbn in HW. unfold on_empty. destruct (x_phase T) eqn:EP; try contradiction. pose proof (ti_phase _ _ IT) as PI. unfold phase_inv in PI. rewrite EP in PI. destruct PI as [ER EQ].
    pose proof (ti_ended _ _ IT) as EE. rewrite EP in EE. specialize (EE ltac:(discriminate)).
    assert (HO : only c i (VEmpty i) T) by only_tac EP. assert (NA : forall id, ~ asked T (-1) id) by (intros id H; unfold asked in H; cbn in H; now rewrite EP in H).
    assert (ST : (forall n, u_event (x_rt T) <> Some (n, Pending)) -> tile_good b now i [VEmpty i] T (router_stop i T)).
    { intros HE. pose proof (idle_sender _ (ti_rt _ _ IT) ER HE H1 H2) as ES. unfold router_stop. rewrite ES. rewrite <- ES. apply (stopped_moves b now i (VEmpty i) T (u_event (x_rt T))); auto; try discriminate. apply HO. }
    destruct (u_event (x_rt T)) as [[n []]|] eqn:EV.
    - apply (lift_phase c b now i (VEmpty i) T (dt_phase T (TSentWait n)) [] []); auto; try discriminate.
      + intros id H. now apply NA in H.
      + unfold phase_inv. cbn. split; auto. split; auto. left. exact EV.
      + constructor; [|constructor|constructor]. intros t e [F1 F2] HI HW'. destruct (proj1 HO t e F1 HW') as [H|H]; [left; now left|]. right. destruct e; try contradiction; auto. cbn in *. destruct HW' as [HV HW']. split; auto.
        unfold asked in *. destruct (Z.eqb_spec k (-1)); [contradiction|]. exact HW'.
      + constructor.
    - assert (ES : u_sender (x_rt T) = ZWaiting) by (apply idle_sender; auto; [apply (ti_rt _ _ IT)|intros m; rewrite EV; congruence]).
      apply (lift_phase c b now i (VEmpty i) T (dt_phase T (TSentWait n)) [] []); auto; try discriminate.
      + intros id H. now apply NA in H.
      + unfold phase_inv. cbn. split; auto. split; auto. right. split; auto.
      + constructor; [|constructor|constructor]. intros t e [F1 F2] HI HW'. destruct (proj1 HO t e F1 HW') as [H|H]; [left; now left|]. right. destruct e; try contradiction; auto. cbn in *. destruct HW' as [HV HW']. split; auto.
        unfold asked in *. destruct (Z.eqb_spec k (-1)); [contradiction|]. exact HW'.
      + constructor.
    - apply ST. intros m. congruence.
    - apply ST. discriminate.
  Qed.

  (** ** sending_event *)
  Lemma moves_plain b now i fired (T T' : dtile) new : plain fired -> Forall (fun f => prio_of f = Normal) fired -> tile_moves b now i [] T T' new -> tile_moves b now i fired T T' new.
  Proof.
    intros HF HN [I0 O0 [CK CN CU] X0 IM HH HS HG HO]. assert (NI : forall e, tracked e = true -> ~ In e fired) by (intros; now apply plain_out). constructor; auto.
    - constructor; auto.
      + intros t e H1 H2 H3. destruct (CK t e H1 H2 H3) as [[]|H]; auto.
      + eapply Forall_impl; [|exact CN]. cbn. intros z (F1 & F2 & F3 & F4). repeat split; auto. intros HT. destruct (F4 HT) as [[]|H]; auto.
    - intros t e H1 H2 H3. destruct (IM t e H1 H2 H3) as [[H _]|[H _]]; [left; split; auto; apply NI; destruct e; discriminate H2 || reflexivity|right; split; auto].
    - intros H. destruct (HH H) as [(F1 & F2 & _)|F]; auto.
    - intros H. destruct (HS H) as [(F1 & F2 & _)|F]; auto.
    - intros p s H. destruct (HG p s H) as [(F1 & _)|F]; auto.
    - intros p s H1 H2. destruct (HO p s H1 H2) as (F1 & _ & F2). split; auto. split; auto. destruct F2 as [[F2 _]|F2]; auto.
  Qed.
  Lemma moves_refl b now i (T : dtile) : tile_inv T -> is_new T = false -> tile_moves b now i [] T T [].
  Proof. intros IT N. constructor; auto. - apply comp_same. auto. - intros p s H1 H2. split; auto. Qed.
  (** Only the buffers, the event and the statistics of the router change. *)
  Lemma like_tile b now i (T : dtile) u' : tile_inv T -> is_new T = false -> rt_inv c u' -> phase_inv (dt_rt T u') ->
    u_sender u' = u_sender (x_rt T) -> u_running u' = u_running (x_rt T) -> tile_moves b now i [] T (dt_rt T u') [].
  Proof.
    intros [IC ID IR IA IP IE] N RI PI ES ER. assert (RW : forall t e, rt_waits c t e u' <-> rt_waits c t e (x_rt T)) by (intros t e; unfold rt_waits; rewrite ES, ER; tauto). constructor; auto.
    - constructor; auto.
    - apply comp_same. intros t e _. unfold DesWaitTile.tile_waits. destruct (part_of e); auto. intros [H1 H2]. split; auto. cbn. now apply RW.
    - intros t e HE HI HW. left. split; auto. unfold DesWaitTile.tile_waits in *. destruct (part_of e); auto. destruct HW as [H1 H2]. split; auto. cbn in H2. now apply RW.
    - cbn. rewrite ES. intros. left. auto.
    - cbn. rewrite ES. intros. left. auto.
    - cbn. rewrite ES. intros p s H1 H2. split; auto.
  Qed.
  Lemma on_sent_good b now i number (T : dtile) : tile_inv T -> is_new T = false -> tile_good b now i [VSent i number] T (on_sent i number T).
  Proof.
    intros IT N. assert (PL : plain [VSent i number]) by (repeat constructor). assert (PN : Forall (fun f => prio_of f = Normal) [VSent i number]) by (repeat constructor).
    assert (RF : tile_moves b now i [VSent i number] T T []) by (apply moves_plain; auto; now apply moves_refl).
    unfold on_sent. destruct (u_event (x_rt T)) as [[n []]|] eqn:EV; try exact RF. destruct (Z.eqb_spec n number) as [-> |NE]; [|exact RF].
    assert (NU : under_way (x_rt T) = None).
    { destruct (ti_rt _ _ IT) as [RE _ _]. destruct (under_way (x_rt T)); auto. destruct RE as [_ [m RE]]. congruence. }
    assert (RI : rt_inv c (rt_event (x_rt T) (Some (number, Processed)))).
    { destruct (ti_rt _ _ IT) as [RE RA RL]. constructor; cbn; auto. unfold under_way in *. cbn. rewrite NU. congruence. }
    pose proof (ti_phase _ _ IT) as PI.
    assert (KEEP : (forall m, x_phase T <> TSentWait m) -> tile_moves b now i [VSent i number] T (dt_rt T (rt_event (x_rt T) (Some (number, Processed)))) []).
    { intros NS. apply moves_plain; auto. apply like_tile; auto. unfold phase_inv, is_new in *. cbn. destruct (x_phase T) eqn:EP; try exact PI; try discriminate. exfalso. eapply NS. reflexivity. }
    destruct (x_phase T) eqn:EP; try (apply KEEP; discriminate). unfold phase_inv in PI. rewrite EP in PI. destruct PI as (HR & HQ & [H|[H ES]]); [congruence|].
    assert (number0 = number) as -> by congruence. rewrite Z.eqb_refl. unfold router_stop. cbn. rewrite ES, <- ES.
    assert (HO : only c i (VSent i number) T) by only_tac EP.
    apply (stopped_moves b now i (VSent i number) T (Some (number, Processed))); auto; try discriminate.
    - apply (ti_ended _ _ IT). congruence.
    - apply HO.
    - intros id H1. unfold asked in H1. cbn in H1. now rewrite EP in H1.
  Qed.

  (** ** The controller stops *)
  Lemma on_stopped_good b now i (T : dtile) : tile_inv T -> tile_waits b now (VStopped i) T -> c_handler (x_ctl T) <> HNew -> tile_good b now i [VStopped i] T (on_stopped now i T).
  Proof.
    intros IT [N HW] HH. cbn in HW. unfold on_stopped. destruct (x_phase T) eqn:EP; try contradiction. unfold ctl_stop.
    pose proof (ti_ended _ _ IT) as EE. rewrite EP in EE. specialize (EE ltac:(discriminate)).
    assert (HO : only c i (VStopped i) T) by only_tac EP. assert (NA : forall id, ~ asked T (-1) id) by (intros id H; unfold asked in H; cbn in H; now rewrite EP in H).
    destruct (c_running (x_ctl T)) eqn:ER; cbn [negb].
    - destruct (zlen (c_pending (x_ctl T)) =? 0); cbn [negb]; [|exact I]. cbn [dbind op_end go]. destruct IT as [IC ID IR IA IP IE].
      assert (OUT : forall f, part_of f <> POwn -> ~ In f [VStopped i]) by (intros f H [<- |[]]; now apply H).
      match goal with |- tile_good _ _ _ _ _ (DGo ?T' _) => set (TT := T') end.
      constructor.
      + constructor; cbn; auto.
        * destruct ID as [CN CX CV CA CS]. constructor; cbn; auto. discriminate.
        * intros r H. pose proof (IA r H) as H1. unfold asked in *. cbn. destruct (q_core r =? -1) eqn:EQ; auto. exfalso. apply (NA (q_id r)). unfold asked. cbn. exact H1.
        * unfold phase_inv. cbn. split; intros [].
      + reflexivity.
      + apply (tile_comp c b now i _ T TT 0 [] [start (VHandlerInt i)] [] [soon (VOpEnd i)]); auto.
        * apply comp_same. auto.
        * constructor.
          -- intros t f HE HI HW'. right. destruct f; try contradiction HE; try discriminate HI; cbn in *; auto. contradiction HH. apply HW'.
          -- apply Forall_cons; [|constructor]. cbn. repeat split; auto.
             ++ destruct (c_handler (x_ctl T)) eqn:EH; auto. apply (ci_alive _ ID) in ER. now rewrite EH in ER.
             ++ intros _. right. intros t [H _]. congruence.
          -- cbn. constructor; [intros []|constructor].
        * apply comp_same. auto.
        * assert (OC : own_comp c now i [VStopped i] T (dt_phase T (TOpEnd now)) [soon (VOpEnd i)]).
          { apply (own_step c now i (VStopped i) T _ 0 (VOpEnd i)); auto; try discriminate. cbn. lia. }
          exact OC.
      + cbn. congruence.
      + intros t f HE HI HW'. unfold DesWaitTile.tile_waits in *. destruct (imm_part f HI) as [H|H]; rewrite H in *; destruct HW' as [_ HW'].
        * destruct f; try discriminate HI; try discriminate H; cbn in HE; injection HE as ->.
          -- right. split; [|repeat constructor]. exists [], [soon (VOpEnd i)]. split; [reflexivity|repeat constructor].
          -- left. split; auto. apply OUT. discriminate.
        * left. split; auto. apply OUT. congruence.
      + cbn. intros H. contradiction.
      + cbn. intros H. left. split; auto. split; auto. apply OUT. discriminate.
      + cbn. intros p s H. left. split; auto. apply OUT. discriminate.
      + cbn. discriminate.
    - cbn [dbind go]. rewrite set_ctl_same. apply (op_end_moves c b now i (VStopped i) T); auto; try discriminate.
  Qed.

  (** ** The end of a core *)
  Lemma core_end_good b now i k (T : dtile) x : tile_inv T -> is_new T = false -> 0 <= k -> nth_error (x_cores T) (Z.to_nat k) = Some x -> core_waits b now (VCoreEnd i k) x ->
    tile_good b now i [VCoreEnd i k] T (core_end i k T).
  Proof.
    intros IT N HK EN HW. unfold core_end. rewrite EN. assert (CI : core_inv x) by (pose proof (ti_cores _ _ IT) as H; rewrite Forall_forall in H; apply H; eapply nth_error_In; eauto).
    pose proof (core_end_moves b now i k x CI HW) as HM.
    assert (HM1 : tile_moves b now i [VCoreEnd i k] T (dt_core T k (set_proc x CEnded (k_cycles x))) []).
    { pose proof (lift_core_good c b now i [VCoreEnd i k] T k x (DGo (set_proc x CEnded (k_cycles x)) []) IT N HK EN HM ltac:(repeat constructor)) as H. cbn in H. now rewrite set_ctl_same in H. }
    cbn in HW. rewrite HW. destruct (x_phase T) eqn:EP; try exact HM1. destruct (forallb core_over _); [|exact HM1].
    destruct HM1 as [I1 O1 C1 X1 M1 H1 S1 G1 R1]. assert (HO : only c i (VCoreEnd i k) T) by only_tac EP.
    set (T1 := dt_core T k (set_proc x CEnded (k_cycles x))) in *. set (T2 := dt_phase T1 THaltAll).
    assert (WW : forall t e, ev_tile e = Some i -> tile_waits b t e T1 -> tile_waits b t e T2).
    { intros t e HE. unfold DesWaitTile.tile_waits. destruct (part_of e) eqn:EPT; auto; intros [F1 F2]; try (exfalso; congruence); split; auto. destruct e; try discriminate EPT; cbn in F2 |- *; try (rewrite EP in F2); try (exfalso; exact F2); auto.
      destruct F2 as [F2 F3]. split; auto. unfold asked in *. cbn in *. destruct (_ =? -1); auto. rewrite EP in F3. exact F3. }
    constructor; auto.
    - destruct I1 as [IC ID IR IA IP IE]. constructor; auto.
      + intros r H. pose proof (IA r H) as F. unfold asked in *. cbn in *. destruct (_ =? -1); auto. rewrite EP in F. exact F.
      + unfold phase_inv. cbn. split; intros [].
      + intros _. cbn in *. apply IE. rewrite EP. discriminate.
    - destruct C1 as [CK CN CU]. constructor.
      + intros t e HE HI HW'. destruct (CK t e HE HI HW') as [H|H]; auto.
      + apply Forall_cons; [|constructor]. cbn. split; [reflexivity|]. split; [split; [reflexivity|exact I]|]. split; auto. intros _. right. intros t [_ H]. cbn in H. now rewrite EP in H.
      + cbn. constructor; [intros []|constructor].
    - intros t e HE HI HW'. left. destruct (M1 t e HE HI) as [H|[(l1 & l2 & H & _) _]]; auto.
      + unfold DesWaitTile.tile_waits in *. destruct (imm_part e HI) as [H|H]; rewrite H in *; split; auto; apply HW'.
      + destruct l1; discriminate H.
    - intros H. destruct (H1 H) as [F|[]]. auto.
    - intros H. destruct (S1 H) as [F|[]]. auto.
    - intros p s H. destruct (G1 p s H) as [F|[]]. auto.
    - cbn. discriminate.
  Qed.

  (** ** The end of a tile *)
  Definition ended (T : dtile) : dtile := MkDTile (x_ctl T) (x_rt T) (x_cores T) (x_prog T) (x_phase T) (x_cycles T) true.
  Lemma ended_moves b now i (T : dtile) : tile_inv T -> tile_waits b now (VTileEnd i) T -> tile_moves b now i [VTileEnd i] T (ended T) [].
  Proof.
    intros IT [N HW]. cbn in HW. destruct (x_phase T) eqn:EP; try contradiction. assert (HO : only c i (VTileEnd i) T) by only_tac EP.
    pose proof (ti_phase _ _ IT) as PI. unfold phase_inv in PI. rewrite EP in PI.
    apply (lift_phase c b now i (VTileEnd i) T (ended T) [] []); auto; try exact N; try (cbn; rewrite EP; congruence).
    - unfold phase_inv. cbn. now rewrite EP.
    - constructor; [|constructor|constructor]. intros t e [F1 F2] HI HW'. destruct (proj1 HO t e F1 HW') as [H|H]; [left; now left|]. right. destruct e; try contradiction; auto.
    - constructor.
  Qed.

  (** ** The start of a tile *)
  Lemma core_new_inv (kp : K * list cop) : core_inv (core_new kp).
  Proof. constructor; cbn; auto. - intros []; auto. - intros [|]; discriminate. Qed.
  Lemma keys_cores i n : NoDup (keys (map (fun k => start (VCore i (Z.of_nat k))) (seq 0 n))).
  Proof.
    assert (H : forall s m, keys (map (fun k => start (VCore i (Z.of_nat k))) (seq s m)) = map (fun k => VCore i (Z.of_nat k)) (seq s m)).
    { intros s m. revert s. induction m; intros s; [reflexivity|]. cbn. unfold keys in *. cbn. now rewrite IHm. }
    rewrite H. apply FinFun.Injective_map_NoDup; [|apply seq_NoDup]. intros a a' E. injection E as E. lia.
  Qed.
  Lemma tile_start_good b i (T : dtile) : tile_inv T -> is_new T = true -> tile_good b b i [VTile i] T (tile_start c b b i T).
  Proof.
    intros IT N. pose proof (ti_phase _ _ IT) as PI. unfold tile_start, phase_inv, is_new in *. destruct (x_phase T) eqn:EP; try discriminate. rewrite Z.eqb_refl. cbn [negb].
    destruct PI as (m & cs & pr & ->). clear EP N. cbn [tile_new x_ctl x_rt x_cores ctl_run rt_run ctl_new rt_new c_running u_running].
    set (d := MkCtl _ _ _ _ _ _ _ _ _ _ _ _). set (u := MkRt _ _ _ _ _ _). set (T0 := dt_rt _ _).
    assert (HT : exists ph cy l3, next_instr b b i T0 = (MkDTile d u (map core_new cs) pr ph cy false, l3) /\ phase_inv (MkDTile d u (map core_new cs) pr ph cy false) /\ ph <> TNew /\ ph <> TEmptied /\
             (exists z, l3 = [(0, prio_of z, z)] /\ ev_tile z = Some i /\ part_of z = POwn /\ tracked z = true /\ own_waits c b z (MkDTile d u (map core_new cs) pr ph cy false))).
    { unfold next_instr, T0. cbn. destruct pr as [|o pr].
      - eexists _, _, _. split; [reflexivity|]. split; [unfold phase_inv; cbn; split; intros []|]. split; [discriminate|]. split; [discriminate|]. exists (VTileEnd i). repeat split.
      - eexists _, _, _. split; [reflexivity|]. split; [unfold phase_inv; cbn; discriminate|]. split; [discriminate|]. split; [discriminate|]. exists (VOp i). repeat split. }
    destruct HT as (ph & cy & l3 & HN & PI & NN & NE & z & -> & Z1 & Z2 & Z3 & Z4). cbn [ctl_run rt_run]. rewrite HN. set (T' := MkDTile d u (map core_new cs) pr ph cy false) in *.
    assert (N' : is_new T' = false) by (unfold is_new; cbn; destruct ph; auto; contradiction).
    assert (OLD : forall t e, tile_waits b t e (tile_new m cs pr) -> part_of e = PTile).
    { intros t e. unfold DesWaitTile.tile_waits. destruct (part_of e); auto; intros HH; try contradiction; destruct HH as [HH _]; discriminate HH. }
    assert (NEW : forall z', In z' (map (fun k => start (VCore i (Z.of_nat k))) (seq 0 (length (map core_new cs))) ++ [start (VHandler i)] ++ [start (VSender i)] ++ [(0, prio_of z, z)]) ->
              ev_tile (snd z') = Some i /\ tile_waits b (b + fst (fst z')) (snd z') T' /\ snd (fst z') = prio_of (snd z') /\ part_of (snd z') <> PTile).
    { intros z' H. apply in_app_or in H. destruct H as [H|[<- |[<- |[<- |[]]]]].
      - apply in_map_iff in H. destruct H as (k & <- & H). apply in_seq in H. split; [reflexivity|]. split; [|split; [reflexivity|discriminate]]. unfold DesWaitTile.tile_waits. cbn [start snd fst part_of]. split; auto. split; [lia|].
        destruct (nth_error (map core_new cs) (Z.to_nat (Z.of_nat k))) as [x|] eqn:E.
        + exists x. split; auto. apply nth_error_In, in_map_iff in E. destruct E as (kp & <- & _). cbn. split; auto. lia.
        + apply nth_error_None in E. rewrite Nat2Z.id in E. lia.
      - cbn. repeat split; auto; discriminate.
      - cbn. repeat split; auto; discriminate.
      - cbn. rewrite Z.add_0_r. unfold DesWaitTile.tile_waits. rewrite Z2. repeat split; auto; discriminate. }
    constructor.
    - constructor; cbn; auto.
      + apply Forall_forall. intros x H. apply in_map_iff in H. destruct H as (kp & <- & _). apply core_new_inv.
      + constructor; cbn; auto. * constructor. * intros r []. 
      + constructor; cbn; auto. discriminate.
      + intros r [].
    - exact N'.
    - constructor.
      + intros t e HE HI HW. left. apply OLD in HW. destruct e; try discriminate HW. cbn in *. left. congruence.
      + apply Forall_forall. intros z' H. apply NEW in H. destruct H as (F1 & F2 & F3 & F4). repeat split; auto. intros _. right. intros t HW. apply F4. eapply OLD; eauto.
      + rewrite keys_app. apply nodup_app.
        * apply keys_cores.
        * assert (D : forall e', part_of e' <> POwn -> key z <> e') by (intros e' H <-; apply H; now rewrite key_part).
          replace (keys _) with [VHandler i; VSender i; key z] by (unfold keys; cbn; now rewrite Z3).
          constructor; [|constructor; [|constructor; [intros []|constructor]]].
          -- intros [H|[H|[]]]; [discriminate|]. revert H. apply D. discriminate.
          -- intros [H|[]]. revert H. apply D. discriminate.
        * intros a H1 H2. apply in_keys in H1, H2. destruct H1 as (z1 & H1 & _ & E1). destruct H2 as (z2 & H2 & _ & E2). apply in_map_iff in H1. destruct H1 as (k & <- & _). cbn in E1. subst a.
          destruct H2 as [<- |[<- |[<- |[]]]]; cbn in E2; try discriminate. destruct z; discriminate.
    - discriminate.
    - intros t e HE HI HW. exfalso. unfold DesWaitTile.tile_waits in HW. destruct e; try discriminate HI; cbn in HW; intuition discriminate.
    - intros _. right. apply in_or_app. right. now left.
    - intros _. right. apply in_or_app. right. right. now left.
    - discriminate.
    - intros p s H. contradiction.
  Qed.
End Stop.
