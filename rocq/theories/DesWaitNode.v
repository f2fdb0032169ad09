(** Which events the node waits for (continues DesWaitTile and DesWaitStop). *)
From Coq Require Import Permutation.
From Verif Require Import PyBase PyLemmas CoreModel DramModel DramProofs RouterModel SystemModel StatsProofs DesModel DesWait DesWaitCtl DesWaitTile DesWaitStop.

Definition st_dec (a b : st) : {a = b} + {a <> b}.
Proof. decide equality. Defined.
Definition ev_dec (a b : ev) : {a = b} + {a <> b}.
Proof. decide equality; try apply Z.eq_dec; apply st_dec. Defined.

Section Node.
  Context {K M : Type}.
  Variable P : machine K M.
  Variable c : sys_cfg.
  Notation dcore := (dcore K). Notation dctl := (dctl M). Notation dtile := (dtile K M). Notation dnode := (dnode K M).
  Notation tile_inv := (@tile_inv K M c). Notation tile_waits := (@tile_waits K M c). Notation tile_moves := (@tile_moves K M c). Notation tile_good := (@tile_good K M c).

  Definition node_waits (t : Z) (e : ev) (n : dnode) : Prop :=
    match ev_tile e with
    | Some i => exists T, the_tile n i = Some T /\ tile_waits (z_begin n) t e T
    | None => match e with
              | VMonitor => z_monitor n = false \/ t = z_next n
              | VMonitorInt => z_fin n <> FRunning
              | VAllTiles => z_fin n = FRunning /\ forallb x_ended (z_tiles n) = true
              | VNodeEnd => z_fin n = FNode
              | VRunEnd => z_fin n = FCond
              | _ => False
              end
    end.
  Record node_inv (n : dnode) : Prop := {
    ni_tiles : Forall tile_inv (z_tiles n);
    ni_number : Z.of_nat (length (z_tiles n)) = Z.max 0 (w_tiles (y_net c));
    ni_fin : z_fin n <> FRunning -> forallb x_ended (z_tiles n) = true }.
  (** Events that are in the queue at the current time. *)
  Definition due (n : dnode) (e : ev) : Prop :=
    match e with
    | VTile i => exists T, the_tile n i = Some T /\ is_new T = true
    | VHandler i => exists T, the_tile n i = Some T /\ is_new T = false /\ c_handler (x_ctl T) = HNew
    | VSender i => exists T, the_tile n i = Some T /\ is_new T = false /\ u_sender (x_rt T) = ZNew
    | VSendGot i => exists T p s, the_tile n i = Some T /\ u_sender (x_rt T) = ZGot p s
    | _ => False
    end.
  (** The send queue has been seen to be empty while the sender has not yet taken its packet. *)
  Definition emptied (n : dnode) (i : Z) : Prop := exists T p s, the_tile n i = Some T /\ x_phase T = TEmptied /\ u_sender (x_rt T) = ZGot p s.
  Record node_moves (now : Z) (fired : list ev) (n n' : dnode) (new : sched) : Prop := {
    nm_inv : node_inv n';
    nm_comp : comp (fun _ => True) (fun t e => node_waits t e n) (fun t e => node_waits t e n') now fired new;
    nm_imm : forall t e, immediate e = true -> node_waits t e n' -> node_waits t e n /\ ~ In e fired \/ urgent_new e fired new;
    nm_due : forall e, due n' e -> due n e /\ ~ In e fired \/ In (0, prio_of e, e) new /\ (forall i, e <> VTile i);
    nm_order : forall i, emptied n' i -> due n (VSendGot i) /\ ~ In (VSendGot i) fired }.
  Definition node_good (now : Z) (fired : list ev) (n : dnode) (r : dres dnode) : Prop :=
    match r with DGo n' new => node_moves now fired n n' new | DRaise _ => True | DStuck => False end.

  Lemma tile_put (n : dnode) i T T' j : the_tile n i = Some T -> the_tile (put_tile n i T') j = if j =? i then Some T' else the_tile n j.
  Proof.
    unfold the_tile. cbn. intros H. destruct (Z.ltb_spec i 0); [discriminate|]. destruct (Z.ltb_spec j 0).
    - destruct (Z.eqb_spec j i); [lia|reflexivity].
    - rewrite nth_error_upd. destruct (Nat.eqb_spec (Z.to_nat i) (Z.to_nat j)) as [E|E], (Z.eqb_spec j i) as [E'|E']; try lia; auto.
      rewrite <- E, H. reflexivity.
  Qed.
  Lemma tile_in (n : dnode) i T : the_tile n i = Some T -> In T (z_tiles n).
  Proof. unfold the_tile. destruct (i <? 0); [discriminate|]. apply nth_error_In. Qed.
  Lemma tile_is (n : dnode) i T : node_inv n -> the_tile n i = Some T -> tile_inv T.
  Proof. intros [H _ _] E. rewrite Forall_forall in H. eapply H, tile_in; eauto. Qed.
  Lemma tile_known (n : dnode) i : node_inv n -> 0 <= i < w_tiles (y_net c) -> exists T, the_tile n i = Some T.
  Proof.
    intros [_ H _] HI. unfold the_tile. destruct (Z.ltb_spec i 0); [lia|]. destruct (nth_error (z_tiles n) (Z.to_nat i)) eqn:E; [eauto|]. apply nth_error_None in E. lia.
  Qed.
  Lemma ended_upd (n : dnode) i T T' : the_tile n i = Some T -> (x_ended T = true -> x_ended T' = true) ->
    forallb x_ended (z_tiles n) = true -> forallb x_ended (z_tiles (put_tile n i T')) = true.
  Proof.
    intros Hx E H. rewrite forallb_forall in *. intros y Hy. cbn in Hy. apply In_nth_error in Hy as [k Hk]. rewrite nth_error_upd in Hk.
    unfold the_tile in Hx. destruct (i <? 0); [discriminate|]. destruct (Nat.eqb _ _) eqn:Ek.
    - apply Nat.eqb_eq in Ek. subst k. rewrite Hx in Hk. injection Hk as <-. apply E, H. eapply nth_error_In; eauto.
    - apply H. eapply nth_error_In; eauto.
  Qed.
  Lemma put_inv (n : dnode) i T T' : node_inv n -> the_tile n i = Some T -> tile_inv T' -> (x_ended T = true -> x_ended T' = true) -> node_inv (put_tile n i T').
  Proof.
    intros [I1 I2 I3] HT HI HE. constructor.
    - cbn. now apply Forall_upd.
    - cbn. now rewrite length_upd.
    - intros H. apply (ended_upd n i T T' HT HE). apply I3. exact H.
  Qed.

  Lemma imm_tile e : immediate e = true -> exists i, ev_tile e = Some i.
  Proof. destruct e; try discriminate; cbn; eauto. Qed.
  (** A change of one tile. *)
  Lemma lift_tile now fired (n : dnode) i T T' new : node_inv n -> the_tile n i = Some T -> tile_moves (z_begin n) now i fired T T' new ->
    Forall (fun f => ev_tile f = Some i) fired -> (is_new T = true -> In (VTile i) fired) -> node_moves now fired n (put_tile n i T') new.
  Proof.
    intros NI HT HM HF HV. pose proof HM as [I0 O0 [CK CN CU] X0 IM HH HS HG HO]. pose proof (fun j => tile_put n i T T' j HT) as TP.
    assert (OUT : forall e j, ev_tile e = Some j -> j <> i -> ~ In e fired).
    { intros e j E NE H. rewrite Forall_forall in HF. apply HF in H. congruence. }
    assert (SAME : forall t e, ev_tile e <> Some i -> node_waits t e n -> node_waits t e (put_tile n i T')).
    { intros t e NE HW. unfold node_waits in *. destruct (ev_tile e) as [j|] eqn:ET.
      - destruct HW as (U & HU & HW). exists U. rewrite TP. destruct (Z.eqb_spec j i); [congruence|]. auto.
      - destruct e; try contradiction; cbn [put_tile z_monitor z_next z_fin z_begin]; auto. split; [apply HW|]. apply (ended_upd n i T T'); auto. apply HW. }
    assert (BACK : forall t e j, ev_tile e = Some j -> j <> i -> node_waits t e (put_tile n i T') -> node_waits t e n).
    { intros t e j ET NE HW. unfold node_waits in *. rewrite ET in *. destruct HW as (U & HU & HW). rewrite TP in HU. destruct (Z.eqb_spec j i); [contradiction|]. eauto. }
    constructor.
    - now apply (put_inv n i T T').
    - constructor; auto.
      + intros t e _ HI HW. destruct (ev_tile e) as [j|] eqn:ET; [|right; apply SAME; congruence]. destruct (Z.eq_dec j i) as [-> |NE]; [|right; apply SAME; congruence].
        unfold node_waits in HW |- *. rewrite ET in *. destruct HW as (U & HU & HW). rewrite HT in HU. injection HU as <-. destruct (CK t e ET HI HW) as [H|H]; auto. right. exists T'. split; auto. rewrite TP, Z.eqb_refl. reflexivity.
      + eapply Forall_impl; [|exact CN]. cbn. intros z (F1 & F2 & F3 & F4). split; auto. split; [|split; auto].
        * unfold node_waits. rewrite F1. exists T'. split; auto. rewrite TP, Z.eqb_refl. reflexivity.
        * intros HTr. destruct (F4 HTr) as [H|H]; auto. right. intros t HW. unfold node_waits in HW. rewrite F1 in HW. destruct HW as (U & HU & HW). rewrite HT in HU. injection HU as <-. exact (H t HW).
    - intros t e HI HW. destruct (imm_tile e HI) as [j ET]. destruct (Z.eq_dec j i) as [-> |NE].
      + unfold node_waits in HW. rewrite ET in HW. destruct HW as (U & HU & HW). rewrite TP, Z.eqb_refl in HU. injection HU as <-. destruct (IM t e ET HI HW) as [[H1 H2]|H]; auto. left. split; auto. unfold node_waits. rewrite ET. eauto.
      + left. split; [|eapply OUT; eauto]. eapply BACK; eauto.
    - intros e HD. destruct e; try contradiction; cbn in HD |- *.
      + destruct HD as (U & HU & HD). rewrite TP in HU. destruct (Z.eqb_spec i0 i) as [-> |NE]; [congruence|]. left. split; [eauto 6|eapply OUT; [reflexivity|exact NE]].
      + destruct HD as (U & HU & HN & HD). rewrite TP in HU. destruct (Z.eqb_spec i0 i) as [-> |NE]; [|left; split; [eauto 6|eapply OUT; [reflexivity|exact NE]]].
        injection HU as <-. destruct (HH HD) as [(F1 & F2 & F3)|F]; [left; split; eauto|right; split; [exact F|discriminate]].
      + destruct HD as (U & HU & HN & HD). rewrite TP in HU. destruct (Z.eqb_spec i0 i) as [-> |NE]; [|left; split; [eauto 6|eapply OUT; [reflexivity|exact NE]]].
        injection HU as <-. destruct (HS HD) as [(F1 & F2 & F3)|F]; [left; split; eauto|right; split; [exact F|discriminate]].
      + destruct HD as (U & p & s & HU & HD). rewrite TP in HU. destruct (Z.eqb_spec i0 i) as [-> |NE]; [|left; split; [eauto 6|eapply OUT; [reflexivity|exact NE]]].
        injection HU as <-. destruct (HG p s HD) as [(F1 & F3)|F]; [left; split; eauto|right; split; [exact F|discriminate]].
    - intros j (U & p & s & HU & HP & HZ). rewrite TP in HU. destruct (Z.eqb_spec j i) as [-> |NE].
      + injection HU as <-. destruct (HO p s HP HZ) as (F1 & F2 & _). split; auto. cbn. eauto.
      + split; [cbn; eauto|]. apply (OUT _ j); auto.
  Qed.

  (** Two changes one after the other, without urgent events. *)
  Definition dull (e : ev) : bool := match e with VTaken _ | VArrived _ | VPopped _ | VReadEnd _ => true | _ => false end.
  Lemma node_trans now f1 f2 (n n1 n2 : dnode) l1 l2 : node_moves now f1 n n1 l1 -> node_moves now f2 n1 n2 l2 -> Forall (fun z => dull (snd z) = true) (l1 ++ l2) ->
    (forall z, In z l1 -> ~ In (snd z) f2) -> NoDup (map snd (l1 ++ l2)) -> node_moves now (f1 ++ f2) n n2 (l1 ++ l2).
  Proof.
    intros [I1 [K1 N1 U1] M1 D1 O1] [I2 [K2 N2 U2] M2 D2 O2] HD HX ND.
    assert (DK : forall z, In z (l1 ++ l2) -> key (snd z) = snd z /\ immediate (snd z) = false /\ tracked (snd z) = true /\ prio_of (snd z) = Normal).
    { intros z H. rewrite Forall_forall in HD. apply HD in H. destruct (snd z); try discriminate; auto. }
    assert (NU : forall e f l, immediate e = true -> incl l (l1 ++ l2) -> ~ urgent_new e f l).
    { intros e f l HI HL [(a & b & -> & _) _]. destruct (DK (start e)) as (_ & H & _); [apply HL, in_or_app; right; now left|]. cbn in H. congruence. }
    assert (L1 : incl l1 (l1 ++ l2)) by (apply incl_appl, incl_refl). assert (L2 : incl l2 (l1 ++ l2)) by (apply incl_appr, incl_refl).
    constructor; auto.
    - constructor.
      + intros t e _ HI HW. destruct (K1 t e I HI HW) as [H|H]; [left; apply in_or_app; auto|]. destruct (K2 t e I HI H) as [H'|H']; auto. left. apply in_or_app. auto.
      + apply Forall_app. split; apply Forall_forall; intros z H.
        * destruct (DK z) as (E1 & E2 & E3 & _); auto. rewrite Forall_forall in N1. destruct (N1 z H) as (_ & F2 & F3 & F4). split; auto. split; [|split; auto].
          -- destruct (K2 _ _ I E2 F2) as [H'|H']; auto. rewrite E1 in H'. contradiction (HX z H).
          -- intros HT. destruct (F4 HT); auto. left. apply in_or_app. auto.
        * destruct (DK z) as (E1 & E2 & E3 & _); auto. rewrite Forall_forall in N2. destruct (N2 z H) as (_ & F2 & F3 & F4). split; auto. split; [exact F2|split; [exact F3|]]. intros HT.
          destruct (F4 HT) as [F|F]; [left; apply in_or_app; auto|]. destruct (in_dec ev_dec (key (snd z)) f1) as [Y|Y]; [left; apply in_or_app; auto|].
          right. intros t HW. destruct (K1 t _ I E2 HW) as [H'|H']; auto. exact (F t H').
      + replace (keys (l1 ++ l2)) with (map snd (l1 ++ l2)); auto. unfold keys. revert DK. clear. induction (l1 ++ l2) as [|z l IH]; intros DK; [reflexivity|]. cbn.
        destruct (DK z) as (E1 & _ & E3 & _); [now left|]. rewrite E3. cbn. rewrite E1. f_equal. apply IH. intros y H. apply DK. now right.
    - intros t e HI HW. left. destruct (M2 t e HI HW) as [[F1 F2]|F]; [|exfalso; exact (NU _ _ _ HI L2 F)]. destruct (M1 t e HI F1) as [[G1 G2]|G]; [|exfalso; exact (NU _ _ _ HI L1 G)]. split; auto. intros H. apply in_app_or in H. tauto.
    - intros e H. destruct (D2 e H) as [[F1 F2]|[F F']]; [|right; split; auto; apply in_or_app; auto]. destruct (D1 e F1) as [[G1 G2]|[G G']]; [|right; split; auto; apply in_or_app; auto].
      left. split; auto. intros H'. apply in_app_or in H'. tauto.
    - intros i H. destruct (O2 i H) as [F1 F2]. destruct (D1 _ F1) as [[G1 G2]|[G _]].
      + split; auto. intros H'. apply in_app_or in H'. tauto.
      + exfalso. rewrite Forall_forall in HD. apply L1, HD in G. discriminate.
  Qed.
  Lemma node_refl now (n : dnode) : node_inv n -> node_moves now [] n n [].
  Proof. intros NI. constructor; auto. - now apply comp_same. - intros i (T & p & s & HT & _ & HS). split; auto. cbn. eauto. Qed.

  (** ** Receive buffers *)
  Definition all_old (n : dnode) : Prop := forall j T, the_tile n j = Some T -> is_new T = false.
  Lemma put_old (n : dnode) i T T' : all_old n -> the_tile n i = Some T -> is_new T' = false -> all_old (put_tile n i T').
  Proof. intros H HT HN j U HU. rewrite (tile_put n i T T' j HT) in HU. destruct (Z.eqb_spec j i); [congruence|]. eapply H; eauto. Qed.
  Lemma phase_alike (T : dtile) u' : is_new T = false -> phase_inv T -> u_running u' = u_running (x_rt T) -> u_queue u' = u_queue (x_rt T) -> u_event u' = u_event (x_rt T) -> u_sender u' = u_sender (x_rt T) ->
    phase_inv (dt_rt T u').
  Proof. intros N PI E1 E2 E3 E4. unfold phase_inv, is_new, sent_ok in *. cbn. rewrite E1, E2, E3, E4. destruct (x_phase T); try exact PI. discriminate. Qed.
  Lemma alike_tile b now i (T : dtile) u' : tile_inv T -> is_new T = false -> u_running u' = u_running (x_rt T) -> u_queue u' = u_queue (x_rt T) -> u_event u' = u_event (x_rt T) -> u_sender u' = u_sender (x_rt T) ->
    tile_moves b now i [] T (dt_rt T u') [].
  Proof.
    intros IT N E1 E2 E3 E4. apply like_tile; auto.
    - destruct (ti_rt _ _ IT) as [R1 R2 R3]. constructor; unfold under_way in *; rewrite ?E1, ?E3, ?E4; auto.
    - apply phase_alike; auto. apply IT.
  Qed.
  Lemma recv_put_spec now src dst (n : dnode) : node_inv n -> all_old n ->
    exists n' l, recv_put src dst n = DGo n' l /\ node_moves now [] n n' l /\ (l = [] \/ l = [soon (VTaken src)]) /\ z_begin n' = z_begin n /\
      forall j T, the_tile n j = Some T -> exists T', the_tile n' j = Some T' /\ is_new T' = false /\ x_phase T' = x_phase T /\ x_prog T' = x_prog T /\ x_ctl T' = x_ctl T /\ x_cores T' = x_cores T.
  Proof.
    intros NI AO. assert (SAME : exists n' l, DGo n [] = DGo n' l /\ node_moves now [] n n' l /\ (l = [] \/ l = [soon (VTaken src)]) /\ z_begin n' = z_begin n /\
      forall j T, the_tile n j = Some T -> exists T', the_tile n' j = Some T' /\ is_new T' = false /\ x_phase T' = x_phase T /\ x_prog T' = x_prog T /\ x_ctl T' = x_ctl T /\ x_cores T' = x_cores T).
    { exists n, []. split; auto. split; [now apply node_refl|]. split; auto. split; auto. intros j T H. exists T. repeat split; auto. eapply AO; eauto. }
    unfold recv_put. destruct (the_tile n src) as [T|] eqn:ET; [|exact SAME]. destruct (u_sender (x_rt T)) eqn:ES; try exact SAME. destruct (Z.eqb_spec (pk_dst p) dst) as [ED|]; cbn [negb]; [|exact SAME].
    pose proof (tile_is n src T NI ET) as IT. pose proof (AO _ _ ET) as N. set (T1 := dt_rt T _). set (n1 := put_tile n src T1). cbn zeta.
    assert (M1 : node_moves now [] n n1 [soon (VTaken src)]).
    { apply (lift_tile now [] n src T T1); auto; [|rewrite N; discriminate]. apply (lift_rt c (z_begin n) now src [] T _ [soon (VTaken src)] []); auto; [|intros e []|constructor].
      apply put_moves; auto. apply IT. }
    assert (NI1 : node_inv n1) by apply M1. assert (AO1 : all_old n1) by (apply (put_old n src T T1); auto).
    assert (KN : exists T', the_tile n1 dst = Some T').
    { apply tile_known; auto. destruct (ti_rt _ _ IT) as [R1 _ _]. unfold under_way in R1. rewrite ES in R1. destruct R1 as [R1 _]. unfold known_router in R1. subst dst. lia. }
    destruct KN as [T' ET']. rewrite ET'. destruct (buffer_of (x_rt T') src); [|exact SAME]. rewrite (AO1 _ _ ET'). set (T2 := dt_rt T' _). exists (put_tile n1 dst T2), [soon (VTaken src)]. split; [reflexivity|].
    pose proof (tile_is n1 dst T' NI1 ET') as IT'. pose proof (AO1 _ _ ET') as N'.
    assert (M2 : node_moves now [] n1 (put_tile n1 dst T2) []).
    { apply (lift_tile now [] n1 dst T' T2); auto; [|rewrite N'; discriminate]. now apply alike_tile. }
    split; [|split; [now right|]].
    - apply (node_trans now [] [] n n1 _ [soon (VTaken src)] [] M1 M2); repeat constructor; auto.
    - split; [reflexivity|]. intros j U HU. rewrite (tile_put n1 dst T' T2 j ET'). destruct (Z.eqb_spec j dst) as [-> |NE].
      + exists T2. split; auto. cbn. unfold n1 in ET'. rewrite (tile_put n src T T1 dst ET) in ET'. destruct (Z.eqb_spec dst src) as [E|E].
        * injection ET' as <-. assert (U = T) as -> by congruence. repeat split; auto.
        * assert (U = T') as -> by congruence. repeat split; auto.
      + unfold n1. rewrite (tile_put n src T T1 j ET). destruct (Z.eqb_spec j src) as [-> |NE'].
        * exists T1. assert (U = T) as -> by congruence. repeat split; auto.
        * exists U. repeat split; auto. eapply AO; eauto.
  Qed.
  Lemma popped_moves b now i (T : dtile) u' src got d : tile_inv T -> is_new T = false -> x_phase T = TReading src got -> u_running u' = u_running (x_rt T) -> u_queue u' = u_queue (x_rt T) -> u_event u' = u_event (x_rt T) ->
    u_sender u' = u_sender (x_rt T) -> tile_moves b now i [] T (dt_phase (dt_rt T u') (TPopped src got d)) [soon (VPopped i)].
  Proof.
    intros IT N EP E1 E2 E3 E4. pose proof (ti_phase _ _ IT) as PI. unfold phase_inv in PI. rewrite EP in PI. pose proof (ti_ended _ _ IT) as EE. rewrite EP in EE. specialize (EE ltac:(discriminate)).
    apply (lift_own c b now i [] T _ [] [] [soon (VPopped i)]); auto; try (now constructor); try apply IT.
    - intros id H. unfold asked in H. cbn in H. now rewrite EP in H.
    - intros e [].
    - constructor.
      + intros t e [F1 F2] HI HW. right. destruct e; try discriminate F2; cbn in HW |- *; try (rewrite EP in HW); try (exfalso; exact HW); auto. destruct HW as [HV HW]. split; auto.
        unfold asked in *. cbn. destruct (_ =? -1); auto. now rewrite EP in HW.
      + apply Forall_cons; [|constructor]. cbn. repeat split; auto. intros _. right. intros t HW. now rewrite EP in HW.
      + cbn. constructor; [intros []|constructor].
  Qed.
  Lemma recv_get_spec now src dst (n : dnode) : node_inv n -> all_old n ->
    exists n' l, recv_get src dst n = DGo n' l /\ node_moves now [] n n' l /\ (l = [] \/ l = [soon (VPopped dst)]) /\ z_begin n' = z_begin n /\
      forall j T, the_tile n j = Some T -> exists T', the_tile n' j = Some T' /\ is_new T' = false /\ u_sender (x_rt T') = u_sender (x_rt T).
  Proof.
    intros NI AO. assert (SAME : exists n' l, DGo n [] = DGo n' l /\ node_moves now [] n n' l /\ (l = [] \/ l = [soon (VPopped dst)]) /\ z_begin n' = z_begin n /\
      forall j T, the_tile n j = Some T -> exists T', the_tile n' j = Some T' /\ is_new T' = false /\ u_sender (x_rt T') = u_sender (x_rt T)).
    { exists n, []. split; auto. split; [now apply node_refl|]. split; auto. split; auto. intros j T H. exists T. repeat split; auto. eapply AO; eauto. }
    unfold recv_get. destruct (the_tile n dst) as [T|] eqn:ET; [|exact SAME]. destruct (x_phase T) eqn:EP; try exact SAME. destruct (negb _) eqn:EN; [exact SAME|]. assert (src0 = src) as -> by lia.
    destruct (buffer_of (x_rt T) src) as [|d r]; [exact SAME|]. set (T1 := dt_phase _ _). exists (put_tile n dst T1), [soon (VPopped dst)]. split; [reflexivity|].
    pose proof (tile_is n dst T NI ET) as IT. pose proof (AO _ _ ET) as N. split; [|split; [now right|split; [reflexivity|]]].
    - apply (lift_tile now [] n dst T T1); auto; [|rewrite N; discriminate]. now apply popped_moves.
    - intros j U HU. rewrite (tile_put n dst T T1 j ET). destruct (Z.eqb_spec j dst) as [-> |NE].
      + exists T1. assert (U = T) as -> by congruence. repeat split; auto.
      + exists U. repeat split; auto. eapply AO; eauto.
  Qed.

  Lemma waits_tile t e i (n : dnode) : ev_tile e = Some i -> node_waits t e n -> exists T, the_tile n i = Some T /\ tile_waits (z_begin n) t e T.
  Proof. intros E H. unfold node_waits in H. now rewrite E in H. Qed.
  Lemma on_offer_good now i (n : dnode) : node_inv n -> all_old n -> node_waits now (VOffer i) n -> node_good now [VOffer i] n (on_offer c i n).
  Proof.
    intros NI AO HW. destruct (waits_tile now (VOffer i) i n eq_refl HW) as (T & ET & [N HT]). unfold on_offer. rewrite ET. cbn in HT. destruct (u_sender (x_rt T)) eqn:ES; try contradiction. destruct (negb _); [exact I|].
    pose proof (tile_is n i T NI ET) as IT. set (T1 := dt_rt T _). set (n1 := put_tile n i T1).
    assert (M1 : node_moves now [VOffer i] n n1 []).
    { apply (lift_tile now [VOffer i] n i T T1); auto; [|rewrite N; discriminate]. apply (lift_rt c (z_begin n) now i [VOffer i] T _ [] []); auto; [|intros e [<- |[]]; reflexivity|constructor].
      apply offer_moves; auto. apply IT. }
    destruct (recv_put_spec now i (pk_dst p) n1) as (n2 & l & -> & M2 & HL & _); [apply M1|apply (put_old n i T T1); auto|].
    apply (node_trans now [VOffer i] [] n n1 n2 [] l M1 M2).
    - destruct HL as [-> | ->]; repeat constructor.
    - intros z [].
    - destruct HL as [-> | ->]; cbn; repeat constructor. intros [].
  Qed.
  Lemma on_read_good now i (n : dnode) : node_inv n -> all_old n -> node_waits now (VRead i) n -> node_good now [VRead i] n (on_read c i n).
  Proof.
    intros NI AO HW. destruct (waits_tile now (VRead i) i n eq_refl HW) as (T & ET & [N HT]). unfold on_read. rewrite ET. cbn in HT. destruct (x_phase T) eqn:EP; try contradiction.
    pose proof (tile_is n i T NI ET) as IT. pose proof (ti_phase _ _ IT) as PI. unfold phase_inv in PI. rewrite EP in PI. pose proof (proj2 PI I) as (a & g & w & v & r & EQ). rewrite EQ. destruct (negb _); [exact I|].
    pose proof (ti_ended _ _ IT) as EE. rewrite EP in EE. specialize (EE ltac:(discriminate)).
    set (T1 := dt_phase T _). set (n1 := put_tile n i T1).
    assert (M1 : node_moves now [VRead i] n n1 []).
    { apply (lift_tile now [VRead i] n i T T1); auto; [|rewrite N; discriminate]. apply (lift_phase c (z_begin n) now i (VRead i) T T1 [] []); auto.
      - intros id H. unfold asked in H. cbn in H. now rewrite EP in H.
      - constructor; [|constructor|constructor]. intros t e [F1 F2] HI HW'. destruct e; try discriminate F2; cbn in F1; injection F1 as ->; cbn in HW' |- *; try (rewrite EP in HW'); try (exfalso; exact HW'); auto.
        right. destruct HW' as [HV HW']. split; auto. unfold asked in *. cbn. destruct (_ =? -1); auto. now rewrite EP in HW'.
      - discriminate.
      - constructor. }
    destruct (recv_get_spec now g i n1) as (n2 & l & -> & M2 & HL & _); [apply M1|apply (put_old n i T T1); auto|].
    apply (node_trans now [VRead i] [] n n1 n2 [] l M1 M2).
    - destruct HL as [-> | ->]; repeat constructor.
    - intros z [].
    - destruct HL as [-> | ->]; cbn; repeat constructor. intros [].
  Qed.
  Lemma on_popped_good now i (n : dnode) : node_inv n -> all_old n -> node_waits now (VPopped i) n -> node_good now [VPopped i] n (on_popped i n).
  Proof.
    intros NI AO HW. destruct (waits_tile now (VPopped i) i n eq_refl HW) as (T & ET & [N HT]). unfold on_popped. rewrite ET. cbn in HT. destruct (x_phase T) eqn:EP; try contradiction.
    destruct (recv_put_spec now src i n NI AO) as (n1 & l & -> & M1 & HL & EB & HK). cbn [dbind]. destruct (HK i T ET) as (T1 & ET1 & N1 & EP1 & EQ1 & ED1 & EC1). unfold on_tile. rewrite ET1, N1. cbn [dmap].
    assert (NI1 : node_inv n1) by apply M1. pose proof (tile_is n1 i T1 NI1 ET1) as IT1. rewrite EP in EP1. set (T2 := dt_phase _ _).
    pose proof (ti_phase _ _ IT1) as PI. unfold phase_inv in PI. rewrite EP1 in PI. pose proof (ti_ended _ _ IT1) as EE. rewrite EP1 in EE. specialize (EE ltac:(discriminate)).
    assert (M2 : node_moves now [VPopped i] n1 (put_tile n1 i T2) [soon (VReadEnd i)]).
    { apply (lift_tile now [VPopped i] n1 i T1 T2); auto; [|rewrite N1; discriminate]. apply (phase_step c (z_begin n1) now i (VPopped i) T1 T2 0 (VReadEnd i)); auto; try discriminate.
      split.
      - intros t e F1 HW'. destruct e; cbn in F1, HW' |- *; try discriminate F1; auto; try (rewrite EP1 in HW'); try (exfalso; exact HW'); try (injection F1 as ->); auto.
        destruct HW' as [HV HW']. unfold asked in HW'. rewrite EP1 in HW'. destruct (Z.eqb_spec k (-1)); [contradiction HW'|auto].
      - intros id H. unfold asked in H. cbn in H. now rewrite EP1 in H. }
    change (node_moves now ([] ++ [VPopped i]) n (put_tile n1 i T2) (l ++ [soon (VReadEnd i)])). apply (node_trans now [] [VPopped i] n n1); auto.
    - destruct HL as [-> | ->]; repeat constructor.
    - destruct HL as [-> | ->]; [intros z []|]. intros z [<- |[]] [H|[]]. discriminate.
    - destruct HL as [-> | ->]; cbn; repeat constructor; cbn; intuition discriminate.
  Qed.
  Lemma on_taken_good now i (n : dnode) : node_inv n -> all_old n -> node_waits now (VTaken i) n -> node_good now [VTaken i] n (on_taken i n).
  Proof.
    intros NI AO HW. destruct (waits_tile now (VTaken i) i n eq_refl HW) as (T & ET & [N HT]). unfold on_taken. rewrite ET. cbn in HT. destruct (u_sender (x_rt T)) eqn:ES; try contradiction.
    destruct (recv_get_spec now i (pk_dst p) n NI AO) as (n1 & l & -> & M1 & HL & EB & HK). cbn [dbind]. destruct (HK i T ET) as (T1 & ET1 & N1 & ES1). rewrite ES in ES1.
    unfold on_tile. rewrite ET1, N1. cbn [dmap dbind]. set (T2 := dt_rt T1 _). set (n2 := put_tile n1 i T2).
    assert (NI1 : node_inv n1) by apply M1. pose proof (tile_is n1 i T1 NI1 ET1) as IT1.
    assert (AO1 : all_old n1).
    { intros j U HU. destruct (the_tile n j) as [V|] eqn:EV.
      - destruct (HK j V EV) as (V' & E & E' & _). congruence.
      - exfalso. unfold the_tile in EV, HU. destruct (j <? 0); [discriminate|]. apply nth_error_None in EV. assert (length (z_tiles n1) = length (z_tiles n)) by (pose proof (ni_number _ NI); pose proof (ni_number _ NI1); lia).
        rewrite <- H in EV. apply nth_error_None in EV. congruence. }
    assert (M2 : node_moves now [VTaken i] n1 n2 [soon (VArrived i)]).
    { apply (lift_tile now [VTaken i] n1 i T1 T2); auto; [|rewrite N1; discriminate]. apply (lift_rt c (z_begin n1) now i [VTaken i] T1 _ [soon (VArrived i)] []); auto; [|intros e [<- |[]]; reflexivity|constructor].
      apply taken_moves; auto. apply IT1. }
    assert (NI2 : node_inv n2) by apply M2. assert (AO2 : all_old n2) by (apply (put_old n1 i T1 T2); auto).
    assert (KN : exists T', the_tile n2 (pk_dst p) = Some T').
    { apply tile_known; auto. destruct (ti_rt _ _ IT1) as [R1 _ _]. unfold under_way in R1. rewrite ES1 in R1. destruct R1 as [R1 _]. unfold known_router in R1. lia. }
    destruct KN as [T' ET']. rewrite ET', (AO2 _ _ ET'). cbn [dmap dbind app]. set (T3 := dt_rt T' _).
    assert (M3 : node_moves now [] n2 (put_tile n2 (pk_dst p) T3) []).
    { apply (lift_tile now [] n2 (pk_dst p) T' T3); auto; [|rewrite (AO2 _ _ ET'); discriminate]. apply alike_tile; auto. - eapply tile_is; eauto. - eapply AO2; eauto. }
    pose proof (node_trans now [VTaken i] [] n1 n2 _ [soon (VArrived i)] [] M2 M3) as M23. cbn [app] in M23. specialize (M23 ltac:(repeat constructor) ltac:(intros z _ []) ltac:(repeat constructor; intros [])).
    change (node_moves now ([] ++ [VTaken i]) n (put_tile n2 (pk_dst p) T3) (l ++ [soon (VArrived i)])). apply (node_trans now [] [VTaken i] n n1); auto.
    - destruct HL as [-> | ->]; repeat constructor.
    - destruct HL as [-> | ->]; [intros z []|]. intros z [<- |[]] [H|[]]. discriminate.
    - destruct HL as [-> | ->]; cbn; repeat constructor; cbn; intuition discriminate.
  Qed.

  (** ** All events *)
  (** What the order of the queue excludes when event [h] is processed. *)
  Record quiet (h : ev) (n : dnode) : Prop := {
    qt_imm : forall t e, immediate e = true -> node_waits t e n -> e = h;
    qt_old : match h with VTile _ | VMonitor => True | _ => all_old n end;
    qt_fresh : prio_of h = Normal -> h <> VMonitor -> forall i, ~ due n (VHandler i) /\ ~ due n (VSender i);
    qt_sent : forall i, h = VEmpty i -> ~ due n (VSendGot i) }.

  Lemma on_tile_good now h i (n : dnode) f : node_inv n -> ev_tile h = Some i -> part_of h <> PTile -> node_waits now h n ->
    (forall T, the_tile n i = Some T -> tile_inv T -> is_new T = false -> tile_waits (z_begin n) now h T -> tile_good (z_begin n) now i [key h] T (f T)) ->
    node_good now [key h] n (on_tile n i f).
  Proof.
    intros NI ET NP HW HF. destruct (waits_tile now h i n ET HW) as (T & HT & HW'). unfold on_tile. rewrite HT. pose proof (tile_is n i T NI HT) as IT.
    assert (N : is_new T = false) by (unfold DesWaitTile.tile_waits in HW'; destruct (part_of h); try contradiction; apply HW'). rewrite N. specialize (HF T HT IT N HW').
    destruct (f T) as [T' new|e|]; cbn in *; auto. apply (lift_tile now [key h] n i T T'); auto; [constructor; [now rewrite key_tile|constructor]|congruence].
  Qed.
  Lemma on_core2_good now h i k (n : dnode) f : node_inv n -> ev_tile h = Some i -> part_of h = PCore k -> node_waits now h n ->
    (forall T x, tile_inv T -> is_new T = false -> 0 <= k -> nth_error (x_cores T) (Z.to_nat k) = Some x -> core_inv x -> core_waits (z_begin n) now h x ->
       tile_good (z_begin n) now i [key h] T (dmap (fun dx => dt_core (dt_ctl T (fst dx)) k (snd dx)) (f (x_ctl T) x))) ->
    node_good now [key h] n (on_core2 n i k f).
  Proof.
    intros NI ET EP HW HF. apply on_tile_good; auto; [congruence|]. intros T HT IT N HW'. unfold DesWaitTile.tile_waits in HW'. rewrite EP in HW'. destruct HW' as (_ & HK & x & EN & HX).
    destruct (Z.ltb_spec k 0); [lia|]. rewrite EN. apply HF; auto. pose proof (ti_cores _ _ IT) as F. rewrite Forall_forall in F. apply F. exact (nth_error_In _ _ EN).
  Qed.
  Lemma on_core_good now h i k (n : dnode) f : node_inv n -> ev_tile h = Some i -> part_of h = PCore k -> node_waits now h n -> key h = h ->
    (forall x, core_inv x -> core_waits (z_begin n) now h x -> core_good (z_begin n) now i k [h] x (f x)) -> node_good now [key h] n (on_core n i k f).
  Proof.
    intros NI ET EP HW EK HF. apply on_core2_good; auto. intros T x IT N HK EN CI HX. rewrite EK. apply (lift_core_good c (z_begin n) now i [h] T k x (f x)); auto. constructor; [|constructor]. destruct h; try discriminate EP; reflexivity.
  Qed.
  Lemma on_ctl_good now h i (n : dnode) f : node_inv n -> ev_tile h = Some i -> part_of h = PCtl -> node_waits now h n -> key h = h ->
    (forall T, the_tile n i = Some T -> is_new T = false -> ctl_inv (x_ctl T) -> ctl_waits c now h (x_ctl T) -> ctl_good c now i [h] (x_ctl T) (f (x_ctl T))) ->
    node_good now [key h] n (on_ctl n i f).
  Proof.
    intros NI ET EP HW EK HF. apply on_tile_good; auto; [congruence|]. intros T HT IT N HW'. rewrite EK. unfold DesWaitTile.tile_waits in HW'. rewrite EP in HW'. apply lift_ctl_good; auto.
    - apply HF; auto; [apply IT|apply HW'].
    - intros e [<- |[]]. apply ctl_ev_iff. auto.
  Qed.
  Lemma on_rt_good now h i (n : dnode) f : node_inv n -> ev_tile h = Some i -> part_of h = PRt -> node_waits now h n -> key h = h ->
    (forall T, the_tile n i = Some T -> is_new T = false -> rt_inv c (x_rt T) -> rt_waits c now h (x_rt T) -> rt_good c now i [h] (x_rt T) (f (x_rt T))) ->
    node_good now [key h] n (on_rt n i f).
  Proof.
    intros NI ET EP HW EK HF. apply on_tile_good; auto; [congruence|]. intros T HT IT N HW'. rewrite EK. unfold DesWaitTile.tile_waits in HW'. rewrite EP in HW'. apply lift_rt_good; auto.
    - apply HF; auto; [apply IT|apply HW'].
    - intros e [<- |[]]. apply rt_ev_iff. auto.
  Qed.
  Lemma quiet_starting h i (n : dnode) T : node_inv n -> quiet h n -> the_tile n i = Some T -> is_new T = false -> (forall id, h <> VThread i id) -> c_starting (x_ctl T) = [].
  Proof.
    intros NI Q HT N NE. pose proof (ci_starting _ (ti_ctl _ _ (tile_is n i T NI HT))) as S. destruct (c_starting (x_ctl T)) as [|r [|]] eqn:E; auto; [|contradiction].
    exfalso. apply (NE (q_id r)). symmetry. apply (qt_imm _ _ Q 0); auto. unfold node_waits. cbn. exists T. split; auto. split; auto. cbn. now rewrite E.
  Qed.
  Lemma node_step now fired (n n' : dnode) new : node_inv n' -> comp (fun _ => True) (fun t e => node_waits t e n) (fun t e => node_waits t e n') now fired new ->
    z_tiles n' = z_tiles n -> z_begin n' = z_begin n -> Forall (fun f => ev_tile f = None) fired -> node_moves now fired n n' new.
  Proof.
    intros NI CP ET EB HF. assert (TT : forall i, the_tile n' i = the_tile n i) by (intros; unfold the_tile; now rewrite ET).
    assert (OUT : forall e i, ev_tile e = Some i -> ~ In e fired) by (intros e i E H; rewrite Forall_forall in HF; apply HF in H; congruence).
    constructor; auto.
    - intros t e HI HW. destruct (imm_tile e HI) as [i E]. left. split; [|eapply OUT; eauto]. unfold node_waits in *. rewrite E in *. now rewrite TT, EB in HW.
    - intros e H. left. split.
      + unfold due in *. destruct e; auto; now rewrite TT in H.
      + destruct e; try contradiction; eapply OUT; reflexivity.
    - intros i (T & p & s & H1 & H2 & H3). rewrite TT in H1. split; [cbn; eauto|]. eapply OUT. reflexivity.
  Qed.
  Ltac node_comp := constructor;
    [ let t := fresh in let e := fresh in let HI := fresh in let HW := fresh in intros t e _ HI HW; destruct e; cbn in HW |- *; auto; try congruence; try (intuition congruence)
    | repeat (apply Forall_cons || apply Forall_nil); cbn; repeat split; auto; try congruence; try lia; try (intros _; right; intros ? ?; intuition congruence)
    | repeat constructor; cbn; intuition discriminate ].
  Lemma tile_end_good now i (n : dnode) : node_inv n -> node_waits now (VTileEnd i) n -> node_good now [VTileEnd i] n (tile_end i n).
  Proof.
    intros NI HW. destruct (waits_tile now (VTileEnd i) i n eq_refl HW) as (T & HT & HW'). pose proof (tile_is n i T NI HT) as IT. pose proof (ended_moves c (z_begin n) now i T IT HW') as HM. destruct HW' as [N HW'].
    unfold tile_end, on_tile. rewrite HT, N. cbn in HW'. destruct (x_phase T) eqn:EP; try contradiction. cbn [dmap dbind]. fold (ended T) in *. rewrite <- EP. fold (ended T).
    assert (M1 : node_moves now [VTileEnd i] n (put_tile n i (ended T)) []) by (apply (lift_tile now [VTileEnd i] n i T (ended T)); auto; rewrite N; discriminate).
    assert (NE : forallb x_ended (z_tiles n) = false).
    { destruct (forallb x_ended (z_tiles n)) eqn:E; auto. rewrite forallb_forall in E. rewrite (E T (tile_in n i T HT)) in HW'. discriminate. }
    assert (FR : z_fin n = FRunning).
    { destruct (z_fin n) eqn:E; auto; exfalso; assert (z_fin n <> FRunning) as H by congruence; apply (ni_fin _ NI) in H; congruence. }
    destruct (forallb x_ended (z_tiles (put_tile n i (ended T)))) eqn:EA; cbn [app]; [|exact M1].
    destruct M1 as [I1 [K1 N1 U1] IM1 D1 O1]. constructor; auto.
    - constructor; auto.
      + apply Forall_cons; [|constructor]. cbn. repeat split; auto. intros _. right. intros t [_ H]. congruence.
      + cbn. constructor; [intros []|constructor].
    - intros t e HI HW2. destruct (IM1 t e HI HW2) as [H|[(l1 & l2 & H & _) _]]; auto. destruct l1; discriminate H.
    - intros e H. destruct (D1 e H) as [H'|[[] _]]. auto.
  Qed.

  Theorem fire_good now h (n : dnode) : node_inv n -> node_waits now h n -> quiet h n -> node_good now [key h] n (fire P c now h n).
  Proof.
    intros NI HW Q. destruct h; cbn [fire].
    - (* VMonitor *) cbn in HW. unfold on_monitor. destruct (z_monitor n) eqn:EM; cbn [negb].
      + destruct HW as [HW|HW]; [discriminate|]. subst now. rewrite Z.eqb_refl. cbn [negb]. apply node_step; auto.
        * destruct NI. constructor; auto.
        * node_comp.
      + apply node_step; auto. apply comp_same. auto.
    - (* VMonitorInt *) cbn in HW. unfold monitor_int. assert (E : exists n', (match z_fin n with FRunning => DStuck | _ => DGo (MkDNode (z_tiles n) (z_begin n) (z_next n) (z_busy n) false (z_fin n)) [] end) = DGo n' [] /\ n' = MkDNode (z_tiles n) (z_begin n) (z_next n) (z_busy n) false (z_fin n)).
      { destruct (z_fin n); try contradiction; eauto. }
      destruct E as (n' & -> & ->). apply node_step; auto; [|node_comp]. destruct NI. constructor; auto.
    - (* VTile *) destruct (waits_tile now (VTile i) i n eq_refl HW) as (T & HT & [N HB]). pose proof (tile_is n i T NI HT) as IT. unfold start_tile. rewrite HT. subst now. pose proof (tile_start_good c (z_begin n) i T IT N) as HM.
      destruct (tile_start c (z_begin n) (z_begin n) i T) as [T' new|e|]; cbn in *; auto. apply (lift_tile _ _ n i T T'); auto. intros _. now left.
    - apply (on_core_good now (VCore i k)); auto. intros x CI HX. now apply core_start_good.
    - apply (on_core_good now (VStage i k s)); auto. intros x CI HX. now apply stage_start_good.
    - apply (on_core_good now (VPipe i k)); auto. intros x CI HX. now apply pipe_start_good.
    - apply (on_core_good now (VPut i k s)); auto. intros x CI HX. now apply on_put_good.
    - apply (on_core2_good now (VGot i k s)); auto. intros T x IT N HK EN CI HX. apply on_got_good; auto.
    - apply (on_core_good now (VTime i k s)); auto. intros x CI HX. now apply on_time_good.
    - apply (on_core_good now (VLoadNew i k)); auto. intros x CI HX. now apply load_new_good.
    - apply (on_core_good now (VLoadTime i k)); auto. intros x CI HX. now apply load_time_good.
    - apply (on_core_good now (VLoaded i k)); auto. intros x CI HX. now apply loaded_good.
    - apply (on_core_good now (VStoreNew i k)); auto. intros x CI HX. now apply store_new_good.
    - apply (on_core2_good now (VStoreTime i k)); auto. intros T x IT N HK EN CI HX. apply store_time_good; auto.
    - apply (on_core_good now (VStored i k)); auto. intros x CI HX. now apply stored_good.
    - apply (on_core_good now (VStageDone i k s)); auto. intros x CI HX. now apply stage_done_good.
    - apply (on_core_good now (VPipeDone i k)); auto. intros x CI HX. now apply pipe_done_good.
    - apply (on_tile_good now (VCoreEnd i k)); auto; try discriminate. intros T HT IT N [_ (HK & x & EN & HX)]. destruct (Z.ltb_spec k 0); [lia|]. eapply core_end_good; eauto.
    - apply (on_ctl_good now (VHandler i)); auto. intros. now apply handler_start_good.
    - apply (on_ctl_good now (VReqPut i)); auto. intros. apply req_get_moves; auto. repeat constructor.
    - apply (on_ctl_good now (VReqGot i)); auto. intros T HT N CI HX. apply on_req_good; auto.
      + intros E. destruct (c_handler (x_ctl T)) eqn:EH; auto. assert (VHandlerInt i = VReqGot i); [|discriminate]. apply (qt_imm _ _ Q 0); auto. unfold node_waits. cbn. exists T. split; auto. split; auto. cbn. now rewrite EH.
      + apply (quiet_starting (VReqGot i) i n); auto. discriminate.
    - apply (on_ctl_good now (VHandlerInt i)); auto. intros T HT N CI HX. apply handler_int_good; auto. apply (quiet_starting (VHandlerInt i) i n); auto. discriminate.
    - apply (on_ctl_good now (VThread i id)); auto. intros. now apply thread_start_good.
    - apply (on_ctl_good now (VGrant i)); auto. intros. now apply on_grant_good.
    - apply (on_tile_good now (VThreadTime i)); auto; try discriminate. intros. now apply thread_end_good.
    - apply (on_ctl_good now (VRelease i)); auto. intros. apply bus_give_moves; auto. repeat constructor.
    - (* VDone *) destruct (Z.eqb_spec k (-1)) as [-> |NK].
      + apply (on_tile_good now (VDone i (-1) id)); auto; try discriminate. intros. now apply tile_done_good.
      + apply (on_tile_good now (VDone i k id)); auto; try discriminate. intros T HT IT N HX. destruct (core_done_good c (z_begin n) now i k id T NK IT HX) as (x & EN & HK & HG). destruct (Z.ltb_spec k 0); [lia|]. rewrite EN. exact HG.
    - apply (on_rt_good now (VSender i)); auto. intros. now apply sender_start_good.
    - apply (on_rt_good now (VSendPut i)); auto. intros T HT N RI HX. apply send_get_moves; auto.
      intros E1 E2. assert (VSenderInt i = VSendPut i); [|discriminate]. apply (qt_imm _ _ Q 0); auto. unfold node_waits. cbn. exists T. repeat split; auto.
    - apply (on_rt_good now (VSendGot i)); auto. intros. now apply on_send_good.
    - apply (on_rt_good now (VTravel i)); auto. intros. now apply on_travel_good.
    - apply on_offer_good; auto. exact (qt_old _ _ Q).
    - apply on_taken_good; auto. exact (qt_old _ _ Q).
    - apply (on_tile_good now (VArrived i)); auto; try discriminate. intros T HT IT N [_ HX]. pose proof (on_arrived_good c now i (x_rt T) (ti_rt _ _ IT) HX) as HG. destruct (on_arrived now i (x_rt T)) as [u' new|e|]; cbn in *; auto.
      destruct HG as (m & l & -> & HG). apply (lift_rt c (z_begin n) now i [VArrived i] T u' l [soon (VSent i m)]); auto; try (intros e [<- |[]]; reflexivity). apply Forall_cons; [eauto|constructor].
    - apply (on_tile_good now (VSent i number)); auto; try discriminate. intros. now apply on_sent_good.
    - apply (on_rt_good now (VSenderInt i)); auto. intros. now apply sender_int_good.
    - apply (on_tile_good now (VOp i)); auto; try discriminate. intros. now apply on_op_good.
    - apply (on_tile_good now (VOpEnd i)); auto; try discriminate. intros. now apply on_op_end_good.
    - now apply tile_end_good.
    - apply (on_tile_good now (VAdd i)); auto; try discriminate. intros. now apply on_add_good.
    - apply (on_tile_good now (VAddTime i)); auto; try discriminate. intros. now apply on_add_time_good.
    - apply (on_tile_good now (VAdded i)); auto; try discriminate. intros. now apply on_added_good.
    - apply on_read_good; auto. exact (qt_old _ _ Q).
    - apply on_popped_good; auto. exact (qt_old _ _ Q).
    - apply (on_tile_good now (VReadEnd i)); auto; try discriminate. intros. now apply on_read_end_good.
    - apply (on_tile_good now (VAllCores i)); auto; try discriminate. intros. now apply on_all_cores_good.
    - apply (on_tile_good now (VStop i)); auto; try discriminate. intros. now apply on_stop_good.
    - apply (on_tile_good now (VPoll i)); auto; try discriminate. intros. now apply on_poll_good.
    - apply (on_tile_good now (VPollTime i)); auto; try discriminate. intros. now apply on_poll_time_good.
    - apply (on_tile_good now (VEmpty i)); auto; try discriminate. intros T HT IT N HX. apply on_empty_good; auto.
      + intros E. apply (proj2 (qt_fresh _ _ Q eq_refl ltac:(discriminate) i)). cbn. eauto.
      + intros p s E. apply (qt_sent _ _ Q i eq_refl). cbn. eauto.
    - apply (on_tile_good now (VStopped i)); auto; try discriminate. intros T HT IT N HX. apply on_stopped_good; auto.
      intros E. apply (proj1 (qt_fresh _ _ Q eq_refl ltac:(discriminate) i)). cbn. eauto.
    - (* VAllTiles *) cbn in HW. destruct HW as [HF HE]. unfold all_tiles. rewrite HF, HE. apply node_step; auto; [|node_comp]. destruct NI. constructor; auto.
    - cbn in HW. unfold node_end. rewrite HW. apply node_step; auto; [|node_comp]. destruct NI as [A B C]. constructor; auto. intros _. apply C. congruence.
    - cbn in HW. unfold run_end. rewrite HW. apply node_step; auto; [|node_comp]. destruct NI as [A B C]. constructor; auto. intros _. apply C. congruence.
  Qed.
End Node.
