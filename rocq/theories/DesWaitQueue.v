(** In the queue of a reachable state there are only events that are waited for. *)
From Coq Require Import Permutation Sorting.Sorted.
From Verif Require Import PyBase PyLemmas CoreModel DramModel DramProofs RouterModel SystemModel StatsProofs DesModel DesQueue DesWait DesWaitCtl DesWaitTile DesWaitStop DesWaitNode.

(** ** Insertion *)
Definition ordered (q : list (entry ev)) : Prop := StronglySorted (fun a b => sooner b a = false) q.
Definition at_time (now : Z) (z : Z * prio * ev) : entry ev := (now + fst (fst z), snd (fst z), snd z).
Lemma schedule_cons now z (l : sched) (q : list (entry ev)) : schedule now (z :: l) q = schedule now l (insert (at_time now z) q).
Proof. reflexivity. Qed.
Lemma sooner_trans (x a b : entry ev) : sooner x a = true -> sooner b a = false -> sooner x b = true.
Proof. destruct x as [[tx [|]] ex], a as [[ta [|]] ea], b as [[tb [|]] eb]; unfold sooner; cbn; lia. Qed.
Lemma not_sooner_trans (x a b : entry ev) : sooner b a = false -> sooner x b = false -> sooner x a = false.
Proof. destruct x as [[tx [|]] ex], a as [[ta [|]] ea], b as [[tb [|]] eb]; unfold sooner; cbn; lia. Qed.
Lemma sooner_asym (x a : entry ev) : sooner x a = true -> sooner a x = false.
Proof. destruct x as [[tx [|]] ex], a as [[ta [|]] ea]; unfold sooner; cbn; lia. Qed.
Lemma insert_ordered x q : ordered q -> ordered (insert x q).
Proof.
  induction q as [|a q IH]; intros H; cbn; [repeat constructor|]. inversion H as [|? ? H1 H2]; subst. destruct (sooner x a) eqn:E.
  - constructor; [exact H|]. constructor; [now apply sooner_asym|]. eapply Forall_impl; [|exact H2]. cbn. intros b Hb. apply sooner_asym. eapply sooner_trans; eauto.
  - constructor; [now apply IH|]. apply Forall_forall. intros b Hb. apply insert_in in Hb as [-> |Hb]; [exact E|]. rewrite Forall_forall in H2. auto.
Qed.
Lemma schedule_ordered now (l : sched) q : ordered q -> ordered (schedule now l q).
Proof. revert q. induction l as [|z l IH]; intros q H; [exact H|]. rewrite schedule_cons. apply IH. now apply insert_ordered. Qed.
Lemma insert_app x (p r : list (entry ev)) : Forall (fun a => sooner x a = false) p -> insert x (p ++ r) = p ++ insert x r.
Proof. induction 1 as [|a p H _ IH]; [reflexivity|]. cbn. rewrite H, IH. reflexivity. Qed.
Lemma insert_perm x (q : list (entry ev)) : Permutation (insert x q) (x :: q).
Proof. induction q as [|a q IH]; cbn; [constructor; constructor|]. destruct (sooner x a); [reflexivity|]. rewrite IH. constructor. Qed.
Lemma schedule_perm now (l : sched) (q : list (entry ev)) : Permutation (schedule now l q) (map (at_time now) l ++ q).
Proof.
  revert q. induction l as [|z l IH]; intros q; [reflexivity|]. rewrite schedule_cons, IH, insert_perm. cbn. symmetry. apply Permutation_middle.
Qed.
Lemma schedule_prefix now (l : sched) (p r : list (entry ev)) : Forall (fun a => Forall (fun z => sooner (at_time now z) a = false) l) p -> exists r', schedule now l (p ++ r) = p ++ r'.
Proof.
  revert r. induction l as [|z l IH]; intros r H; [exists r; reflexivity|]. rewrite schedule_cons, insert_app.
  - apply IH. eapply Forall_impl; [|exact H]. cbn. intros a Ha. now inversion Ha.
  - eapply Forall_impl; [|exact H]. cbn. intros a Ha. now inversion Ha.
Qed.
Lemma insert_after x (p : list (entry ev)) g r e : ordered (p ++ g :: r) -> Forall (fun a => e_ev a <> e) p -> (e_ev x = e -> sooner x g = false) ->
  exists p' r', insert x (p ++ g :: r) = p' ++ g :: r' /\ Forall (fun a => e_ev a <> e) p'.
Proof.
  intros HO HP HX. induction p as [|a p IH]; cbn.
  - destruct (sooner x g) eqn:E.
    + exists [x], r. split; [reflexivity|]. constructor; [|constructor]. intros H. specialize (HX H). discriminate.
    + exists [], (insert x r). split; [reflexivity|constructor].
  - inversion HO as [|? ? H1 H2]; subst. inversion HP as [|? ? H3 H4]; subst. destruct (sooner x a) eqn:E.
    + exists (x :: a :: p), r. split; [reflexivity|]. constructor; [|exact HP]. intros H. specialize (HX H).
      rewrite Forall_forall in H2. assert (sooner g a = false) by (apply H2, in_or_app; right; now left). assert (sooner x g = true) by (eapply sooner_trans; eauto). congruence.
    + destruct (IH H1 H4) as (p' & r' & -> & HP'). exists (a :: p'), r'. split; [reflexivity|]. constructor; auto.
Qed.
Lemma schedule_behind now (l : sched) (p : list (entry ev)) g r e : ordered (p ++ g :: r) -> Forall (fun a => e_ev a <> e) p -> (forall z, In z l -> snd z = e -> sooner (at_time now z) g = false) ->
  exists p' r', schedule now l (p ++ g :: r) = p' ++ g :: r' /\ Forall (fun a => e_ev a <> e) p'.
Proof.
  revert p r. induction l as [|z l IH]; intros p r HO HP HL; [exists p, r; auto|]. rewrite schedule_cons.
  destruct (insert_after (at_time now z) p g r e HO HP) as (p' & r' & E & HP'); [intros HX; apply (HL z); [now left|exact HX]|]. pose proof (insert_ordered (at_time now z) _ HO) as HO'. rewrite E in *. apply IH; auto. intros z' H. apply HL. now right.
Qed.
Lemma insert_first x (q : list (entry ev)) : Forall (fun a => sooner x a = true) q -> insert x q = x :: q.
Proof. intros H. destruct q as [|a q]; [reflexivity|]. cbn. inversion H as [|? ? H1 _]; subst. now rewrite H1. Qed.
Lemma insert_last x (q : list (entry ev)) : Forall (fun a => sooner x a = false) q -> insert x q = q ++ [x].
Proof. intros H. rewrite <- (app_nil_r q) at 1. rewrite insert_app; auto. Qed.
Lemma schedule_head now e (l1 l2 : sched) (q : list (entry ev)) : Forall (fun z => snd (fst z) = Normal) (l1 ++ l2) -> Forall (fun z => 0 <= fst (fst z)) (l1 ++ l2) ->
  Forall (fun a => now < e_time a \/ now = e_time a /\ e_prio a = Normal) q ->
  exists q', schedule now (l1 ++ start e :: l2) q = (now, Urgent, e) :: q'.
Proof.
  intros HN HT HQ. replace (schedule now (l1 ++ start e :: l2) q) with (schedule now l2 (insert (now + 0, Urgent, e) (schedule now l1 q))) by (unfold schedule; rewrite fold_left_app; reflexivity).
  apply Forall_app in HN as [N1 N2]. apply Forall_app in HT as [T1 T2]. rewrite Z.add_0_r. rewrite insert_first.
  - apply (schedule_prefix now l2 [(now, Urgent, e)]). constructor; [|constructor]. apply Forall_forall. intros [[d p] f] H. rewrite Forall_forall in N2, T2. specialize (N2 _ H). specialize (T2 _ H). cbn in *. subst p. unfold sooner, at_time. cbn. lia.
  - apply Forall_forall. intros a H. apply schedule_in in H as [H|(d & p & f & H & ->)].
    + rewrite Forall_forall in HQ. apply HQ in H. destruct a as [[ta pa] ea]. unfold sooner. cbn in *. destruct H as [H|[H ->]]; cbn; lia.
    + rewrite Forall_forall in N1, T1. specialize (N1 _ H). specialize (T1 _ H). cbn in *. subst p. unfold sooner. cbn. lia.
Qed.
Definition qkeys (q : list (entry ev)) : list ev := map key (filter tracked (map e_ev q)).
Lemma qkeys_perm q q' : Permutation q q' -> Permutation (qkeys q) (qkeys q').
Proof. intros H. apply keys_perm. exact H. Qed.
Lemma qkeys_app q q' : qkeys (q ++ q') = qkeys q ++ qkeys q'.
Proof. apply keys_app. Qed.
Lemma qkeys_new now l : qkeys (map (at_time now) l) = keys l.
Proof. unfold qkeys, keys. rewrite map_map. reflexivity. Qed.
Lemma key_tracked e : tracked (key e) = tracked e.
Proof. destruct e; reflexivity. Qed.

Section Queue.
  Context {K M : Type}.
  Variable P : machine K M.
  Variable c : sys_cfg.
  Notation dcore := (dcore K). Notation dctl := (dctl M). Notation dtile := (dtile K M). Notation dnode := (dnode K M).
  Notation node_inv := (@node_inv K M c). Notation node_waits := (@node_waits K M c).

  (** The invariant of the queue [q] at time [now] of node [n]. *)
  Record queue_ok (now : Z) (q : list (entry ev)) (n : dnode) : Prop := {
    q_node : node_inv n;
    q_ordered : ordered q;
    q_after : Forall (fun x => now <= e_time x) q;
    q_waits : Forall (fun x => node_waits (e_time x) (e_ev x) n) q;
    q_nodup : NoDup (qkeys q);
    q_prio : Forall (fun x => e_prio x = prio_of (e_ev x) \/ e_ev x = VMonitor) q;
    q_imm : forall t e, immediate e = true -> node_waits t e n -> exists q', q = (now, Urgent, e) :: q';
    q_due : forall e, due n e -> In (now, prio_of e, e) q;
    q_young : exists p r, q = p ++ r /\ Forall (fun x => e_time x = now /\ e_prio x = Urgent /\ (e_ev x = VMonitor \/ exists i, e_ev x = VTile i)) p /\
              forall i, due n (VTile i) -> In (VTile i) (map e_ev p);
    q_order : forall i, due n (VSendGot i) -> exists p r, q = p ++ (now, Normal, VSendGot i) :: r /\ Forall (fun x => e_ev x <> VEmpty i) p }.

  Lemma waits_key t e e' (n : dnode) : key e = key e' -> node_waits t e n -> node_waits t e' n.
  Proof.
    intros H. destruct (ev_dec e e') as [-> |NE]; [auto|]. destruct e, e'; cbn in H; try congruence; injection H as ->; auto.
  Qed.
  Lemma head_least x q y : ordered (x :: q) -> In y q -> sooner y x = false.
  Proof. intros H HI. inversion H as [|? ? _ H2]; subst. rewrite Forall_forall in H2. auto. Qed.

  Lemma queue_quiet now x q (n : dnode) : queue_ok now (x :: q) n -> quiet c (e_ev x) n.
  Proof.
    intros [NI OR AF WA ND PR IM DU (p & r & EQ & YP & YD) GO]. constructor.
    - intros t e H1 H2. destruct (IM t e H1 H2) as [q' H]. injection H as -> _. reflexivity.
    - destruct p as [|y p].
      + assert (AO : all_old n).
        { intros j T HT. destruct (is_new T) eqn:E; [|reflexivity]. exfalso. apply (YD j). cbn. eauto. }
        destruct (e_ev x); auto.
      + injection EQ as <- _. apply Forall_inv in YP. destruct YP as (_ & _ & [H|[i H]]); rewrite H; exact I.
    - intros HP HM. assert (PX : e_prio x = Normal) by (inversion PR as [|? ? [H|H] _]; congruence).
      assert (TX : now <= e_time x) by now inversion AF.
      assert (D : forall e, prio_of e = Urgent -> ~ due n e).
      { intros e HE HD. apply DU in HD. rewrite HE in HD. destruct HD as [-> |HD]; [discriminate|]. apply (head_least _ _ _ OR) in HD. destruct x as [[tx px] ex]. cbn in *. subst px. unfold sooner in HD. cbn in HD. lia. }
      intros i. split; apply D; reflexivity.
    - intros i HE HD. destruct (GO i HD) as (p' & r' & E & HP). destruct p' as [|y p']; cbn in E; injection E as -> _; [discriminate|]. inversion HP; subst. congruence.
  Qed.

  Lemma tile_stays now fired n n' new i T : node_inv n -> node_moves c now fired n n' new -> the_tile n i = Some T -> is_new T = false -> exists T', the_tile n' i = Some T' /\ is_new T' = false.
  Proof.
    intros NI HM HT HN. pose proof (nm_inv _ _ _ _ _ _ HM) as NI'. assert (L : length (z_tiles n') = length (z_tiles n)) by (destruct NI, NI'; lia).
    unfold the_tile in HT |- *. destruct (i <? 0) eqn:EI; [discriminate|]. destruct (nth_error (z_tiles n') (Z.to_nat i)) as [T'|] eqn:E.
    - exists T'. split; [reflexivity|]. destruct (is_new T') eqn:E2; [|reflexivity]. exfalso. destruct (nm_due _ _ _ _ _ _ HM (VTile i)) as [[(U & HU & HD) _]|[_ H]].
      + exists T'. unfold the_tile. rewrite EI. auto.
      + unfold the_tile in HU. rewrite EI, HT in HU. injection HU as <-. congruence.
      + now apply (H i).
    - apply nth_error_None in E. assert (nth_error (z_tiles n) (Z.to_nat i) <> None) as H by congruence. apply nth_error_Some in H. lia.
  Qed.
  (** An untracked event goes on being waited for. *)
  Lemma untracked_stays now h t n n' new : node_inv n -> tracked h = false -> fire P c now h n = DGo n' new -> node_moves c now [key h] n n' new -> node_waits t h n -> node_waits t h n'.
  Proof.
    intros NI HT HF HM HW. destruct h; try discriminate.
    - destruct s; try discriminate. cbn [fire] in HF. unfold on_core, on_core2, on_tile in HF. unfold node_waits in HW |- *. cbn [ev_tile] in *. destruct HW as (T & E & N & HK & x & EX & _).
      cbn [part_of] in *. rewrite E, N in HF. destruct (Z.ltb_spec k 0); [lia|]. cbn [dmap] in HF. rewrite EX in HF. destruct (on_put i k SF x) as [x' l| |]; try discriminate. cbn in HF. injection HF as <- _.
      eexists. split; [rewrite (tile_put n i T _ i E), Z.eqb_refl; reflexivity|]. unfold tile_waits. cbn [part_of]. split; [exact N|]. split; [exact HK|]. exists x'. split; [|exact I]. cbn. rewrite nth_error_upd, Nat.eqb_refl, EX. reflexivity.
    - destruct HW as (T & E & N & _). destruct (tile_stays _ _ _ _ _ _ _ NI HM E N) as (T' & E' & N'). exists T'. split; [exact E'|]. split; [exact N'|exact I].
    - destruct HW as (T & E & N & _). destruct (tile_stays _ _ _ _ _ _ _ NI HM E N) as (T' & E' & N'). exists T'. split; [exact E'|]. split; [exact N'|exact I].
    - destruct HW as (T & E & N & _). destruct (tile_stays _ _ _ _ _ _ _ NI HM E N) as (T' & E' & N'). exists T'. split; [exact E'|]. split; [exact N'|exact I].
    - destruct HW as (T & E & N & _). destruct (tile_stays _ _ _ _ _ _ _ NI HM E N) as (T' & E' & N'). exists T'. split; [exact E'|]. split; [exact N'|exact I].
  Qed.
  Lemma imm_key e : immediate e = true -> key e = e /\ tracked e = true.
  Proof. destruct e; try discriminate; auto. Qed.
  Lemma qkeys_in q y : In y q -> tracked (e_ev y) = true -> In (key (e_ev y)) (qkeys q).
  Proof. intros H1 H2. apply in_map, filter_In. split; [|exact H2]. now apply in_map. Qed.
  Lemma in_qkeys q k : In k (qkeys q) -> exists y, In y q /\ tracked (e_ev y) = true /\ k = key (e_ev y).
  Proof. intros H. apply in_map_iff in H as (e & <- & H). apply filter_In in H as [H HT]. apply in_map_iff in H as (y & <- & H). eauto. Qed.

  Theorem queue_step now x q (n n' : dnode) new : queue_ok now (x :: q) n -> fire P c (e_time x) (e_ev x) n = DGo n' new -> Forall (fun z => 0 <= fst (fst z)) new ->
    queue_ok (e_time x) (schedule (e_time x) new q) n'.
  Proof.
    intros Q HF NN. pose proof (queue_quiet _ _ _ _ Q) as HQ. destruct Q as [NI OR AF WA ND PR IM DU YO GO].
    assert (WX : node_waits (e_time x) (e_ev x) n) by now inversion WA.
    assert (HM : node_moves c (e_time x) [key (e_ev x)] n n' new).
    { pose proof (fire_good P c (e_time x) (e_ev x) n NI WX HQ) as H. rewrite HF in H. exact H. }
    pose proof HM as [NI' [CK CN CU] HI HD HO].
    assert (OQ : ordered q) by now inversion OR.
    assert (KX : forall y, In y q -> tracked (e_ev y) = true -> key (e_ev y) <> key (e_ev x)).
    { intros y HY HT E. assert (TX : tracked (e_ev x) = true) by (rewrite <- key_tracked, <- E, key_tracked; exact HT).
      unfold qkeys in ND. cbn in ND. rewrite TX in ND. cbn in ND. inversion ND as [|? ? H _]; subst. apply H. rewrite <- E. now apply (qkeys_in q y). }
    assert (KE : forall y, In y q -> tracked (e_ev y) = true -> e_ev y <> e_ev x) by (intros y H1 H2 E; apply (KX y H1 H2); congruence).
    assert (AQ : forall y, In y q -> e_time x <= e_time y).
    { intros y HY. pose proof (head_least _ _ _ OR HY) as H. destruct x as [[tx px] ex], y as [[ty py] ey]. unfold sooner in H. cbn in *. lia. }
    assert (STAY : forall y, In y q -> node_waits (e_time y) (e_ev y) n -> node_waits (e_time y) (e_ev y) n').
    { intros y HY HW. destruct (immediate (e_ev y)) eqn:EI.
      - destruct (IM _ _ EI HW) as [q' H]. injection H as H _. contradiction (KE y HY); [now apply imm_key|]. now rewrite H.
      - destruct (CK _ _ I EI HW) as [[H|[]]|H]; [|exact H]. destruct (tracked (e_ev y)) eqn:ET; [symmetry in H; contradiction (KX y HY ET)|].
        assert (E : e_ev x = e_ev y) by (destruct (e_ev x), (e_ev y); cbn in H; try congruence; discriminate).
        apply (untracked_stays (e_time x) (e_ev y) _ n n' new); [exact NI|exact ET|rewrite <- E; exact HF|rewrite <- E; exact HM|exact HW]. }
    assert (NOW : forall e, due n e -> e_time x = now).
    { intros e H. apply DU in H. assert (now <= e_time x) by now inversion AF. destruct H as [-> |H]; [reflexivity|]. apply AQ in H. cbn in H. lia. }
    assert (ENT : forall y, In y (schedule (e_time x) new q) -> In y q \/ exists z, In z new /\ y = at_time (e_time x) z).
    { intros y H. apply schedule_in in H as [H|(d & pr & e & H & ->)]; [auto|]. right. exists (d, pr, e). auto. }
    constructor.
    - exact NI'.
    - now apply schedule_ordered.
    - apply Forall_forall. intros y H. apply ENT in H as [H|(z & H & ->)]; [auto|]. rewrite Forall_forall in NN. apply NN in H. unfold at_time, e_time at 2. cbn [fst]. lia.
    - apply Forall_forall. intros y H. apply ENT in H as [H|(z & H & ->)].
      + apply STAY; [exact H|]. rewrite Forall_forall in WA. apply WA. now right.
      + rewrite Forall_forall in CN. destruct (CN z H) as (_ & F & _). exact F.
    - eapply Permutation_NoDup; [symmetry; apply qkeys_perm, schedule_perm|]. rewrite qkeys_app, qkeys_new.
      assert (NQ : NoDup (qkeys q)) by (unfold qkeys in ND; cbn in ND; destruct (tracked (e_ev x)); [now inversion ND|exact ND]).
      assert (DJ : forall k, In k (keys new) -> ~ In k (qkeys q)).
      { intros k H1 H2. apply in_qkeys in H2 as (y & HY & TY & ->). apply in_map_iff in H1 as (e & E & H1). apply filter_In in H1 as [H1 TE]. apply in_map_iff in H1 as (z & <- & HZ).
        rewrite Forall_forall in CN. destruct (CN z HZ) as (_ & _ & _ & F). destruct (F TE) as [[F1|[]]|F1].
        - apply (KX y HY TY). congruence.
        - apply (F1 (e_time y)). apply (waits_key _ (e_ev y)); [auto|]. rewrite Forall_forall in WA. apply WA. now right. }
      clear - CU NQ DJ. induction (keys new) as [|k l IH]; [exact NQ|]. cbn. inversion CU; subst. constructor.
      + intros H. apply in_app_or in H as [H|H]; [contradiction|]. apply (DJ k); [now left|exact H].
      + apply IH; auto. intros k' H. apply DJ. now right.
    - apply Forall_forall. intros y H. apply ENT in H as [H|(z & H & ->)].
      + rewrite Forall_forall in PR. apply PR. now right.
      + rewrite Forall_forall in CN. destruct (CN z H) as (_ & _ & F & _). left. exact F.
    - intros t e EI HW. destruct (HI t e EI HW) as [[F1 F2]|F].
      + exfalso. destruct (IM t e EI F1) as [q' H]. injection H as H _. apply F2. left. rewrite H. cbn. now apply imm_key.
      + destruct F as [(l1 & l2 & -> & F1) F2].
        assert (VM : e_ev x <> VMonitor).
        { intros E. rewrite E in HF. cbn [fire] in HF. unfold on_monitor in HF. destruct (negb (z_monitor n)); [injection HF as _ HF; now destruct l1|].
          destruct (negb (e_time x =? z_next n)); [discriminate|]. injection HF as _ HF. destruct l1 as [|z [|z' l1]]; cbn in HF; discriminate. }
        assert (PX : e_prio x = Normal).
        { inversion PR as [|? ? [H|H] _]; [|contradiction]. inversion F2 as [|? ? H' _]; subst. rewrite H. destruct (e_ev x); try exact H'. discriminate. }
        apply schedule_head; [exact F1| |].
        * apply Forall_app in NN as [N1 N2]. apply Forall_app. split; [exact N1|]. now inversion N2.
        * apply Forall_forall. intros y HY. pose proof (head_least _ _ _ OR HY) as H. pose proof (AQ y HY). destruct x as [[tx px] ex], y as [[ty py] ey]. unfold sooner in H. cbn in *. subst px. destruct (Z.eq_dec tx ty) as [-> |NE]; [right; split; [reflexivity|]|left; lia]. destruct py; [exfalso; cbn in H; lia|reflexivity].
    - intros e HE. destruct (HD e HE) as [[F1 F2]|[F1 _]].
      + pose proof (NOW e F1) as E. rewrite E. apply schedule_in. left. destruct (DU e F1) as [H|H]; [|exact H]. exfalso. apply F2. left. rewrite H. cbn. destruct e; try contradiction; reflexivity.
      + apply schedule_in. right. exists 0, (prio_of e), e. split; [exact F1|]. now rewrite Z.add_0_r.
    - destruct YO as (p & r & EQ & YP & YD). destruct p as [|y p].
      + exists [], (schedule (e_time x) new q). split; [reflexivity|]. split; [constructor|]. intros i H. destruct (HD _ H) as [[F1 _]|[_ F]]; [exact (YD i F1)|]. now contradiction (F i).
      + injection EQ as <- ->. inversion YP as [|? ? (E1 & E2 & E3) YP']; subst. destruct (schedule_prefix (e_time x) new p r) as [r' ->].
        * eapply Forall_impl; [|exact YP']. cbn. intros [[ty py] ey] (G1 & G2 & _). cbn in G1, G2. subst ty py. eapply Forall_impl; [|exact NN]. cbn. intros [[d pr] e] H. cbn in H. unfold sooner. cbn. lia.
        * exists p, r'. split; [reflexivity|]. split; [exact YP'|]. intros i H. destruct (HD _ H) as [[F1 F2]|[_ F]]; [|now contradiction (F i)]. destruct (YD i F1) as [G|G]; [|exact G]. exfalso. apply F2. left. now rewrite G.
    - intros i H. destruct (HD _ H) as [[F1 F2]|[F1 _]].
      + destruct (GO i F1) as (p & r & EQ & HP). pose proof (NOW _ F1) as EN. destruct p as [|y p]; cbn in EQ.
        * injection EQ as EX _. exfalso. apply F2. left. rewrite EX. reflexivity.
        * injection EQ as <- ->. inversion HP as [|? ? _ HP']; subst. apply schedule_behind; [exact OQ|exact HP'|].
          intros [[d pr] e] HZ E. cbn in E. subst e. rewrite Forall_forall in NN, CN. pose proof (NN _ HZ) as G1. destruct (CN _ HZ) as (_ & _ & G2 & _). cbn in G1, G2. subst pr. unfold sooner. cbn. lia.
      + assert (IN : In (e_time x, Normal, VSendGot i) (schedule (e_time x) new q)) by (apply schedule_in; right; exists 0, Normal, (VSendGot i); split; [exact F1|now rewrite Z.add_0_r]).
        apply in_split in IN as (p & r & EQ). exists p, r. split; [exact EQ|]. apply Forall_forall. intros y HY EY.
        assert (EM : emptied n' i).
        { assert (In y (schedule (e_time x) new q)) as HY' by (rewrite EQ; apply in_or_app; now left).
          assert (HW : node_waits (e_time y) (e_ev y) n').
          { apply ENT in HY' as [G|(z & G & ->)].
            - apply STAY; [exact G|]. rewrite Forall_forall in WA. apply WA. now right.
            - rewrite Forall_forall in CN. destruct (CN z G) as (_ & F & _). exact F. }
          rewrite EY in HW. destruct HW as (T & ET & EN & HP). cbn in HP. cbn in H. destruct H as (T' & pk & s & ET' & HS). rewrite ET in ET'. injection ET' as <-. exists T, pk, s. split; [exact ET|]. split; [|exact HS]. destruct (x_phase T); try contradiction; reflexivity. }
        destruct (HO i EM) as [G1 G2]. destruct (GO i G1) as (p' & r' & EQ' & _).
        assert (SG : In (now, Normal, VSendGot i) q).
        { assert (In (now, Normal, VSendGot i) (x :: q)) as G by (rewrite EQ'; apply in_or_app; right; now left). destruct G as [G|G]; [|exact G]. exfalso. apply G2. left. rewrite G. reflexivity. }
        exfalso. pose proof (qkeys_in q _ SG eq_refl) as G3. assert (G4 : In (VSendGot i) (keys new)).
        { apply in_map_iff. exists (VSendGot i). split; [reflexivity|]. apply filter_In. split; [|reflexivity]. apply in_map_iff. exists (0, Normal, VSendGot i). auto. }
        rewrite Forall_forall in CN. destruct (CN _ F1) as (_ & _ & _ & F). destruct (F eq_refl) as [[F3|[]]|F3]; [apply G2; left; exact F3|]. cbn in F3.
        apply (F3 now). rewrite Forall_forall in WA. apply (WA (now, Normal, VSendGot i)). now right.
  Qed.

  (** ** The start *)
  Lemma tile_new_inv m cores prog : tile_inv c (tile_new m cores prog : dtile).
  Proof.
    constructor; cbn; auto.
    - apply Forall_forall. intros x H. apply in_map_iff in H as (kp & <- & _). apply core_new_inv.
    - constructor; [exact (NoDup_nil _)|intros r []|constructor|discriminate|exact I].
    - constructor; cbn; auto; discriminate.
    - intros r [].
    - unfold phase_inv. cbn. eauto.
  Qed.
  Lemma schedule_urgent now (l : list ev) q : Forall (fun x => e_time x <= now /\ e_prio x = Urgent) q ->
    schedule now (map start l) q = q ++ map (fun e => (now, Urgent, e)) l.
  Proof.
    revert q. induction l as [|e l IH]; intros q H; [now rewrite app_nil_r|]. cbn [map]. rewrite schedule_cons, insert_last.
    - replace (at_time now (start e)) with (now, Urgent, e) by (unfold at_time; cbn; now rewrite Z.add_0_r). rewrite IH.
      + now rewrite <- app_assoc.
      + apply Forall_app. split; [exact H|]. constructor; [cbn; split; [lia|reflexivity]|constructor].
    - eapply Forall_impl; [|exact H]. cbn. intros [[t p] f] [H1 H2]. cbn in H1, H2. subst p. unfold sooner, at_time. cbn. lia.
  Qed.
  Definition begun (now : Z) (tiles : list dtile) : list ev := VMonitor :: map (fun i => VTile (Z.of_nat i)) (seq 0 (length tiles)).
  Lemma begin_queue now (tiles : list dtile) : w_queue (des_begin now tiles) =
    map (fun e => (now, Urgent, e)) (begun now tiles) ++ (match tiles with [] => [(now, Normal, VAllTiles)] | _ => [] end).
  Proof.
    unfold des_begin. cbn [w_queue]. assert (E : forall l (x : sched), schedule now (map start l ++ x) [] = schedule now x (map (fun e => (now, Urgent, e)) l)).
    { intros l x. unfold schedule at 1. rewrite fold_left_app. fold (schedule now (map start l) []). rewrite schedule_urgent by constructor. reflexivity. }
    replace (start VMonitor :: _ ++ _) with (map start (begun now tiles) ++ (match tiles with [] => [soon VAllTiles] | _ => [] end)) by (unfold begun; cbn; now rewrite map_map).
    rewrite E. destruct tiles as [|t tiles]; [cbn; rewrite Z.add_0_r; unfold sooner; cbn; now rewrite Z.ltb_irrefl, andb_false_r|]. unfold schedule. cbn [fold_left]. now rewrite app_nil_r.
  Qed.
  Lemma begin_ok now (tiles : list dtile) : Z.of_nat (length tiles) = Z.max 0 (w_tiles (y_net c)) -> (forall T, In T tiles -> exists m cs p, T = tile_new m cs p) ->
    queue_ok now (w_queue (des_begin now tiles)) (w_node (des_begin now tiles)).
  Proof.
    intros HL HN. rewrite begin_queue. cbn [w_node des_begin]. set (n := MkDNode tiles now now 0 true FRunning).
    set (x := match tiles with [] => [(now, Normal, VAllTiles)] | _ => [] end).
    assert (AT : forall i T, the_tile n i = Some T -> exists m cs p, T = tile_new m cs p).
    { intros i T H. apply tile_in in H. auto. }
    assert (VB : forall e, In e (begun now tiles) -> e = VMonitor \/ exists i T, e = VTile i /\ the_tile n i = Some T).
    { intros e [<-|H]; [auto|]. right. apply in_map_iff in H as (i & <- & H). apply in_seq in H. destruct (nth_error tiles i) as [T|] eqn:E.
      - exists (Z.of_nat i), T. split; [reflexivity|]. unfold the_tile. destruct (Z.ltb_spec (Z.of_nat i) 0); [lia|]. now rewrite Nat2Z.id.
      - apply nth_error_None in E. lia. }
    assert (BV : forall i T, the_tile n i = Some T -> In (VTile i) (begun now tiles)).
    { intros i T H. right. unfold the_tile in H. destruct (Z.ltb_spec i 0); [discriminate|]. apply in_map_iff. exists (Z.to_nat i). split; [now rewrite Z2Nat.id by lia|].
      apply in_seq. assert (nth_error (z_tiles n) (Z.to_nat i) <> None) as H' by congruence. apply nth_error_Some in H'. cbn in H'. lia. }
    assert (XE : forall y, In y x -> y = (now, Normal, VAllTiles) /\ tiles = []).
    { unfold x. destruct tiles; cbn; [intros y [<-|[]]; auto|intros y []]. }
    constructor.
    - constructor; cbn; auto.
      + apply Forall_forall. intros T H. destruct (HN T H) as (m & cs & p & ->). apply tile_new_inv.
    - unfold x. rewrite <- (begin_queue now tiles). unfold des_begin. cbn [w_queue]. apply schedule_ordered. constructor.
    - apply Forall_app. split; apply Forall_forall; intros y H; [apply in_map_iff in H as (e & <- & _)|apply XE in H as [-> _]]; cbn; lia.
    - apply Forall_app. split; apply Forall_forall; intros y H.
      + apply in_map_iff in H as (e & <- & H). cbn [e_time e_ev fst snd]. destruct (VB e H) as [-> |(i & T & -> & HT)]; [cbn; now right|]. exists T. split; [exact HT|]. destruct (AT i T HT) as (m & cs & p & ->). now split.
      + apply XE in H as [-> ->]. cbn. auto.
    - rewrite qkeys_app. replace (qkeys (map _ (begun now tiles))) with (begun now tiles).
      + assert (NB : NoDup (begun now tiles)).
        { constructor; [intros H; apply in_map_iff in H as (i & H & _); discriminate|]. apply FinFun.Injective_map_NoDup; [|apply seq_NoDup]. intros a b H. injection H as H. lia. }
        unfold x. destruct tiles as [|t l]; [cbn; constructor; [intros [H|[]]; discriminate|]; constructor; [intros []|constructor]|]. now rewrite app_nil_r.
      + unfold qkeys. rewrite map_map. cbn [e_ev snd]. rewrite map_id. unfold begun. cbn. f_equal. generalize (seq 0 (length tiles)). intros s. induction s as [|a s IH]; [reflexivity|]. cbn. now rewrite <- IH.
    - apply Forall_app. split; apply Forall_forall; intros y H.
      + apply in_map_iff in H as (e & <- & H). destruct (VB e H) as [-> |(i & T & -> & HT)]; [right; reflexivity|left; reflexivity].
      + apply XE in H as [-> _]. left. reflexivity.
    - intros t e EI HW. exfalso. destruct (imm_tile e EI) as [i ET]. unfold DesWaitNode.node_waits in HW. rewrite ET in HW. destruct HW as (T & HT & HW). destruct (AT i T HT) as (m & cs & p & ->). unfold tile_waits in HW. destruct e; try discriminate; cbn in HW; now destruct HW.
    - intros e HE. apply in_or_app. left. destruct e; try contradiction; cbn in HE.
      + destruct HE as (T & HT & _). apply in_map_iff. exists (VTile i). split; [reflexivity|]. eapply BV; eauto.
      + destruct HE as (T & HT & HN' & _). destruct (AT i T HT) as (m & cs & p & ->). discriminate.
      + destruct HE as (T & HT & HN' & _). destruct (AT i T HT) as (m & cs & p & ->). discriminate.
      + destruct HE as (T & pk & s & HT & HS). destruct (AT i T HT) as (m & cs & p & ->). discriminate.
    - eexists _, x. split; [reflexivity|]. split.
      + apply Forall_forall. intros y H. apply in_map_iff in H as (e & <- & H). cbn. split; [reflexivity|]. split; [reflexivity|]. destruct (VB e H) as [-> |(i & T & -> & _)]; eauto.
      + intros i (T & HT & _). rewrite map_map. cbn [e_ev snd]. rewrite map_id. eapply BV; eauto.
    - intros i (T & pk & s & HT & HS). destruct (AT i T HT) as (m & cs & p & ->). discriminate.
  Qed.

  (** ** Steps *)
  Definition ok (s : des (K := K) (M := M)) : Prop := timely s /\ queue_ok (w_now s) (w_queue s) (w_node s).
  Theorem ok_step s s' : ok s -> des_step P c s = NStep s' -> ok s'.
  Proof.
    intros [HT HQ] HS. pose proof (proj1 (step_timely P c s s' HT HS)) as HT'. split; [exact HT'|]. unfold des_step in HS.
    assert (H : exists x q n new, w_queue s = x :: q /\ fire P c (e_time x) (e_ev x) (w_node s) = DGo n new /\ s' = MkDes (e_time x) (schedule (e_time x) new q) n).
    { destruct (z_fin (w_node s)); try discriminate; (destruct (w_queue s) as [|x q]; [discriminate|]; destruct (fire P c (e_time x) (e_ev x) (w_node s)) as [n new| |] eqn:E; try discriminate; injection HS as <-; eauto 8). }
    destruct H as (x & q & n & new & EQ & EF & ->). rewrite EQ in HQ. cbn. eapply queue_step; eauto. apply Forall_forall. intros z HZ.
    pose proof (ti_after _ HT' (at_time (e_time x) z)) as H. cbn [w_queue w_now] in H. assert (e_time x <= e_time (at_time (e_time x) z)) as H'; [|unfold at_time, e_time at 2 in H'; cbn [fst] in H'; lia].
    apply H. apply schedule_in. right. exists (fst (fst z)), (snd (fst z)), (snd z). split; [now destruct z as [[? ?] ?]|reflexivity].
  Qed.
  Theorem ok_goes s : ok s -> des_step P c s <> NStuck /\ des_step P c s <> NEmpty.
  Proof.
    intros [HT HQ]. unfold des_step. pose proof (ti_awaited _ HT) as HA. unfold awaited in HA. destruct (w_queue s) as [|x q] eqn:EQ.
    - destruct (z_fin (w_node s)) eqn:EF; [destruct HA as [_ [p []]]|destruct HA as (? & ? & _ & [])|destruct HA as (? & ? & _ & [])|split; discriminate].
    - assert (HF : fire P c (e_time x) (e_ev x) (w_node s) <> DStuck).
      { pose proof (queue_quiet _ _ _ _ HQ) as HQ'. destruct HQ as [NI _ _ WA _ _ _ _ _ _]. assert (WX : node_waits (e_time x) (e_ev x) (w_node s)) by now inversion WA.
        pose proof (fire_good P c _ _ _ NI WX HQ') as H. intros E. rewrite E in H. exact H. }
      destruct (z_fin (w_node s)); try (split; discriminate); destruct (fire P c (e_time x) (e_ev x) (w_node s)); split; congruence.
  Qed.
End Queue.
