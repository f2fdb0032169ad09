(** What goes on in a node after the end of Node.run: its invariants. *)
From Coq Require Import Permutation Sorting.Sorted.
From Verif Require Import PyBase PyLemmas MemoryModel CoreModel DramModel DramProofs RouterModel SystemModel SystemSpec StatsProofs NodeModel NodeSpec
  DesModel DesSpec DesRel DesCtl DesCore DesTile DesRefine DesQueue DesRun DesWait DesWaitCtl DesWaitTile DesWaitStop DesWaitNode DesWaitQueue.

(** ** The queue without the end of the simulation of the node alone *)
Lemma ordered_drop (a : list (entry ev)) m b : ordered (a ++ m :: b) -> ordered (a ++ b).
Proof.
  unfold ordered. induction a as [|x a IH]; cbn; intros H; inversion H as [|? ? H1 H2]; subst; [exact H1|]. constructor; [now apply IH|]. apply Forall_app in H2 as [G1 G2]. inversion G2; subst. apply Forall_app. auto.
Qed.
Lemma forall_drop {A} (R : A -> Prop) a m b : Forall R (a ++ m :: b) -> Forall R (a ++ b).
Proof. intros H. apply Forall_app in H as [H1 H2]. inversion H2; subst. apply Forall_app. auto. Qed.
Lemma split_drop {A} (p : list A) g r a m b : p ++ g :: r = a ++ m :: b -> g <> m -> exists p' r', a ++ b = p' ++ g :: r' /\ forall x, In x p' -> In x p.
Proof.
  revert a. induction p as [|x p IH]; intros [|y a] E HN; cbn in E.
  - congruence.
  - injection E as <- ->. exists [], (a ++ b). split; [reflexivity|intros x []].
  - injection E as -> <-. exists p, r. split; [reflexivity|intros x H; now right].
  - injection E as <- E. destruct (IH a E HN) as (p' & r' & E' & HP). exists (x :: p'), r'. split; [cbn; now rewrite E'|]. intros z [->|H]; [now left|right; auto].
Qed.
Lemma prefix_drop {A} (p : list A) r a m b : p ++ r = a ++ m :: b -> ~ In m p -> exists r', a ++ b = p ++ r'.
Proof.
  revert a. induction p as [|x p IH]; intros [|y a] E HN; cbn in E; [eauto|cbn; eauto| |].
  - injection E as -> _. elim HN. now left.
  - injection E as <- E. destruct (IH a E) as (r' & E'); [intros H; apply HN; now right|]. exists r'. cbn. now rewrite E'.
Qed.

Section Late.
  Context {K M : Type}.
  Variable P : machine K M.
  Variable c : sys_cfg.
  Notation dnode := (dnode K M).
  Lemma queue_drop now a te b (n : dnode) : queue_ok c now (a ++ (te, Normal, VRunEnd) :: b) n -> queue_ok c now (a ++ b) n.
  Proof.
    intros [NI OR AF WA ND PR IM DU (p & r & EQ & YP & YD) GO]. constructor.
    - exact NI.
    - now apply ordered_drop in OR.
    - now apply forall_drop in AF.
    - now apply forall_drop in WA.
    - rewrite qkeys_app in *. change (qkeys ((te, Normal, VRunEnd) :: b)) with (VRunEnd :: qkeys b) in ND. now apply NoDup_remove_1 in ND.
    - now apply forall_drop in PR.
    - intros t e H1 H2. destruct (IM t e H1 H2) as [q' H]. destruct a as [|x a]; cbn in H; [discriminate|]. injection H as -> _. eexists. reflexivity.
    - intros e H. apply DU in H as H'. apply in_app_or in H' as [H'|[H'|H']]; [apply in_or_app; now left| |apply in_or_app; now right]. injection H' as _ _ <-. destruct H.
    - destruct (prefix_drop p r a _ b (eq_sym EQ)) as (r' & E).
      + intros H. rewrite Forall_forall in YP. apply YP in H as (_ & H & _). discriminate.
      + exists p, r'. auto.
    - intros i H. destruct (GO i H) as (p' & r' & E & HP). destruct (split_drop p' _ r' a _ b (eq_sym E)) as (p2 & r2 & E2 & HI); [discriminate|].
      exists p2, r2. split; [exact E2|]. rewrite Forall_forall in *. auto.
  Qed.
  Lemma late_no_end now q (n : dnode) : queue_ok c now q n -> z_fin n <> FCond -> Forall (fun x => e_ev x <> VRunEnd) q.
  Proof. intros Q H. apply Forall_forall. intros x HX E. pose proof (q_waits _ _ _ _ Q) as W. rewrite Forall_forall in W. apply W in HX. rewrite E in HX. exact (H HX). Qed.
  Lemma drop_no_end now a te b (n : dnode) : queue_ok c now (a ++ (te, Normal, VRunEnd) :: b) n -> Forall (fun x => e_ev x <> VRunEnd) (a ++ b).
  Proof.
    intros Q. pose proof (q_nodup _ _ _ _ Q) as ND. rewrite qkeys_app in ND. change (qkeys ((te, Normal, VRunEnd) :: b)) with (VRunEnd :: qkeys b) in ND.
    apply NoDup_remove_2 in ND. rewrite <- qkeys_app in ND. apply Forall_forall. intros x HX E. apply ND. replace VRunEnd with (key (e_ev x)) by now rewrite E. apply qkeys_in; [exact HX|now rewrite E].
  Qed.
  Lemma fire_moves now x q (n n' : dnode) new : queue_ok c now (x :: q) n -> fire P c (e_time x) (e_ev x) n = DGo n' new -> node_moves c (e_time x) [key (e_ev x)] n n' new.
  Proof.
    intros Q HF. pose proof (queue_quiet c _ _ _ _ Q) as HQ. pose proof (q_waits _ _ _ _ Q) as WA. assert (WX : node_waits c (e_time x) (e_ev x) n) by now inversion WA.
    pose proof (fire_good P c (e_time x) (e_ev x) n (q_node _ _ _ _ Q) WX HQ) as H. rewrite HF in H. exact H.
  Qed.
  Lemma fire_goes now x q (n : dnode) : queue_ok c now (x :: q) n -> fire P c (e_time x) (e_ev x) n <> DStuck.
  Proof.
    intros Q. pose proof (queue_quiet c _ _ _ _ Q) as HQ. pose proof (q_waits _ _ _ _ Q) as WA. assert (WX : node_waits c (e_time x) (e_ev x) n) by now inversion WA.
    pose proof (fire_good P c (e_time x) (e_ev x) n (q_node _ _ _ _ Q) WX HQ) as H. intros E. rewrite E in H. exact H.
  Qed.
  (** After the end of the process of the node. *)
  Record late (now : Z) (q : list (entry ev)) (n : dnode) : Prop := {
    lt_ok : queue_ok c now q n; lt_fin : z_fin n = FCond; lt_monitor : z_monitor n = false; lt_no_end : Forall (fun x => e_ev x <> VRunEnd) q;
    lt_ended : forallb x_ended (z_tiles n) = true }.
  Lemma late_fires now x q (n n' : dnode) new : late now (x :: q) n -> fire P c (e_time x) (e_ev x) n = DGo n' new -> late (e_time x) (schedule (e_time x) new q) n' /\ z_begin n' = z_begin n /\ nonneg new.
  Proof.
    intros [Q F Mo E En] HF. assert (W : node_waits c (e_time x) (e_ev x) n) by (pose proof (q_waits _ _ _ _ Q) as WA; now inversion WA). inversion E as [|? ? E1 E2]; subst.
    assert (G : z_fin n' = FCond /\ z_monitor n' = false /\ z_begin n' = z_begin n /\ nonneg new /\ forallb x_ended (z_tiles n') = true).
    { destruct (paced (e_ev x)) eqn:EP.
      - pose proof (fire_calm P c (e_time x) _ n EP) as C. rewrite HF in C. cbn in C. destruct C as (C1 & C2 & C3 & _ & C4 & C5). split; [congruence|]. split; [congruence|]. split; [congruence|]. split; [exact C1|now apply C5].
      - destruct (e_ev x); try discriminate; cbn [fire] in HF.
        + unfold on_monitor in HF. rewrite Mo in HF. cbn in HF. injection HF as <- <-. repeat split; auto. constructor.
        + unfold monitor_int in HF. rewrite F in HF. injection HF as <- <-. repeat split; auto. constructor.
        + destruct W as [W _]. congruence.
        + cbn in W. congruence.
        + now elim E1. }
    destruct G as (G1 & G2 & G3 & G4 & G5). split; [|now split]. pose proof (fire_moves _ _ _ _ _ _ Q HF) as HM. constructor; auto.
    - apply (queue_step P c now x q n n' new); auto.
    - apply Forall_forall. intros y HY. apply schedule_in in HY as [HY|(d & p & e & HY & ->)]; [rewrite Forall_forall in E2; auto|]. cbn. intros ->.
      pose proof (nm_comp _ _ _ _ _ _ HM) as [_ CN _]. rewrite Forall_forall in CN. destruct (CN _ HY) as (_ & _ & _ & H). destruct (H eq_refl) as [[H'|[]]|H']; [|apply (H' 0); exact F].
      apply E1. cbn in H'. destruct (e_ev x); cbn in H'; congruence.
  Qed.
End Late.
