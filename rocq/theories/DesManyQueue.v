(** The queue of the simulation of all nodes: the events of one node keep their order. *)
From Coq Require Import Permutation Sorting.Sorted.
From Verif Require Import PyBase PyLemmas CoreModel DramModel RouterModel SystemModel DesModel DesManyModel DesManySpec.

Definition m_at (now : Z) (z : Z * prio * mev) : entry mev := (now + fst (fst z), snd (fst z), snd z).
Definition m_ordered (q : list (entry mev)) : Prop := StronglySorted (fun a b => sooner b a = false) q.
Lemma m_schedule_cons now z l (q : list (entry mev)) : schedule now (z :: l) q = schedule now l (insert (m_at now z) q).
Proof. reflexivity. Qed.
Lemma m_trans (x a b : entry mev) : sooner x a = true -> sooner b a = false -> sooner x b = true.
Proof. destruct x as [[tx [|]] ex], a as [[ta [|]] ea], b as [[tb [|]] eb]; unfold sooner; cbn; lia. Qed.
Lemma m_asym (x a : entry mev) : sooner x a = true -> sooner a x = false.
Proof. destruct x as [[tx [|]] ex], a as [[ta [|]] ea]; unfold sooner; cbn; lia. Qed.
Lemma m_insert_in (x y : entry mev) q : In y (insert x q) <-> y = x \/ In y q.
Proof. induction q as [|a q IH]; cbn; [intuition|]. destruct (sooner x a); cbn; [intuition|]. rewrite IH. intuition. Qed.
Lemma m_schedule_in now l (q : list (entry mev)) y : In y (schedule now l q) <-> In y q \/ exists z, In z l /\ y = m_at now z.
Proof.
  revert q. induction l as [|z l IH]; intros q; [cbn; split; [auto|intros [H|(z & [] & _)]; auto]|]. rewrite m_schedule_cons, IH, m_insert_in. split.
  - intros [[->|H]|(z' & H & ->)]; [right; exists z; split; [now left|reflexivity]|auto|right; exists z'; split; [now right|reflexivity]].
  - intros [H|(z' & [->|H] & ->)]; eauto.
Qed.
Lemma m_insert_ordered x q : m_ordered q -> m_ordered (insert x q).
Proof.
  induction q as [|a q IH]; intros H; cbn; [repeat constructor|]. inversion H as [|? ? H1 H2]; subst. destruct (sooner x a) eqn:E.
  - constructor; [exact H|]. constructor; [now apply m_asym|]. eapply Forall_impl; [|exact H2]. cbn. intros b Hb. apply m_asym. eapply m_trans; eauto.
  - constructor; [now apply IH|]. apply Forall_forall. intros b Hb. apply m_insert_in in Hb as [-> |Hb]; [exact E|]. rewrite Forall_forall in H2. auto.
Qed.
Lemma m_schedule_ordered now l q : m_ordered q -> m_ordered (schedule now l q).
Proof. revert q. induction l as [|z l IH]; intros q H; [exact H|]. rewrite m_schedule_cons. apply IH. now apply m_insert_ordered. Qed.
Lemma m_head x q y : m_ordered (x :: q) -> In y q -> sooner y x = false.
Proof. intros H HI. inversion H as [|? ? _ H2]; subst. rewrite Forall_forall in H2. auto. Qed.
Lemma m_head_time x q y : m_ordered (x :: q) -> In y (x :: q) -> e_time x <= e_time y.
Proof. intros H [->|HI]; [lia|]. pose proof (m_head _ _ _ H HI) as G. destruct x as [[tx px] ex], y as [[ty py] ey]. unfold sooner in G. cbn in *. lia. Qed.

(** ** The events of a node *)
Definition mine (k : Z) (x : entry mev) : option (entry ev) :=
  match x with (t, p, MOf m e) => if m =? k then Some (t, p, e) else None | _ => None end.
Lemma events_cons k x q : events_of k (x :: q) = match mine k x with Some y => y :: events_of k q | None => events_of k q end.
Proof. destruct x as [[t p] [m|m e|]]; cbn; try reflexivity. now destruct (m =? k). Qed.
Lemma events_app k p q : events_of k (p ++ q) = events_of k p ++ events_of k q.
Proof. induction p as [|x p IH]; [reflexivity|]. rewrite <- app_comm_cons, !events_cons, IH. now destruct (mine k x). Qed.
Lemma events_in k q y : In y (events_of k q) <-> exists x, In x q /\ mine k x = Some y.
Proof.
  induction q as [|x q IH]; [cbn; split; [intros []|intros (x & [] & _)]|]. rewrite events_cons. split.
  - intros H. destruct (mine k x) as [z|] eqn:E; [destruct H as [<-|H]; [exists x; split; [now left|exact E]|]|]; apply IH in H as (x' & H & G); exists x'; (split; [now right|exact G]).
  - intros (x' & [->|H] & G); [rewrite G; now left|]. assert (In y (events_of k q)) by (apply IH; eauto). destruct (mine k x); [now right|assumption].
Qed.
Lemma mine_is k x y : mine k x = Some y -> x = (e_time y, e_prio y, MOf k (e_ev y)).
Proof. destruct x as [[t p] [m|m e|]]; cbn; try discriminate. destruct (Z.eqb_spec m k) as [->|]; [|discriminate]. intros [= <-]. reflexivity. Qed.
Lemma mine_of k y : mine k (e_time y, e_prio y, MOf k (e_ev y)) = Some y.
Proof. cbn. rewrite Z.eqb_refl. now destruct y as [[t p] e]. Qed.
Lemma mine_sooner k a b x y : mine k a = Some x -> mine k b = Some y -> sooner a b = sooner x y.
Proof. intros H1 H2. apply mine_is in H1, H2. subst. destruct x as [[tx px] ex], y as [[ty py] ey]. reflexivity. Qed.
Lemma insert_mine k x y q : m_ordered q -> mine k x = Some y -> events_of k (insert x q) = insert y (events_of k q).
Proof.
  intros HO HX. induction q as [|a q IH]; [cbn [insert]; rewrite events_cons, HX; reflexivity|]. inversion HO as [|? ? H1 H2]; subst. cbn [insert]. destruct (sooner x a) eqn:E.
  - rewrite events_cons, HX. assert (G : forall z, In z (events_of k (a :: q)) -> sooner y z = true).
    { intros z HZ. apply events_in in HZ as (b & HB & HM). rewrite <- (mine_sooner k x b y z HX HM). destruct HB as [->|HB]; [exact E|]. rewrite Forall_forall in H2. eapply m_trans; [exact E|auto]. }
    destruct (events_of k (a :: q)) as [|z r]; [reflexivity|]. cbn [insert]. rewrite G by now left. reflexivity.
  - rewrite !events_cons, IH by exact H1. destruct (mine k a) as [z|] eqn:EA; [|reflexivity]. cbn [insert]. rewrite <- (mine_sooner k x a y z HX EA), E. reflexivity.
Qed.
Lemma insert_other k x q : mine k x = None -> events_of k (insert x q) = events_of k q.
Proof.
  intros HX. induction q as [|a q IH]; [cbn [insert]; rewrite events_cons, HX; reflexivity|]. cbn [insert]. destruct (sooner x a); [now rewrite (events_cons k x), HX|]. now rewrite !events_cons, IH.
Qed.
Lemma schedule_mine k now new q : m_ordered q -> events_of k (schedule now (tag k new) q) = schedule now new (events_of k q).
Proof.
  revert q. induction new as [|z new IH]; intros q H; [reflexivity|]. cbn [tag map]. fold (tag k new). rewrite m_schedule_cons, IH by now apply m_insert_ordered.
  rewrite (insert_mine k _ (now + fst (fst z), snd (fst z), snd z)); [reflexivity|exact H|]. unfold m_at. cbn. now rewrite Z.eqb_refl.
Qed.
Lemma schedule_other k now new q : Forall (fun z => mine k (m_at now z) = None) new -> events_of k (schedule now new q) = events_of k q.
Proof. revert q. induction new as [|z new IH]; intros q H; [reflexivity|]. inversion H; subst. rewrite m_schedule_cons, IH by assumption. now apply insert_other. Qed.
Lemma tag_other k m now new : m <> k -> Forall (fun z => mine k (m_at now z) = None) (tag m new).
Proof. intros H. apply Forall_forall. intros z HZ. apply in_map_iff in HZ as (w & <- & _). unfold m_at. cbn. destruct (Z.eqb_spec m k); congruence. Qed.
Lemma events_none k now new : Forall (fun z => mine k (m_at now z) = None) new -> forall q, events_of k (schedule now new q) = events_of k q.
Proof. intros H q. now apply schedule_other. Qed.

(** ** A place in the queue *)
(** [q] is split at the place at which a normal event scheduled at time [te] stands. *)
Record split_at (te : Z) (q q1 q2 : list (entry mev)) : Prop := {
  sp_app : q = q1 ++ q2; sp_before : Forall (fun y => e_time y <= te) q1; sp_after : Forall (fun y => sooner y (te, Normal, MAll) = false) q2 }.
Lemma split_insert te q q1 q2 x : split_at te q q1 q2 -> exists p1 p2, split_at te (insert x q) p1 p2 /\
  (if sooner x (te, Normal, MAll) then p1 = insert x q1 /\ p2 = q2 else p1 = q1 /\ p2 = insert x q2).
Proof.
  intros [-> H1 H2]. destruct (sooner x (te, Normal, MAll)) eqn:E.
  - exists (insert x q1), q2. split; [|auto]. constructor.
    + induction q1 as [|a q1 IH]; cbn [app insert].
      * destruct q2 as [|b q2]; [reflexivity|]. cbn [insert]. assert (sooner x b = true) as ->; [|reflexivity]. inversion H2; subst. eapply m_trans; eauto.
      * inversion H1; subst. destruct (sooner x a); [reflexivity|]. cbn [app]. now rewrite IH.
    + apply Forall_forall. intros y HY. apply m_insert_in in HY as [->|HY]; [|rewrite Forall_forall in H1; auto]. destruct x as [[tx px] ex]. unfold sooner in E. cbn in *. lia.
    + exact H2.
  - exists q1, (insert x q2). split; [|auto]. constructor.
    + induction q1 as [|a q1 IH]; [reflexivity|]. cbn [app insert]. inversion H1; subst. assert (sooner x a = false) as ->; [|now rewrite IH].
      destruct x as [[tx px] ex], a as [[ta pa] ea]. unfold sooner in *. cbn in *. destruct px, pa; cbn in *; lia.
    + exact H1.
    + apply Forall_forall. intros y HY. apply m_insert_in in HY as [->|HY]; [exact E|rewrite Forall_forall in H2; auto].
Qed.
Lemma split_tail te x q1 q2 q : split_at te (x :: q) (x :: q1) q2 -> split_at te q q1 q2.
Proof. intros [E H1 H2]. injection E as ->. inversion H1; subst. now constructor. Qed.
Lemma split_exists te (q : list (entry mev)) : m_ordered q -> exists q1 q2, split_at te q q1 q2 /\ Forall (fun y => sooner (te, Normal, MAll) y = true) q2.
Proof.
  induction q as [|x q IH]; intros H; [exists [], []; split; [now constructor|constructor]|]. inversion H as [|? ? H1 H2]; subst. destruct (sooner (te, Normal, MAll) x) eqn:E.
  - assert (G : Forall (fun y => sooner (te, Normal, MAll) y = true) (x :: q)).
    { constructor; [exact E|]. eapply Forall_impl; [|exact H2]. cbn. intros y HY. eapply m_trans; eauto. }
    exists [], (x :: q). split; [|exact G]. constructor; [reflexivity|constructor|]. eapply Forall_impl; [|exact G]. cbn. intros y HY. now apply m_asym.
  - destruct (IH H1) as (q1 & q2 & [-> G1 G2] & G3). exists (x :: q1), q2. split; [|exact G3]. constructor; [reflexivity| |exact G2]. constructor; [|exact G1]. destruct x as [[t p] e]. unfold sooner in E. cbn in *. destruct p; cbn in E; lia.
Qed.
Lemma ordered_left p q : m_ordered (p ++ q) -> m_ordered p.
Proof. unfold m_ordered. induction p as [|x p IH]; intros H; [constructor|]. inversion H as [|? ? H1 H2]; subst. constructor; [now apply IH|]. now apply Forall_app in H2. Qed.
Lemma ordered_right p q : m_ordered (p ++ q) -> m_ordered q.
Proof. unfold m_ordered. induction p as [|x p IH]; intros H; [exact H|]. inversion H; subst. now apply IH. Qed.
(** The same in the queue of the node alone, in which an event stands at that place. *)
Notation end_at te := ((te, Normal, VRunEnd) : entry ev).
Lemma end_insert_before te (y : entry ev) a b : sooner y (end_at te) = true -> insert y (a ++ end_at te :: b) = insert y a ++ end_at te :: b.
Proof. intros H. induction a as [|x a IH]; cbn [app insert]; [now rewrite H|]. destruct (sooner y x); [reflexivity|]. cbn [app]. now rewrite IH. Qed.
Lemma end_insert_after te (y : entry ev) a b : sooner y (end_at te) = false -> Forall (fun x => e_time x <= te) a -> insert y (a ++ end_at te :: b) = a ++ end_at te :: insert y b.
Proof.
  intros H HA. induction HA as [|x a H1 HA IH]; cbn [app insert]; [now rewrite H|]. assert (sooner y x = false) as ->; [|now rewrite IH].
  destruct y as [[ty py] ey], x as [[tx px] ex]. unfold sooner in *. cbn in *. destruct py, px; cbn in *; lia.
Qed.
Lemma before_mine k te q : Forall (fun y => e_time y <= te) q -> Forall (fun x => e_time x <= te) (events_of k q).
Proof. intros H. apply Forall_forall. intros y HY. apply events_in in HY as (x & HX & HM). rewrite Forall_forall in H. apply H in HX. apply mine_is in HM. subst. exact HX. Qed.
Lemma split_tag k te now new : forall q q1 q2, split_at te q q1 q2 -> m_ordered q -> exists p1 p2, split_at te (schedule now (tag k new) q) p1 p2 /\
  schedule now new (events_of k q1 ++ end_at te :: events_of k q2) = events_of k p1 ++ end_at te :: events_of k p2 /\
  (forall y, In y p1 -> In y q1 \/ exists e, e_ev y = MOf k e).
Proof.
  induction new as [|[[d p] e] new IH]; intros q q1 q2 S HO; [exists q1, q2; repeat split; auto; apply S|]. cbn [tag map]. fold (tag k new). rewrite m_schedule_cons. set (z := m_at now _).
  destruct (split_insert te q q1 q2 z S) as (p1 & p2 & S' & C). destruct (IH (insert z q) p1 p2 S') as (r1 & r2 & S2 & E2 & I2); [now apply m_insert_ordered|]. exists r1, r2. split; [exact S2|].
  assert (MZ : mine k z = Some (now + d, p, e)) by (unfold z, m_at; cbn; now rewrite Z.eqb_refl).
  assert (OQ : m_ordered q1 /\ m_ordered q2) by (destruct S as [-> _ _]; split; [eapply ordered_left; eauto|eapply ordered_right; eauto]). destruct OQ as [O1 O2].
  assert (SZ : sooner z (te, Normal, MAll) = sooner (now + d, p, e) (end_at te)) by reflexivity.
  change (schedule now ((d, p, e) :: new) ?a) with (schedule now new (insert (now + d, p, e) a)).
  destruct (sooner z (te, Normal, MAll)) eqn:EZ; destruct C as [-> ->].
  - split.
    + rewrite end_insert_before by now rewrite <- SZ. rewrite <- E2, (insert_mine k z _ q1 O1 MZ). reflexivity.
    + intros y HY. apply I2 in HY as [HY|HY]; [|now right]. apply m_insert_in in HY as [->|HY]; [right; now exists e|now left].
  - split.
    + rewrite end_insert_after; [|now rewrite <- SZ|apply before_mine; apply S]. rewrite <- E2, (insert_mine k z _ q2 O2 MZ). reflexivity.
    + intros y HY. apply I2 in HY as [HY|HY]; auto.
Qed.
Lemma split_foreign k te now new : Forall (fun z => mine k (m_at now z) = None) new -> Forall (fun z => snd z = MAll -> sooner (m_at now z) (te, Normal, MAll) = false) new ->
  forall q q1 q2, split_at te q q1 q2 -> exists p1 p2, split_at te (schedule now new q) p1 p2 /\
  events_of k p1 = events_of k q1 /\ events_of k p2 = events_of k q2 /\ (forall y, In y p1 -> In y q1 \/ e_ev y <> MAll).
Proof.
  induction new as [|z new IH]; intros HM HA q q1 q2 S; [exists q1, q2; repeat split; auto; apply S|]. inversion HM as [|? ? M1 M2]; subst. inversion HA as [|? ? A1 A2]; subst. rewrite m_schedule_cons.
  destruct (split_insert te q q1 q2 (m_at now z) S) as (p1 & p2 & S' & C). destruct (IH M2 A2 _ p1 p2 S') as (r1 & r2 & S2 & E1 & E2 & I2). exists r1, r2. split; [exact S2|]. rewrite E1, E2.
  destruct (sooner (m_at now z) (te, Normal, MAll)) eqn:EZ; destruct C as [-> ->].
  - split; [now apply insert_other|]. split; [reflexivity|]. intros y HY. apply I2 in HY as [HY|HY]; [|now right]. apply m_insert_in in HY as [->|HY]; [right; intros E; specialize (A1 E); congruence|now left].
  - split; [reflexivity|]. split; [now apply insert_other|]. intros y HY. apply I2 in HY as [HY|HY]; auto.
Qed.
