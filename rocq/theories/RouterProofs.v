(** Invariants of the routers of a node over all schedules. *)
From Verif Require Import PyBase PyLemmas RouterModel RouterSpec.
From Coq Require Import ZifyBool ZifyNat FinFun.

(** ** Streams *)
Lemma for_tile_app j a b : for_tile j (a ++ b) = for_tile j a ++ for_tile j b.
Proof. unfold for_tile. rewrite filter_app, map_app. reflexivity. Qed.
Lemma from_tile_app j a b : from_tile j (a ++ b) = from_tile j a ++ from_tile j b.
Proof. unfold from_tile. rewrite filter_app, map_app. reflexivity. Qed.
Lemma for_tile_one j p : for_tile j [p] = if pk_dst p =? j then [pk_data p] else [].
Proof. unfold for_tile. cbn. destruct (pk_dst p =? j); reflexivity. Qed.
Lemma for_tile_cons j p l : for_tile j (p :: l) = (if pk_dst p =? j then [pk_data p] else []) ++ for_tile j l.
Proof. unfold for_tile. cbn. destruct (pk_dst p =? j); reflexivity. Qed.
Lemma for_tile_nil j : for_tile j [] = []. Proof. reflexivity. Qed.
Lemma from_tile_one i x : from_tile i [x] = if fst x =? i then [snd x] else [].
Proof. unfold from_tile. cbn. destruct (fst x =? i); reflexivity. Qed.
Lemma from_tile_nil j : from_tile j [] = []. Proof. reflexivity. Qed.

(** ** Every packet of router i has source i *)
Definition own (i : Z) (r : router) : Prop :=
  Forall (fun p => pk_src p = i) (r_submitted r) /\ Forall (fun p => pk_src p = i) (r_queue r) /\
  Forall (fun p => pk_src p = i) (being_sent r).

(** Analysis of a step: one goal per action, with the condition of the action in the context. *)
Ltac break H :=
  repeat match type of H with
  | (match ?x with _ => _ end) = _ => let E := fresh "E" in destruct x eqn:E; try discriminate H
  | (if ?x then _ else _) = _ => let E := fresh "E" in destruct x eqn:E; try discriminate H
  end.

Ltac step_cases H :=
  unfold nstep, nstep_cap in H;
  let C := fresh "C" in destruct (n_crash _) eqn:C in H; [discriminate H|];
  let K := fresh "K" in
  match type of H with (if negb (known_router ?c (tile_of ?a)) then _ else _) = _ =>
    destruct (known_router c (tile_of a)) eqn:K; cbn [negb] in H; [|discriminate H]; destruct a; cbn [tile_of] in K end;
  unfold n_submit, n_added, n_take, n_travel, n_store, n_count, n_done, n_read, n_pop, n_got, n_halt, n_poll, n_stopped in H;
  cbv zeta in H; break H; injection H as <-.

Ltac look :=
  unfold net_crash, set_router, set_fun, set_sender, set_client, set_buffer, set_stat in *;
  cbn [n_router n_crash r_running r_queue r_sender r_buffers r_client r_stat r_submitted r_delivered
       packets_created packets_sent_internode packets_sent_intranode packets_sent packets_received packets_read] in *.
Ltac split_eq :=
  repeat match goal with
  | |- context [?a =? ?b] => destruct (Z.eqb_spec a b); subst
  end.

Lemma own_step c t a s s' i : (forall i, own i (n_router s i)) -> nstep c t a s = Some s' -> own i (n_router s' i).
Proof.
  intros I H. pose proof (I i) as Ii. unfold own, being_sent in *.
  step_cases H; look; split_eq; look;
    repeat match goal with E : r_sender _ = _ |- _ => rewrite E in * end;
    repeat match goal with E : r_queue _ = _ |- _ => rewrite E in * end;
    try exact Ii; destruct Ii as (A & B & D);
    repeat match goal with H : Forall _ (_ :: _) |- _ => inversion H; subst; clear H end;
    try solve [repeat split; try apply Forall_app; try split; auto].
Qed.

Lemma own_reach c t s : nreach c t s -> forall i, own i (n_router s i).
Proof.
  induction 1; intros i.
  - repeat split; constructor.
  - eapply own_step; eauto.
Qed.

(** ** Streams between two tiles *)
Definition stream (s : net) (i j : Z) : Prop :=
  for_tile j (r_submitted (n_router s i)) =
  from_tile i (r_delivered (n_router s j)) ++ from_tile i (in_hand (n_router s j)) ++
  r_buffers (n_router s j) i ++ for_tile j (in_flight (n_router s i)) ++ for_tile j (r_queue (n_router s i)).

Lemma stream_step c t a s s' i j :
  (forall i, own i (n_router s i)) -> stream s i j -> nstep c t a s = Some s' -> stream s' i j.
Proof.
  intros O I H. unfold stream, in_hand, in_flight in *.
  step_cases H; look; try exact I.
  all: try (match goal with O : forall _, own _ _, E : r_sender (n_router _ ?k) = SOffer ?p _ |- _ =>
    pose proof (O k) as (_ & _ & X); unfold being_sent in X; rewrite E in X; inversion X as [|? ? X1 X2]; subst; clear X X2;
    destruct p as [ps pd pdat]; cbn [pk_src pk_dst pk_data] in * end).
  all: try (match goal with E : r_sender (n_router _ ?k) = SStored ?p _ |- _ => destruct p as [ps pd pdat]; cbn [pk_src pk_dst pk_data] in * end).
  all: repeat match goal with |- context [?x =? ?y] => is_var x; is_var y; destruct (Z.eqb_spec x y); subst end; look.
  all: try exact I; try congruence.
  all: repeat match goal with E : r_sender _ = _ |- _ => rewrite E in * end.
  all: repeat match goal with E : r_client _ = _ |- _ => rewrite E in * end.
  all: repeat match goal with E : r_queue _ = _ |- _ => rewrite E in * end.
  all: repeat match goal with E : r_buffers _ _ = _ |- _ => rewrite E in * end.
  all: rewrite ?for_tile_app, ?for_tile_one, ?for_tile_cons, ?for_tile_nil, ?from_tile_app, ?from_tile_one, ?from_tile_nil, ?app_nil_r, ?app_nil_l in *; cbn [fst snd pk_dst pk_data app] in *.
  all: rewrite ?Z.eqb_refl in *; cbn [app] in *.
  all: repeat match goal with N : ?x <> ?y |- _ => apply Z.eqb_neq in N; rewrite ?N in * end; cbn [app] in *.
  all: try exact I.
  all: rewrite ?I, <- ?app_assoc; cbn [app]; try reflexivity.
  all: repeat match goal with |- context [?x =? ?y] => destruct (Z.eqb_spec x y) end; try (exfalso; lia); try reflexivity.
  all: subst; repeat match goal with E : r_buffers _ _ = _ |- _ => rewrite E in * end; reflexivity.
Qed.

Lemma stream_reach c t s : nreach c t s -> forall i j, stream s i j.
Proof.
  induction 1; intros i j.
  - reflexivity.
  - eapply stream_step; eauto. eapply own_reach; eauto.
Qed.

(** ** Counters *)
Definition sent_ok (c : net_cfg) (i : Z) (r : router) : Prop :=
  zlen (r_submitted r) = packets_sent (r_stat r) + zlen (being_sent r) + zlen (r_queue r) /\
  packets_sent (r_stat r) = packets_sent_internode (r_stat r) + packets_sent_intranode (r_stat r) /\
  zlen (r_submitted r) = packets_created (r_stat r) + being_added r /\
  packets_read (r_stat r) = zlen (r_delivered r) /\
  (r_running r = false -> r_queue r = [] /\ r_sender r = SIdle /\ match r_client r with KAdding _ | KPolling _ | KDraining => False | _ => True end) /\
  (r_client r = KDraining -> r_queue r = []).

Lemma zlen_app {A} (a b : list A) : zlen (a ++ b) = zlen a + zlen b.
Proof. unfold zlen. rewrite app_length. lia. Qed.
Lemma zlen_cons {A} (x : A) l : zlen (x :: l) = zlen l + 1.
Proof. unfold zlen. cbn. lia. Qed.
Lemma zlen_nil {A} : zlen (@nil A) = 0. Proof. reflexivity. Qed.

Lemma sent_step c t a s s' i :
  (forall i, sent_ok c i (n_router s i)) -> nstep c t a s = Some s' -> sent_ok c i (n_router s' i).
Proof.
  intros I H. pose proof (I i) as Ii. unfold sent_ok, being_sent, being_added in *.
  step_cases H; look; try exact Ii.
  all: repeat match goal with |- context [?x =? ?y] => destruct (Z.eqb_spec x y); subst; look end; try exact Ii.
  all: repeat match goal with E : r_sender _ = _ |- _ => rewrite E in * end.
  all: repeat match goal with E : r_client _ = _ |- _ => rewrite E in * end.
  all: repeat match goal with E : r_queue _ = _ |- _ => rewrite E in * end.
  all: repeat match goal with E : r_running _ = _ |- _ => rewrite E in * end.
  all: try (destruct inter).
  all: rewrite ?zlen_app, ?zlen_cons, ?(@zlen_nil packet), ?(@zlen_nil (Z * list Z)) in *.
  all: intuition (try discriminate; try congruence; try lia).
Qed.

Lemma sent_reach c t s : nreach c t s -> forall i, sent_ok c i (n_router s i).
Proof.
  induction 1; intros i.
  - unfold sent_ok, being_added; cbn. intuition discriminate.
  - eapply sent_step; eauto.
Qed.

(** ** The receiving side *)
Lemma zsum_change f g k l : NoDup l -> (forall x, x <> k -> f x = g x) ->
  zsum (map f l) = zsum (map g l) + (if existsb (Z.eqb k) l then f k - g k else 0).
Proof.
  intros N E. induction l as [|x l IH]; [reflexivity|].
  inversion N as [|? ? X1 X2]; subst. cbn [map existsb]. specialize (IH X2).
  change (zsum (f x :: map f l)) with (f x + zsum (map f l)). change (zsum (g x :: map g l)) with (g x + zsum (map g l)).
  destruct (Z.eqb_spec k x).
  - subst x. cbn [orb]. replace (existsb (Z.eqb k) l) with false in IH; [lia|].
    symmetry. apply not_true_is_false. intros T. apply existsb_exists in T as (y & Y & Y2).
    apply Z.eqb_eq in Y2. subst. contradiction.
  - cbn [orb]. rewrite IH, E by auto. lia.
Qed.

Lemma nodup_zrange n : NoDup (zrange n).
Proof. unfold zrange. apply Injective_map_NoDup; [intros x y; lia|apply seq_NoDup]. Qed.

Lemma over_tiles_change c f g k : 0 <= k < w_tiles c -> (forall x, x <> k -> f x = g x) ->
  over_tiles c f = over_tiles c g + f k - g k.
Proof.
  intros K E. unfold over_tiles. rewrite (zsum_change f g k) by (auto using nodup_zrange).
  replace (existsb (Z.eqb k) (zrange (w_tiles c))) with true; [lia|].
  symmetry. apply existsb_exists. exists k. split; [apply in_zrange; lia|apply Z.eqb_refl].
Qed.
Lemma over_tiles_same c f g : (forall x, f x = g x) -> over_tiles c f = over_tiles c g.
Proof. intros E. unfold over_tiles. rewrite (map_ext f g E). reflexivity. Qed.

Lemma unknown_unused c t s : nreach c t s -> forall i, known_router c i = false -> r_submitted (n_router s i) = [].
Proof.
  induction 1 as [|t t' a s s' R IH T H]; intros k U; [reflexivity|]. specialize (IH k U).
  step_cases H; look; try exact IH.
  all: repeat match goal with |- context [?x =? ?y] => destruct (Z.eqb_spec x y); subst; look end; try exact IH; congruence.
Qed.

Lemma buffer_known c t s i j : nreach c t s -> r_buffers (n_router s j) i <> [] -> 0 <= i < w_tiles c.
Proof.
  intros R N. destruct (known_router c i) eqn:K; [unfold known_router in K; lia|].
  pose proof (stream_reach _ _ _ R i j) as S. unfold stream in S. rewrite (unknown_unused _ _ _ R i K) in S. cbn in S.
  symmetry in S. apply app_eq_nil in S as (_ & S). apply app_eq_nil in S as (_ & S). apply app_eq_nil in S as (S & _). contradiction.
Qed.

Definition arrivals (s : net) (j i : Z) : Z :=
  zlen (r_buffers (n_router s j) i) - zlen (for_tile j (just_stored (n_router s i))).
Definition received_ok (c : net_cfg) (s : net) (j : Z) : Prop :=
  packets_received (r_stat (n_router s j)) =
  packets_read (r_stat (n_router s j)) + zlen (in_hand (n_router s j)) + over_tiles c (arrivals s j).

Lemma received_step c t0 t a s s' j : nreach c t0 s ->
  received_ok c s j -> nstep c t a s = Some s' -> received_ok c s' j.
Proof.
  intros R I H. pose proof (own_reach _ _ _ R) as O. unfold received_ok in *.
  assert (B : forall i, r_buffers (n_router s j) i <> [] -> 0 <= i < w_tiles c) by (intros; eapply buffer_known; eauto).
  assert (KR : forall i, known_router c i = true -> 0 <= i < w_tiles c) by (unfold known_router; lia).
  assert (G : forall s1, (forall x, arrivals s1 j x = arrivals s j x) ->
     packets_received (r_stat (n_router s1 j)) - packets_read (r_stat (n_router s1 j)) - zlen (in_hand (n_router s1 j)) =
     packets_received (r_stat (n_router s j)) - packets_read (r_stat (n_router s j)) - zlen (in_hand (n_router s j)) ->
     packets_received (r_stat (n_router s1 j)) =
     packets_read (r_stat (n_router s1 j)) + zlen (in_hand (n_router s1 j)) + over_tiles c (arrivals s1 j)).
  { intros s1 E1 E2. rewrite (over_tiles_same c _ _ E1). lia. }
  step_cases H.
  all: try (apply G; [intros x; unfold arrivals, just_stored|unfold in_hand]; look;
     repeat match goal with |- context [?x =? ?y] => is_var x; is_var y; destruct (Z.eqb_spec x y); subst; look end;
     repeat match goal with E : r_sender _ = _ |- _ => rewrite E in * end;
     repeat match goal with E : r_client _ = _ |- _ => rewrite E in * end; rewrite ?zlen_cons, ?zlen_nil; try reflexivity; lia).
  - (* store *)
    destruct (O i) as (_ & _ & X). unfold being_sent in X. rewrite E in X. inversion X as [|? ? X1 X2]; subst; clear X X2.
    destruct p as [ps pd pdat]; cbn [pk_src pk_dst pk_data] in *.
    apply G; [intros x; unfold arrivals, just_stored|unfold in_hand]; look;
     repeat match goal with |- context [?x =? ?y] => is_var x; is_var y; destruct (Z.eqb_spec x y); subst; look end;
     repeat match goal with E : r_sender _ = _ |- _ => rewrite E in * end;
     rewrite ?for_tile_cons, ?for_tile_nil, ?zlen_app, ?zlen_cons, ?zlen_nil; cbn [pk_dst pk_data];
     repeat match goal with |- context [?x =? ?y] => destruct (Z.eqb_spec x y); subst; try congruence end;
     rewrite ?zlen_app, ?zlen_cons, ?zlen_nil; try reflexivity; unfold zlen; cbn [length]; try lia.
  - (* count *)
    destruct (O i) as (_ & _ & X). unfold being_sent in X. rewrite E in X. inversion X as [|? ? X1 X2]; subst; clear X X2.
    destruct p as [ps pd pdat]; cbn [pk_src pk_dst pk_data] in *.
    rewrite (over_tiles_change c _ (arrivals s j) ps) by
      (auto; intros x N; unfold arrivals, just_stored; look; split_eq; look; try congruence; reflexivity).
    clear G. set (Z0 := over_tiles c (arrivals s j)) in *. clearbody Z0.
    unfold arrivals, just_stored, in_hand in *; look.
    split_eq; look; try congruence;
     rewrite ?E, ?for_tile_cons, ?for_tile_nil; cbn [pk_dst pk_data];
     repeat match goal with |- context [?x =? ?y] => destruct (Z.eqb_spec x y); subst; try congruence end;
     rewrite ?zlen_app, ?zlen_cons; unfold zlen in *; cbn [length] in *; lia.
  - (* pop *)
    destruct (Z.eqb_spec j i) as [->|N].
    + assert (KS : 0 <= src < w_tiles c) by (apply B; rewrite E0; discriminate).
      rewrite (over_tiles_change c _ (arrivals s i) src) by
        (auto; intros x N; unfold arrivals, just_stored; look; split_eq; look; split_eq; try congruence; reflexivity).
      clear G. set (Z0 := over_tiles c (arrivals s i)) in *. clearbody Z0.
      unfold arrivals, just_stored, in_hand in *; look. rewrite E in I.
      split_eq; look; split_eq; try congruence; rewrite ?E0, ?zlen_cons, ?zlen_nil in *; lia.
    + apply G; [intros x; unfold arrivals, just_stored|unfold in_hand]; look; split_eq; look; try congruence; try reflexivity; lia.
Qed.

Lemma received_reach c t s : nreach c t s -> forall j, received_ok c s j.
Proof.
  induction 1; intros j.
  - unfold received_ok, over_tiles. cbn. induction (zrange (w_tiles c)) as [|x l IH]; [reflexivity|].
    cbn [map]. change (zsum (arrivals net_init j x :: ?l)) with (arrivals net_init j x + zsum l).
    change (arrivals net_init j x) with 0. lia.
  - eapply received_step; eauto.
Qed.

(** ** Capacity *)
Lemma capacity_reach c t s : nreach c t s -> forall i j, zlen (r_buffers (n_router s j) i) <= 1.
Proof.
  induction 1 as [|t t' a s s' R IH T H]; intros i j; [cbn; lia|].
  pose proof (IH i j) as Ii.
  step_cases H; look; try exact Ii.
  all: repeat match goal with |- context [?x =? ?y] => destruct (Z.eqb_spec x y); subst; look end; try exact Ii.
  all: try (unfold buffer_capacity in *; rewrite zlen_app; change (zlen [pk_data p]) with 1; look; lia).
  all: specialize (IH src i0); rewrite E0, zlen_cons in IH; lia.
Qed.

(** ** Targets *)
Definition target_ok (c : net_cfg) (r : router) : Prop :=
  match r_sender r with
  | SIdle => True
  | STravel p _ b => known_router c (pk_dst p) = true /\ b = false
  | SOffer p b | SStored p b | SArrived p b => known_router c (pk_dst p) = true /\ pk_dst p <> pk_src p /\ b = false
  end.

Lemma latency_intra c i j : known_router c i = true -> known_router c j = true ->
  get_latency c i j = (w_intra_lat c, false).
Proof.
  unfold known_router, get_latency. intros A B.
  rewrite !Z.div_small by lia. rewrite Z.eqb_refl, orb_true_r. reflexivity.
Qed.

Lemma target_reach c t s : nreach c t s -> n_crash s = None -> forall i, target_ok c (n_router s i).
Proof.
  induction 1 as [|t t' a s s' R IH T H]; intros CR i; [exact I|].
  assert (C0 : n_crash s = None) by (unfold nstep, nstep_cap in H; destruct (n_crash s); [discriminate|reflexivity]).
  specialize (IH C0). pose proof (own_reach _ _ _ R) as O. pose proof (IH i) as Ii. unfold target_ok in *.
  step_cases H; look; try exact Ii; try discriminate CR.
  all: repeat match goal with |- context [?x =? ?y] => destruct (Z.eqb_spec x y); subst; look end; try exact Ii.
  all: repeat match goal with E : r_sender _ = _ |- _ => rewrite E in * end; try exact Ii; try tauto.
  - destruct (O i0) as (_ & X & _). rewrite E1 in X. inversion X as [|? ? X1 X2]; subst.
    apply negb_false_iff in E3. rewrite latency_intra in E2 by assumption. injection E2 as <- <-. auto.
  - destruct Ii as (A & B). split; [exact A|]. split; [|exact B]. unfold buffer_key in E1. lia.
Qed.

Lemma no_inter c t s : nreach c t s -> forall i, packets_sent_internode (r_stat (n_router s i)) = 0.
Proof.
  induction 1 as [|t t' a s s' R IH T H]; intros i; [reflexivity|].
  assert (C0 : n_crash s = None) by (unfold nstep, nstep_cap in H; destruct (n_crash s); [discriminate|reflexivity]).
  pose proof (target_reach _ _ _ R C0) as G. pose proof (IH i) as Ii. 
  step_cases H; look; try exact Ii.
  all: repeat match goal with |- context [?x =? ?y] => destruct (Z.eqb_spec x y); subst; look end; try exact Ii; try apply IH.
  specialize (G i0). unfold target_ok in G. rewrite E in G. destruct G as (_ & _ & ->). apply IH.
Qed.

Lemma take_unknown c t t' s s' i p rest : nreach c t s -> r_queue (n_router s i) = p :: rest ->
  known_router c (pk_dst p) = false -> nstep c t' (NTake i) s = Some s' -> n_crash s' = Some KeyError.
Proof.
  intros R Q U H. unfold nstep, nstep_cap in H. destruct (n_crash s); [discriminate|].
  destruct (negb _); [discriminate|]. unfold n_take in H. cbv zeta in H. rewrite Q in H. break H.
  - injection H as <-. reflexivity.
  - rewrite U in E2. discriminate.
  - rewrite U in E2. discriminate.
Qed.

Lemma travel_self c t t' s s' i p since b : nreach c t s -> r_sender (n_router s i) = STravel p since b ->
  pk_dst p = i -> nstep c t' (NTravel i) s = Some s' -> n_crash s' = Some KeyError.
Proof.
  intros R Q U H. destruct (own_reach _ _ _ R i) as (_ & _ & X). unfold being_sent in X. rewrite Q in X.
  inversion X as [|? ? X1 X2]; subst i.
  unfold nstep, nstep_cap in H. destruct (n_crash s); [discriminate|].
  destruct (negb _); [discriminate|]. unfold n_travel in H. cbv zeta in H. rewrite Q in H. break H.
  - unfold buffer_key in E0. lia.
  - injection H as <-. reflexivity.
Qed.

(** Packets that were sent went to another tile of the node. *)
Lemma stored_target c t s i p : nreach c t s -> n_crash s = None -> In p (just_stored (n_router s i)) ->
  0 <= pk_dst p < w_tiles c /\ pk_dst p <> i.
Proof.
  intros R C P. pose proof (target_reach _ _ _ R C i) as G. destruct (own_reach _ _ _ R i) as (_ & _ & X).
  unfold just_stored, target_ok, being_sent in *.
  destruct (r_sender (n_router s i)); try contradiction P. destruct P as [<-|[]].
  inversion X as [|? ? X1 X2]; subst. unfold known_router in G. lia.
Qed.

(** ** A stopped router has delivered everything *)
Lemma stopped_delivered c t s i j : nreach c t s -> r_running (n_router s i) = false ->
  for_tile j (r_submitted (n_router s i)) =
  from_tile i (r_delivered (n_router s j)) ++ from_tile i (in_hand (n_router s j)) ++ r_buffers (n_router s j) i.
Proof.
  intros R S. destruct (sent_reach _ _ _ R i) as (_ & _ & _ & _ & A & _). destruct (A S) as (Q & I & _).
  rewrite (stream_reach _ _ _ R i j). unfold in_flight. rewrite Q, I. rewrite !for_tile_nil, !app_nil_r. reflexivity.
Qed.
Lemma stopped_counted c t s i : nreach c t s -> r_running (n_router s i) = false ->
  packets_sent (r_stat (n_router s i)) = zlen (r_submitted (n_router s i)) /\
  packets_created (r_stat (n_router s i)) = zlen (r_submitted (n_router s i)).
Proof.
  intros R S. destruct (sent_reach _ _ _ R i) as (A1 & A2 & A3 & _ & A & _). destruct (A S) as (Q & I & K).
  unfold being_sent, being_added in *. rewrite Q, I in *. rewrite !zlen_nil in A1. split; [lia|].
  destruct (r_client (n_router s i)); try contradiction; lia.
Qed.

(** ** Progress *)
Definition sender_rank (r : router) : Z :=
  match r_sender r with SIdle => 0 | STravel _ _ _ => 4 | SOffer _ _ => 3 | SStored _ _ => 2 | SArrived _ _ => 1 end.
Definition client_rank (r : router) : Z :=
  match r_client r with KIdle => 0 | KAdding _ => 1 | KReading _ => 2 | KGot _ _ => 1 | KPolling _ => 1 | KDraining => 1 end.
Definition work (s : net) (i : Z) : Z :=
  let r := n_router s i in 5 * zlen (r_queue r) + sender_rank r + client_rank r.

Lemma work_step c t a s s' : nstep c t a s = Some s' -> tile_call a = false ->
  over_tiles c (work s') = over_tiles c (work s) - (if router_work a then 1 else 0).
Proof.
  intros H TC. assert (KA : known_router c (tile_of a) = true).
  { unfold nstep, nstep_cap in H. destruct (n_crash s); [discriminate|]. destruct (known_router c (tile_of a)); [reflexivity|discriminate]. }
  rewrite (over_tiles_change c (work s') (work s) (tile_of a)).
  - enough (work s' (tile_of a) = work s (tile_of a) - (if router_work a then 1 else 0)) by lia.
    unfold work, sender_rank, client_rank.
    step_cases H; try discriminate TC; cbn [tile_of router_work]; look; rewrite ?Z.eqb_refl; look.
    all: repeat match goal with |- context [?x =? ?y] => destruct (Z.eqb_spec x y); subst; look end.
    all: repeat match goal with E : r_sender _ = _ |- _ => rewrite E in * end.
    all: repeat match goal with E : r_client _ = _ |- _ => rewrite E in * end.
    all: repeat match goal with E : r_queue _ = _ |- _ => rewrite E in * end.
    all: rewrite ?zlen_cons, ?zlen_nil; lia.
  - unfold known_router in KA. lia.
  - intros x N. unfold work, sender_rank, client_rank.
    step_cases H; try discriminate TC; cbn [tile_of] in N; look.
    all: repeat match goal with |- context [?x =? ?y] => destruct (Z.eqb_spec x y); subst; look end; try congruence; reflexivity.
Qed.

Lemma over_tiles_le c f g : (forall x, 0 <= x < w_tiles c -> f x <= g x) -> over_tiles c f <= over_tiles c g.
Proof.
  intros E. unfold over_tiles.
  assert (F : forall l, (forall x, In x l -> f x <= g x) -> zsum (map f l) <= zsum (map g l)).
  { induction l as [|x l IH]; intros G; [cbn; lia|].
    cbn [map]. change (zsum (f x :: map f l)) with (f x + zsum (map f l)). change (zsum (g x :: map g l)) with (g x + zsum (map g l)).
    pose proof (G x (or_introl eq_refl)). pose proof (IH (fun y Y => G y (or_intror Y))). lia. }
  apply F. intros x X. apply E. apply in_zrange in X. lia.
Qed.
Lemma over_tiles_linear c f a b : 0 <= w_tiles c -> over_tiles c (fun x => a * f x + b) = a * over_tiles c f + b * w_tiles c.
Proof.
  intros W. unfold over_tiles.
  assert (F : forall l, zsum (map (fun x => a * f x + b) l) = a * zsum (map f l) + b * zlen l).
  { induction l as [|x l IH]; [cbn; lia|].
    cbn [map]. change (zsum (?h :: ?t)) with (h + zsum t). rewrite IH, zlen_cons. lia. }
  rewrite F. unfold zlen. rewrite length_zrange, Z2Nat.id by lia. lia.
Qed.

Lemma nwork_reach c t s n t' s' : nreach c t s -> nwork c t s n t' s' -> nreach c t' s'.
Proof. intros R H. induction H; [assumption|]. eapply nr_step; [apply IHnwork; exact R| |]; eassumption. Qed.

Lemma work_bound c t s n t' s' : 0 <= w_tiles c -> nreach c t s -> nwork c t s n t' s' ->
  Z.of_nat n <= 5 * over_tiles c (fun i => zlen (r_submitted (n_router s i)) - packets_sent (r_stat (n_router s i)))
                + 2 * w_tiles c.
Proof.
  intros W R H.
  assert (A : Z.of_nat n + over_tiles c (work s') = over_tiles c (work s)).
  { induction H; [lia|]. pose proof (work_step _ _ _ _ _ H2 H1). specialize (IHnwork R). destruct (router_work a); lia. }
  assert (B : 0 <= over_tiles c (work s')).
  { transitivity (over_tiles c (fun _ => 0 * 0 + 0)); [rewrite over_tiles_linear by lia; lia|].
    apply over_tiles_le. intros x _. unfold work, sender_rank, client_rank. pose proof (zlen_nonneg (r_queue (n_router s' x))).
    destruct (r_sender _), (r_client _); lia. }
  assert (D : over_tiles c (work s) <= over_tiles c (fun i => 5 * (zlen (r_submitted (n_router s i)) - packets_sent (r_stat (n_router s i))) + 2)).
  { apply over_tiles_le. intros x _. destruct (sent_reach _ _ _ R x) as (S & _). rewrite S.
    unfold work, sender_rank, client_rank, being_sent.
    destruct (r_sender _), (r_client _); unfold zlen; cbn [length]; lia. }
  rewrite over_tiles_linear in D by lia. lia.
Qed.

(** Only a full buffer blocks a sender, only an empty one a reader. *)
Lemma stuck_reason c t s : nreach c t s -> n_crash s = None ->
  (forall a t', t <= t' -> router_work a = true -> nstep c t' a s = None) ->
  forall i, 0 <= i < w_tiles c ->
    let blocked := exists p b, r_sender (n_router s i) = SOffer p b /\ 0 <= pk_dst p < w_tiles c /\ pk_dst p <> i /\
                     zlen (r_buffers (n_router s (pk_dst p)) i) = 1 in
    (r_sender (n_router s i) = SIdle /\ r_queue (n_router s i) = [] \/ blocked) /\
    match r_client (n_router s i) with
    | KIdle => True
    | KReading src => r_buffers (n_router s i) src = []
    | KPolling _ => True
    | KDraining => blocked
    | KAdding _ | KGot _ _ => False
    end.
Proof.
  intros R C N i K blocked.
  assert (KR : known_router c i = true) by (unfold known_router; lia).
  assert (ST : forall t' a, tile_of a = i -> nstep c t' a s = match a with
      | NSubmit i target data => n_submit c t' i target data s
      | NAdded i => n_added c t' i s
      | NTake i => n_take c t' i s
      | NTravel i => n_travel c t' i s
      | NStore i => n_store buffer_capacity i s
      | NCount i => n_count i s
      | NDone i => n_done i s
      | NRead i src => n_read c i src s
      | NPop i => n_pop i s
      | NGot i => n_got i s
      | NHalt i => n_halt t' i s
      | NPoll i => n_poll t' i s
      | NStopped i => n_stopped i s end).
  { intros t' a E. unfold nstep, nstep_cap. rewrite C, E, KR. reflexivity. }
  destruct (sent_reach _ _ _ R i) as (_ & _ & _ & _ & S1 & _).
  pose proof (target_reach _ _ _ R C i) as G. destruct (own_reach _ _ _ R i) as (_ & _ & O).
  unfold target_ok, being_sent in *.
  assert (A : r_sender (n_router s i) = SIdle /\ r_queue (n_router s i) = [] \/ blocked).
  { destruct (r_sender (n_router s i)) as [|p since b|p b|p b|p b] eqn:E.
    - left. split; [reflexivity|]. destruct (r_queue (n_router s i)) as [|p rest] eqn:Q; [reflexivity|]. exfalso.
      destruct (r_running (n_router s i)) eqn:RU; [|destruct (S1 eq_refl); discriminate].
      specialize (N (NTake i) t (Z.le_refl _) eq_refl). rewrite ST in N by reflexivity.
      unfold n_take in N. cbv zeta in N. rewrite RU, E, Q in N.
      destruct (get_latency c (pk_src p) (pk_dst p)). destruct (negb _); [discriminate|]. destruct (_ <? 0); discriminate.
    - exfalso. specialize (N (NTravel i) (Z.max t (since + fst (get_latency c (pk_src p) (pk_dst p)))) ltac:(lia) eq_refl).
      rewrite ST in N by reflexivity. unfold n_travel in N. cbv zeta in N. rewrite E in N.
      destruct (_ <? _) eqn:L in N; [lia|]. destruct (buffer_key _ _ _); discriminate.
    - right. exists p, b. inversion O as [|? ? O1 O2]; subst i. destruct G as (G1 & G2 & _).
      split; [reflexivity|]. unfold known_router in G1. split; [lia|]. split; [lia|].
      specialize (N (NStore (pk_src p)) t (Z.le_refl _) eq_refl). rewrite ST in N by reflexivity.
      unfold n_store in N. cbv zeta in N. rewrite E in N.
      destruct (_ <? _) eqn:L in N; [discriminate|].
      pose proof (capacity_reach _ _ _ R (pk_src p) (pk_dst p)).
      unfold set_router, set_fun, buffer_capacity in L. cbn [n_router] in L.
      destruct (Z.eqb_spec (pk_dst p) (pk_src p)); [contradiction|]. lia.
    - exfalso. specialize (N (NCount i) t (Z.le_refl _) eq_refl). rewrite ST in N by reflexivity.
      unfold n_count in N. cbv zeta in N. rewrite E in N. discriminate.
    - exfalso. specialize (N (NDone i) t (Z.le_refl _) eq_refl). rewrite ST in N by reflexivity.
      unfold n_done in N. cbv zeta in N. rewrite E in N. discriminate. }
  split; [exact A|].
  destruct (r_client (n_router s i)) as [|since|src|src d|next|] eqn:E; auto.
  - specialize (N (NAdded i) (Z.max t (since + w_data_lat c)) ltac:(lia) eq_refl). rewrite ST in N by reflexivity.
    unfold n_added in N. cbv zeta in N. rewrite E in N. destruct (_ <? _) eqn:L in N; [lia|discriminate].
  - specialize (N (NPop i) t (Z.le_refl _) eq_refl). rewrite ST in N by reflexivity.
    unfold n_pop in N. cbv zeta in N. rewrite E in N. destruct (r_buffers (n_router s i) src); [reflexivity|discriminate].
  - specialize (N (NGot i) t (Z.le_refl _) eq_refl). rewrite ST in N by reflexivity.
    unfold n_got in N. cbv zeta in N. rewrite E in N. discriminate.
  - destruct A as [(A & _)|A]; [|exact A]. exfalso.
    specialize (N (NStopped i) t (Z.le_refl _) eq_refl). rewrite ST in N by reflexivity.
    unfold n_stopped in N. cbv zeta in N. rewrite E, A in N. discriminate.
Qed.

(** ** Restatements *)
Lemma sending_counters c t s i : nreach c t s ->
  let r := n_router s i in let x := r_stat r in
  packets_sent x = packets_sent_intranode x + packets_sent_internode x /\
  packets_sent x = zlen (r_submitted r) - zlen (r_queue r) - zlen (being_sent r) /\
  packets_created x = zlen (r_submitted r) - being_added r.
Proof. intros R r x. destruct (sent_reach _ _ _ R i) as (A & B & D & _). subst r x. lia. Qed.

Lemma over_tiles_sub c f g : over_tiles c (fun x => f x - g x) = over_tiles c f - over_tiles c g.
Proof.
  unfold over_tiles. induction (zrange (w_tiles c)) as [|x l IH]; [reflexivity|].
  cbn [map]. change (zsum (?h :: ?t)) with (h + zsum t). rewrite IH. lia.
Qed.
Lemma receiving_counters c t s j : nreach c t s ->
  let r := n_router s j in let x := r_stat r in
  packets_read x = zlen (r_delivered r) /\
  packets_received x = packets_read x + zlen (in_hand r) + over_tiles c (fun i => zlen (r_buffers r i))
                       - over_tiles c (fun i => zlen (for_tile j (just_stored (n_router s i)))).
Proof.
  intros R r x. destruct (sent_reach _ _ _ R j) as (_ & _ & _ & D & _).
  pose proof (received_reach _ _ _ R j) as E. unfold received_ok, arrivals in E. rewrite over_tiles_sub in E. subst r x. lia.
Qed.

Lemma other_node_fails c t t' s s' i p rest : nreach c t s -> r_queue (n_router s i) = p :: rest ->
  ~ (0 <= pk_dst p < w_tiles c) -> nstep c t' (NTake i) s = Some s' -> n_crash s' = Some KeyError.
Proof. intros R Q U. eapply take_unknown; eauto. unfold known_router. lia. Qed.

(** ** A concrete run: tile 2 sends three packets to tile 3 and one to tile 1, tile 0 one to tile 3;
    tile 2 halts. *)
Definition demo_cfg : net_cfg := MkNetCfg 4 2 3 8 2.
Definition demo_acts : list (Z * nact) :=
  [(0, NSubmit 2 3 [1; 2]); (0, NSubmit 0 3 [9]); (0, NRead 3 2); (0, NTake 2); (1, NTake 0); (2, NAdded 2);
   (2, NSubmit 2 1 [7]); (3, NAdded 0); (3, NTravel 2); (4, NAdded 2); (4, NSubmit 2 3 [3]); (4, NStore 2); (4, NTravel 0);
   (4, NStore 0); (4, NCount 2); (4, NDone 2); (5, NTake 2); (6, NAdded 2); (6, NSubmit 2 3 [4; 5]); (8, NAdded 2); (8, NPop 3); (8, NHalt 2); (8, NPoll 2);
   (8, NTravel 2); (8, NStore 2); (8, NCount 2); (8, NDone 2); (8, NTake 2); (9, NPoll 2); (9, NGot 3);
   (11, NTravel 2); (11, NStore 2); (11, NCount 2); (11, NDone 2); (11, NTake 2); (11, NPoll 2); (14, NTravel 2)].
Definition demo_mid : net := match nrun demo_cfg demo_acts net_init with Some s => s | None => net_init end.
Definition demo_more : list (Z * nact) :=
  [(14, NRead 3 2); (14, NPop 3); (14, NStore 2); (14, NCount 2); (14, NDone 2); (14, NStopped 2); (15, NGot 3); (15, NRead 3 2); (15, NPop 3)].
Definition demo_end : net := match nrun demo_cfg demo_more demo_mid with Some s => s | None => net_init end.

Lemma nrun_reach c l : forall t s s', nreach c t s -> nascending t l = true -> nrun c l s = Some s' -> exists t', nreach c t' s'.
Proof.
  induction l as [|(t1, a) l IH]; intros t s s' R A H.
  - injection H as <-. eauto.
  - cbn in H, A. destruct (nstep c t1 a s) as [s1|] eqn:E; [|discriminate]. apply andb_prop in A as (A1 & A2).
    eapply IH; [|exact A2|exact H]. eapply nr_step; eauto. lia.
Qed.

(** Tile 2 of a node with four tiles sends a packet to tile 6, the third tile of the next node. *)
Definition abroad : list (Z * nact) := [(0, NSubmit 2 6 [1]); (0, NTake 2)].
Lemma abroad_crash : exists t s, nreach demo_cfg t s /\ n_crash s = Some KeyError /\
  r_submitted (n_router s 2) = [MkPacket 2 6 [1]].
Proof.
  destruct (nrun demo_cfg abroad net_init) as [s|] eqn:E; [|discriminate E].
  destruct (nrun_reach demo_cfg abroad 0 net_init s (nr_init _ 0) eq_refl E) as (t & R).
  exists t, s. split; [exact R|]. cbv in E. injection E as <-. split; reflexivity.
Qed.

Lemma internode_fails : exists c t s p, w_nodes c = 2 /\ nreach c t s /\ r_submitted (n_router s 2) = [p] /\
  w_tiles c <= pk_dst p < w_nodes c * w_tiles c /\ n_crash s = Some KeyError.
Proof.
  destruct abroad_crash as (t & s & R & C & S). exists demo_cfg, t, s, (MkPacket 2 6 [1]).
  repeat split; auto; cbn; lia.
Qed.
