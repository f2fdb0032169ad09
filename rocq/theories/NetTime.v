(** Times of packets: a lower bound for their latency, an upper bound for the rate of a router. *)
From Verif Require Import PyBase PyLemmas RouterModel RouterSpec RouterProofs NetTimeSpec.
From Coq Require Import ZifyBool.

Lemma nrun_app c l1 : forall l2 s, nrun c (l1 ++ l2) s = match nrun c l1 s with Some s1 => nrun c l2 s1 | None => None end.
Proof. induction l1 as [|(t & a) l1 IH]; intros l2 s; cbn; [reflexivity|]. destruct (nstep c t a s); [apply IH|reflexivity]. Qed.
Lemma nascending_app l1 : forall t l2, nascending t (l1 ++ l2) = true -> nascending t l1 = true /\
  forall x, In x l2 -> t <= fst x /\ forall y, In y l1 -> fst y <= fst x.
Proof.
  induction l1 as [|(t1 & a) l1 IH]; intros t l2 H; cbn in *.
  - split; [reflexivity|]. revert t H. induction l2 as [|(t2 & b) l2 IH2]; intros t H x X; [destruct X|]; cbn in H; apply andb_prop in H as (H1 & H2). destruct X as [<-|X].
    + cbn. split; [lia|tauto].
    + destruct (IH2 _ H2 x X). split; [lia|tauto].
  - apply andb_prop in H as (H1 & H2). destruct (IH _ _ H2) as (I1 & I2). rewrite H1, I1. split; [reflexivity|].
    intros x X. destruct (I2 x X) as (J1 & J2). split; [lia|]. intros y [<-|Y]; [exact J1|auto].
Qed.

Lemma until_snoc f t l now a : until f t (l ++ [(now, a)]) = until f t l + (if f a && (now <=? t) then 1 else 0).
Proof.
  unfold until. rewrite filter_app. unfold zlen. rewrite app_length. cbn [filter fst snd]. destruct (f a && (now <=? t)); cbn [length]; lia.
Qed.
Lemma one_nonneg (b : bool) : 0 <= (if b then 1 else 0). Proof. now destruct b. Qed.
Lemma until_mono f t t' l : t <= t' -> until f t l <= until f t' l.
Proof.
  intros L. unfold until, zlen. induction l as [|(x & a) l IH]; cbn [filter fst snd]; [lia|].
  destruct (f a); cbn [andb]; [|exact IH]. destruct (Z.leb_spec x t), (Z.leb_spec x t'); cbn [length] in *; lia.
Qed.
Lemma until_all f t t' l : (forall y, In y l -> fst y <= t) -> t <= t' -> until f t' l = until f t l.
Proof.
  intros A L. unfold until. f_equal. apply filter_ext_in. intros y Y. specialize (A y Y). f_equal. lia.
Qed.
Lemma until_nonneg f t l : 0 <= until f t l. Proof. unfold until, zlen. lia. Qed.

Lemma intra_latency c i p : known_router c i = true -> pk_src p = i -> known_router c (pk_dst p) = true -> fst (get_latency c (pk_src p) (pk_dst p)) = w_intra_lat c.
Proof.
  unfold known_router, get_latency. intros K S D. rewrite S.
  replace (i / w_tiles c) with 0 by (symmetry; apply Z.div_small; lia).
  replace (pk_dst p / w_tiles c) with 0 by (symmetry; apply Z.div_small; lia). rewrite Z.eqb_refl, !orb_true_r. reflexivity.
Qed.

Section Times.
Variables (c : net_cfg) (i : Z).
Let lat := w_intra_lat c.
Let sub := until (call_of i).
Let arr := until (arrival_of i).
Let ret := until (return_of i).

Record times (T : Z) (l : list (Z * nact)) (s : net) : Prop := {
  tm_last : forall y, In y l -> fst y <= T;
  tm_sub : n_crash s = None -> sub T l = zlen (r_submitted (n_router s i));
  tm_queue : n_crash s = None -> arr T l + zlen (in_flight (n_router s i)) + zlen (r_queue (n_router s i)) = zlen (r_submitted (n_router s i));
  tm_lat : forall t, arr t l <= sub (t - lat) l;
  tm_rate : forall t, 0 <= lat -> arr t l <= arr (t - lat) l + 1;
  tm_sender : n_crash s = None ->
    match r_sender (n_router s i) with
    | STravel p since _ => fst (get_latency c (pk_src p) (pk_dst p)) = lat /\ since <= T /\ arr T l + 1 <= sub since l /\ arr T l <= arr since l
    | SOffer p _ => arr T l + 1 <= sub (T - lat) l /\ arr T l <= arr (T - lat) l
    | _ => True
    end;
  tm_ret : forall t, ret t l <= sub (t - w_data_lat c) l;
  tm_calls : forall t, 0 <= w_data_lat c -> sub t l <= sub (t - w_data_lat c) l + 1;
  tm_client : n_crash s = None ->
    match r_client (n_router s i) with
    | KAdding since => since <= T /\ ret T l + 1 = sub T l /\ sub since l = sub T l
    | _ => ret T l = sub T l
    end }.

Lemma times_later T T' l s : times T l s -> T <= T' -> times T' l s.
Proof.
  intros [A B C D E F G H I] L.
  assert (UA : forall f, until f T' l = until f T l) by (intros f; apply until_all; auto).
  split; unfold sub, arr, ret in *; rewrite ?UA; auto.
  - intros y Y. specialize (A y Y). lia.
  - intros NC. specialize (F NC). destruct (r_sender _); auto.
    + destruct F as (F1 & F2 & F3 & F4). repeat split; auto; lia.
    + destruct F as (F1 & F2). pose proof (until_mono (call_of i) (T - lat) (T' - lat) l ltac:(lia)).
      pose proof (until_mono (arrival_of i) (T - lat) (T' - lat) l ltac:(lia)). lia.
  - intros NC. specialize (I NC). destruct (r_client _); auto. destruct I as (I1 & I2 & I3). repeat split; auto; lia.
Qed.

Lemma times_init T : times T [] net_init.
Proof. split; cbn; try reflexivity; try tauto; intros; unfold sub, arr, ret, until; cbn; lia. Qed.

(** What an action does to router [i]. *)
Definition one (b : bool) : Z := if b then 1 else 0.
Definition adding (k : client) : option Z := match k with KAdding t => Some t | _ => None end.
Lemma arrival_step now a s s' : nstep c now a s = Some s' -> arrival_of i a = true -> exists p b, r_sender (n_router s i) = SOffer p b.
Proof. intros H. step_cases H; cbn [arrival_of]; try discriminate; intros X; apply Z.eqb_eq in X; subst; eauto. Qed.
Lemma return_step now a s s' : nstep c now a s = Some s' -> return_of i a = true ->
  exists t, adding (r_client (n_router s i)) = Some t /\ t + w_data_lat c <= now /\ adding (r_client (n_router s' i)) = None.
Proof.
  intros H. step_cases H; cbn [return_of]; try discriminate; intros X; apply Z.eqb_eq in X; subst. look. rewrite Z.eqb_refl. cbn.
  match goal with E : r_client _ = _ |- _ => rewrite E end. eexists. split; [reflexivity|]. split; [lia|reflexivity].
Qed.
Lemma call_step now a s s' : nstep c now a s = Some s' -> call_of i a = true ->
  adding (r_client (n_router s i)) = None /\ adding (r_client (n_router s' i)) = Some now /\ (n_crash s' = None -> 0 <= w_data_lat c) .
Proof.
  intros H. step_cases H; cbn [call_of]; try discriminate; intros X; apply Z.eqb_eq in X; subst; look; rewrite ?Z.eqb_refl; cbn;
  match goal with E : r_client _ = _ |- _ => rewrite E end; (split; [reflexivity|]; split; [reflexivity|]); intros; try discriminate; lia.
Qed.
Lemma client_step now a s s' : nstep c now a s = Some s' -> return_of i a = false -> call_of i a = false ->
  adding (r_client (n_router s' i)) = adding (r_client (n_router s i)).
Proof.
  intros H. step_cases H; cbn [return_of call_of]; look; intros X Y.
  all: repeat match goal with |- context [?x =? ?y] => destruct (Z.eqb_spec x y); subst; look end; try reflexivity; try congruence.
  all: try match goal with E : r_client (n_router _ _) = _ |- _ => rewrite E end; cbn; try reflexivity; rewrite ?Z.eqb_refl in *; try discriminate.
Qed.
Lemma count_step now a s s' : nstep c now a s = Some s' -> n_crash s' = None ->
  zlen (r_submitted (n_router s' i)) = zlen (r_submitted (n_router s i)) + one (call_of i a) /\
  zlen (in_flight (n_router s' i)) + zlen (r_queue (n_router s' i)) =
  zlen (in_flight (n_router s i)) + zlen (r_queue (n_router s i)) + one (call_of i a) - one (arrival_of i a).
Proof.
  intros H NC. unfold in_flight. step_cases H; cbn [arrival_of call_of]; look; try discriminate NC.
  all: repeat match goal with |- context [?x =? ?y] => destruct (Z.eqb_spec x y); subst; look end; try congruence.
  all: try match goal with E : r_sender (n_router _ _) = _ |- _ => rewrite E end.
  all: try match goal with E : r_queue (n_router _ _) = _ |- _ => rewrite E end.
  all: rewrite ?zlen_app; unfold zlen, one; cbn [length]; lia.
Qed.
Lemma sender_step now a s s' : nstep c now a s = Some s' -> n_crash s' = None -> (forall k, Forall (fun p => pk_src p = k) (r_queue (n_router s k))) ->
  match r_sender (n_router s' i) with
  | STravel p since b => (r_sender (n_router s i) = STravel p since b) \/
      (since = now /\ fst (get_latency c (pk_src p) (pk_dst p)) = lat /\ in_flight (n_router s i) = [] /\ r_queue (n_router s i) <> [] /\
       call_of i a = false /\ arrival_of i a = false)
  | SOffer p b => r_sender (n_router s i) = SOffer p b /\ arrival_of i a = false \/
      exists since b, r_sender (n_router s i) = STravel p since b /\ since + fst (get_latency c (pk_src p) (pk_dst p)) <= now /\
        call_of i a = false /\ arrival_of i a = false
  | _ => True
  end.
Proof.
  intros H NC OWN. unfold in_flight. pose proof (OWN i) as O.
  step_cases H; cbn [arrival_of call_of]; look; try discriminate NC.
  all: repeat match goal with |- context [?x =? ?y] => destruct (Z.eqb_spec x y); subst; look end; try congruence.
  all: try match goal with |- match r_sender ?r with _ => _ end => destruct (r_sender r) eqn:?; auto end.
  all: auto.
  - right. rewrite E0, E1 in *. inversion_clear O as [|? ? S _]. repeat split; try discriminate. eapply intra_latency; eauto.
    now destruct (known_router c (pk_dst p)).
  - right. exists since, inter. repeat split; auto. lia.
Qed.

Lemma times_step now a l s s' : times now l s -> (forall k, Forall (fun p => pk_src p = k) (r_queue (n_router s k))) ->
  nstep c now a s = Some s' -> times now (l ++ [(now, a)]) s'.
Proof.
  intros [A B C D E F G H0 I] OWN H.
  assert (NC : n_crash s = None) by (unfold nstep, nstep_cap in H; destruct (n_crash s); [discriminate|reflexivity]).
  specialize (B NC). specialize (C NC). specialize (F NC). specialize (I NC).
  assert (AL : forall f t, now <= t -> until f t l = until f now l) by (intros f t L; apply until_all; auto).
  pose proof (fun t => until_nonneg (call_of i) t l) as P1. pose proof (fun t => until_nonneg (arrival_of i) t l) as P2.
  pose proof (fun t t' => until_mono (call_of i) t t' l) as M1. pose proof (fun t t' => until_mono (arrival_of i) t t' l) as M2.
  assert (I' : match adding (r_client (n_router s i)) with
               | Some since => since <= now /\ ret now l + 1 = sub now l /\ sub since l = sub now l
               | None => ret now l = sub now l end) by (destruct (r_client (n_router s i)); exact I).
  clear I. unfold sub, arr, ret in *.
  split; unfold sub, arr, ret; intros; rewrite ?until_snoc.
  - apply in_app_iff in H1 as [Y|[<-|[]]]; [now apply A|cbn; lia].
  - destruct (count_step _ _ _ _ H H1) as (X & _). rewrite X, <- B. unfold one. rewrite Z.leb_refl, andb_true_r. reflexivity.
  - destruct (count_step _ _ _ _ H H1) as (X & Y). rewrite X. unfold one in *. rewrite Z.leb_refl, andb_true_r. lia.
  - destruct (arrival_of i a) eqn:AR; cbn [andb].
    + destruct (arrival_step _ _ _ _ H AR) as (p & b & S). rewrite S in F. assert (CA : call_of i a = false) by (destruct a; try discriminate AR; reflexivity).
      rewrite CA. cbn [andb]. destruct (Z.leb_spec now t) as [L|L]; [|specialize (D t); lia].
      rewrite (AL _ _ L). specialize (M1 (now - lat) (t - lat)). lia.
    + specialize (D t). destruct (call_of i a && _); lia.
  - destruct (arrival_of i a) eqn:AR; cbn [andb]; [|specialize (E t H1); lia].
    destruct (arrival_step _ _ _ _ H AR) as (p & b & S). rewrite S in F.
    destruct (Z.leb_spec now t) as [L|L].
    + rewrite (AL _ _ L). specialize (M2 (now - lat) (t - lat)). destruct (now <=? t - lat); lia.
    + specialize (E t H1). destruct (now <=? t - lat); lia.
  - pose proof (sender_step _ _ _ _ H H1 OWN) as S. unfold in_flight in *. rewrite ?Z.leb_refl, ?andb_true_r.
    destruct (r_sender (n_router s' i)) as [|p since b|p b|p b|p b] eqn:SS; auto.
    + destruct S as [S|(-> & S1 & S2 & S3 & S4 & S5)].
      * rewrite S in F. destruct F as (F1 & F2 & F3 & F4). repeat split; auto; rewrite ?until_snoc.
        -- destruct (arrival_of i a) eqn:AR; [destruct (arrival_step _ _ _ _ H AR) as (? & ? & S'); congruence|]. destruct (call_of i a && _); lia.
        -- destruct (arrival_of i a) eqn:AR; [destruct (arrival_step _ _ _ _ H AR) as (? & ? & S'); congruence|]. cbn [andb]. lia.
      * split; [auto|]. split; [lia|]. rewrite ?until_snoc, ?S4, ?S5. cbn [andb].
        assert (Q : 1 <= zlen (r_queue (n_router s i))) by (destruct (r_queue (n_router s i)); [congruence|unfold zlen; cbn [length]; lia]).
        change (zlen (@nil packet)) with 0 in *. rewrite S2 in C. change (zlen (@nil packet)) with 0 in C. lia.
    + destruct S as [(S & AR)|(since & b' & S & S1 & S2 & S3)].
      * rewrite S in F. rewrite ?until_snoc, ?AR. cbn [andb]. destruct (call_of i a && _); lia.
      * rewrite S in F. destruct F as (F1 & F2 & F3 & F4). rewrite ?until_snoc, ?S2, ?S3. cbn [andb]. rewrite F1 in S1.
        specialize (M1 since (now - lat)). specialize (M2 since (now - lat)). lia.
  - destruct (return_of i a) eqn:RT; cbn [andb].
    + destruct (return_step _ _ _ _ H RT) as (u & U1 & U2 & _). rewrite U1 in I'. assert (CA : call_of i a = false) by (destruct a; try discriminate RT; reflexivity).
      rewrite CA. cbn [andb]. destruct (Z.leb_spec now t) as [L|L]; [|specialize (G t); lia].
      rewrite (AL _ _ L). specialize (M1 u (t - w_data_lat c)). lia.
    + specialize (G t). destruct (call_of i a && _); lia.
  - destruct (call_of i a) eqn:CA; cbn [andb]; [|specialize (H0 t H1); lia].
    destruct (call_step _ _ _ _ H CA) as (U & _). rewrite U in I'.
    destruct (Z.leb_spec now t) as [L|L].
    + rewrite (AL _ _ L). pose proof (G t) as Gt. rewrite (AL (return_of i) _ L) in Gt. destruct (now <=? t - w_data_lat c); lia.
    + specialize (H0 t H1). destruct (now <=? t - w_data_lat c); lia.
  - enough (X : match adding (r_client (n_router s' i)) with
               | Some since => since <= now /\ until (return_of i) now l + (if return_of i a && (now <=? now) then 1 else 0) + 1 = until (call_of i) now l + (if call_of i a && (now <=? now) then 1 else 0) /\
                   until (call_of i) since (l ++ [(now, a)]) = until (call_of i) now l + (if call_of i a && (now <=? now) then 1 else 0)
               | None => until (return_of i) now l + (if return_of i a && (now <=? now) then 1 else 0) = until (call_of i) now l + (if call_of i a && (now <=? now) then 1 else 0) end)
      by (destruct (r_client (n_router s' i)); exact X).
    rewrite Z.leb_refl, !andb_true_r. destruct (return_of i a) eqn:RT.
    + destruct (return_step _ _ _ _ H RT) as (u & U1 & U2 & U3). rewrite U3. rewrite U1 in I'.
      assert (CA : call_of i a = false) by (destruct a; try discriminate RT; reflexivity). rewrite CA. lia.
    + destruct (call_of i a) eqn:CA.
      * destruct (call_step _ _ _ _ H CA) as (U & V & _). rewrite V. rewrite U in I'. rewrite until_snoc, CA, Z.leb_refl. cbn [andb]. lia.
      * rewrite (client_step _ _ _ _ H RT CA). destruct (adding _); [|lia]. rewrite until_snoc, CA. cbn [andb]. lia.
Qed.

Lemma times_run T0 l : forall s, nascending T0 l = true -> nrun c l net_init = Some s -> exists T, times T l s /\ nreach c T s /\ forall y, In y l -> T0 <= fst y.
Proof.
  enough (G : forall l2 l1 s1 s T, times T l1 s1 -> nreach c T s1 -> nascending T l2 = true -> nrun c l2 s1 = Some s ->
    exists T, times T (l1 ++ l2) s /\ nreach c T s).
  { intros s A R. destruct (G l [] net_init s T0 (times_init T0) (nr_init _ _) A R) as (T & X & Y). exists T. split; [exact X|]. split; [exact Y|].
    change l with ([] ++ l) in A. apply nascending_app in A as (_ & A). intros y H. now apply A. }
  clear l. induction l2 as [|(now & a) l2 IH]; intros l1 s1 s T X R A H; cbn in *.
  - injection H as <-. rewrite app_nil_r. eauto.
  - destruct (nstep c now a s1) as [s2|] eqn:E; [|discriminate]. apply andb_prop in A as (A1 & A2). assert (L : T <= now) by lia.
    replace (l1 ++ (now, a) :: l2) with ((l1 ++ [(now, a)]) ++ l2) by (now rewrite <- app_assoc).
    apply (IH _ s2 s now); auto; [|eapply nr_step; eauto].
    eapply times_step; [eapply times_later; eauto| |exact E]. intros k. exact (proj1 (proj2 (own_reach c _ _ R k))).
Qed.
End Times.

Lemma latency c t0 l s i t : nascending t0 l = true -> nrun c l net_init = Some s ->
  until (arrival_of i) t l <= until (call_of i) (t - w_intra_lat c) l /\ until (return_of i) t l <= until (call_of i) (t - w_data_lat c) l.
Proof. intros A R. destruct (times_run c i t0 l s A R) as (T & X & _). split; [exact (tm_lat _ _ _ _ _ X t)|exact (tm_ret _ _ _ _ _ X t)]. Qed.

Lemma rate c t0 l s i t m : nascending t0 l = true -> nrun c l net_init = Some s -> 0 <= m -> 0 <= w_intra_lat c ->
  until (arrival_of i) t l - m <= until (call_of i) (t - (m + 1) * w_intra_lat c) l.
Proof.
  intros A R M L. destruct (times_run c i t0 l s A R) as (T & X & _). revert t. revert m M.
  apply (natlike_ind (fun m => forall t, until (arrival_of i) t l - m <= until (call_of i) (t - (m + 1) * w_intra_lat c) l)).
  - intros t. pose proof (tm_lat _ _ _ _ _ X t). replace (t - (0 + 1) * w_intra_lat c) with (t - w_intra_lat c) by lia. lia.
  - intros m M IH t. pose proof (tm_rate _ _ _ _ _ X t L). specialize (IH (t - w_intra_lat c)).
    replace (t - (Z.succ m + 1) * w_intra_lat c) with (t - w_intra_lat c - (m + 1) * w_intra_lat c) by lia. lia.
Qed.
Lemma calls_rate c t0 l s i t : nascending t0 l = true -> nrun c l net_init = Some s -> 0 <= w_data_lat c ->
  until (call_of i) t l <= until (call_of i) (t - w_data_lat c) l + 1.
Proof. intros A R L. destruct (times_run c i t0 l s A R) as (T & X & _). exact (tm_calls _ _ _ _ _ X t L). Qed.

(** ** Urgent executions *)
Section Urgent.
Variables (c : net_cfg) (i : Z).
Let lat := w_intra_lat c.
Let tk := until (take_of i).
Let tr := until (travel_of i).
Hypothesis LAT : 0 <= lat.
Hypothesis DLAT : 0 <= w_data_lat c.

Record on_time (T : Z) (l : list (Z * nact)) (s : net) : Prop := {
  ot_last : forall y, In y l -> fst y <= T;
  ot_b : forall t, t < T -> tk (t - lat) l <= tr t l;
  ot_sender : n_crash s = None ->
    match r_sender (n_router s i) with
    | STravel p since _ => known_router c i = true /\ fst (get_latency c (pk_src p) (pk_dst p)) = lat /\ since <= T <= since + lat /\ tk T l = tr T l + 1 /\
        (forall x, x < since -> tk x l <= tr T l) /\ tk since l = tr T l + 1
    | _ => tk T l = tr T l
    end;
  ot_e : forall t, tr t l <= tk (t - lat) l;
  ot_r : forall t, t < T -> until (call_of i) (t - w_data_lat c) l <= until (return_of i) t l;
  ot_client : n_crash s = None ->
    match adding (r_client (n_router s i)) with
    | Some since => known_router c i = true /\ since <= T <= since + w_data_lat c /\ until (call_of i) T l = until (return_of i) T l + 1 /\
        forall x, x < since -> until (call_of i) x l <= until (return_of i) T l
    | None => until (call_of i) T l = until (return_of i) T l
    end }.

Lemma on_time_init T : on_time T [] net_init.
Proof. split; cbn; try tauto; intros; unfold tk, tr, until; cbn; lia. Qed.

(** Time passes. *)
Lemma on_time_later T T' l s : on_time T l s -> n_crash s = None -> T <= T' ->
  (forall t' b, T <= t' < T' -> tile_call b = false -> nstep c t' b s = None) -> on_time T' l s.
Proof.
  intros [A B C F D E] NC L U. specialize (C NC). specialize (E NC).
  assert (UA : forall f t, T <= t -> until f t l = until f T l) by (intros f t X; apply until_all; auto).
  assert (CL : match r_sender (n_router s i) with STravel p since _ => T' <= since + lat | _ => True end).
  { destruct (r_sender (n_router s i)) as [|p since b|p b|p b|p b] eqn:S; auto. destruct C as (K & G & C1 & _).
    destruct (Z.le_gt_cases T' (since + lat)) as [X|X]; [exact X|exfalso].
    specialize (U (since + lat) (NTravel i) ltac:(lia) eq_refl). unfold nstep, nstep_cap in U. rewrite NC in U. cbn [tile_of] in U. rewrite K in U.
    cbn [negb] in U. unfold n_travel in U. rewrite S, G, Z.ltb_irrefl in U. destruct (buffer_key _ _ _); discriminate. }
  assert (CC : match adding (r_client (n_router s i)) with Some since => T' <= since + w_data_lat c | None => True end).
  { destruct (r_client (n_router s i)) as [|since| | | |] eqn:S; cbn [adding] in *; auto. destruct E as (K & E1 & _).
    destruct (Z.le_gt_cases T' (since + w_data_lat c)) as [X|X]; [exact X|exfalso].
    specialize (U (since + w_data_lat c) (NAdded i) ltac:(lia) eq_refl). unfold nstep, nstep_cap in U. rewrite NC in U. cbn [tile_of] in U. rewrite K in U.
    cbn [negb] in U. unfold n_added in U. rewrite S, Z.ltb_irrefl in U. discriminate. }
  unfold tk, tr in *. split; unfold tk, tr; intros.
  - specialize (A y H). lia.
  - destruct (Z.lt_ge_cases t T) as [X|X]; [now apply B|]. rewrite (UA _ t X).
    destruct (r_sender (n_router s i)) as [|p since b|p b|p b|p b]; try (pose proof (until_mono (take_of i) (t - lat) t l ltac:(lia)); rewrite (UA _ t X) in *; lia).
    destruct C as (_ & _ & _ & _ & C & _). apply C. lia.
  - rewrite !(UA _ T' L). destruct (r_sender (n_router s i)); auto. destruct C as (K & G & C1 & C2 & C3 & C4). repeat split; auto; lia.
  - apply F.
  - destruct (Z.lt_ge_cases t T) as [X|X]; [now apply D|]. rewrite (UA _ t X).
    destruct (adding (r_client (n_router s i))); [|pose proof (until_mono (call_of i) (t - w_data_lat c) t l ltac:(lia)); rewrite (UA _ t X) in *; lia].
    destruct E as (_ & _ & _ & E). apply E. lia.
  - rewrite !(UA _ T' L). destruct (adding (r_client (n_router s i))); auto. destruct E as (K & E1 & E2 & E3). repeat split; auto; lia.
Qed.

Lemma take_step now a s s' : nstep c now a s = Some s' -> n_crash s' = None -> (forall k, Forall (fun p => pk_src p = k) (r_queue (n_router s k))) -> take_of i a = true ->
  known_router c i = true /\ (exists p b, r_sender (n_router s' i) = STravel p now b /\ fst (get_latency c (pk_src p) (pk_dst p)) = lat) /\
  match r_sender (n_router s i) with STravel _ _ _ => False | _ => True end.
Proof.
  intros H NC OWN. pose proof (OWN i) as O. step_cases H; cbn [take_of]; try discriminate; intros X; apply Z.eqb_eq in X; subst; look; try discriminate NC.
  rewrite Z.eqb_refl. cbn [r_sender]. rewrite E0. split; [assumption|]. split; [|exact I]. exists p, b. split; [reflexivity|].
  rewrite E1 in O. inversion_clear O as [|? ? S _]. eapply intra_latency; eauto. now destruct (known_router c (pk_dst p)).
Qed.
Lemma travel_late now a s s' : nstep c now a s = Some s' -> n_crash s = None -> (forall k, Forall (fun p => pk_src p = k) (r_queue (n_router s k))) -> travel_of i a = true ->
  forall p u b, r_sender (n_router s i) = STravel p u b -> u + fst (get_latency c (pk_src p) (pk_dst p)) <= now.
Proof.
  intros H NC OWN. step_cases H; cbn [travel_of]; try discriminate; intros X p' u' b' S; apply Z.eqb_eq in X; subst; look; try lia.
  all: rewrite S in *; match goal with Q : STravel _ _ _ = STravel _ _ _ |- _ => injection Q as <- <- <- | _ => idtac end; try lia.
Qed.
Lemma travel_step now a s s' : nstep c now a s = Some s' -> travel_of i a = true ->
  (exists p t b, r_sender (n_router s i) = STravel p t b) /\ match r_sender (n_router s' i) with STravel _ _ _ => False | _ => True end.
Proof.
  intros H. step_cases H; cbn [travel_of]; try discriminate; intros X; apply Z.eqb_eq in X; subst; look; rewrite Z.eqb_refl; cbn [r_sender]; eauto.
Qed.
Lemma other_step now a s s' : nstep c now a s = Some s' -> take_of i a = false -> travel_of i a = false ->
  match r_sender (n_router s' i), r_sender (n_router s i) with
  | STravel p t b, STravel p' t' b' => p = p' /\ t = t'
  | STravel _ _ _, _ | _, STravel _ _ _ => False
  | _, _ => True end.
Proof.
  intros H. step_cases H; cbn [take_of travel_of]; look; intros X Y.
  all: repeat match goal with |- context [?x =? ?y] => destruct (Z.eqb_spec x y); subst; look end; try congruence.
  all: try match goal with E : r_sender (n_router _ _) = _ |- _ => rewrite E end; rewrite ?Z.eqb_refl in *; try discriminate; auto.
  all: match goal with |- context [r_sender ?x] => destruct (r_sender x); auto end.
Qed.
Lemma known_step now a s s' : nstep c now a s = Some s' -> known_router c (tile_of a) = true.
Proof. unfold nstep, nstep_cap. destruct (n_crash s); [discriminate|]. destruct (known_router c (tile_of a)); [reflexivity|discriminate]. Qed.

Lemma on_time_step now a l s s' : on_time now l s -> (forall k, Forall (fun p => pk_src p = k) (r_queue (n_router s k))) ->
  nstep c now a s = Some s' -> on_time now (l ++ [(now, a)]) s'.
Proof.
  intros [A B C F D E] OWN H.
  assert (NC : n_crash s = None) by (unfold nstep, nstep_cap in H; destruct (n_crash s); [discriminate|reflexivity]).
  specialize (C NC). specialize (E NC). unfold tk, tr in *.
  assert (EARLY : forall f t, t < now -> until f t (l ++ [(now, a)]) = until f t l).
  { intros f t L. rewrite until_snoc. replace (now <=? t) with false by lia. rewrite andb_false_r. lia. }
  assert (NOW : forall f, until f now (l ++ [(now, a)]) = until f now l + one (f a)).
  { intros f. rewrite until_snoc, Z.leb_refl, andb_true_r. reflexivity. }
  split; unfold tk, tr; intros.
  - apply in_app_iff in H0 as [Y|[<-|[]]]; [now apply A|cbn; lia].
  - rewrite !EARLY by lia. now apply B.
  - rewrite !NOW. destruct (take_of i a) eqn:TK; [|destruct (travel_of i a) eqn:TR].
    + destruct (take_step _ _ _ _ H H0 OWN TK) as (K & (p & b & S & G) & N). rewrite S.
      assert (TR : travel_of i a = false) by (destruct a; try discriminate TK; reflexivity). rewrite TR. cbn [one].
      assert (TT : until (take_of i) now l = until (travel_of i) now l) by (destruct (r_sender (n_router s i)); auto; destruct N).
      repeat split; auto; try lia; [|rewrite NOW, TK; cbn [one]; lia]. intros x X. rewrite EARLY by lia. pose proof (until_mono (take_of i) x now l ltac:(lia)). lia.
    + destruct (travel_step _ _ _ _ H TR) as ((p & u & b & S) & N). rewrite S in C. cbn [one].
      assert (TT : until (take_of i) now l + 0 = until (travel_of i) now l + 1) by lia.
      destruct (r_sender (n_router s' i)); auto. destruct N.
    + pose proof (other_step _ _ _ _ H TK TR) as O. cbn [one].
      destruct (r_sender (n_router s' i)), (r_sender (n_router s i)); try (destruct O; fail); try lia.
      destruct O as (<- & <-). destruct C as (K & G & C1 & C2 & C3 & C4). repeat split; auto; try lia.
      * intros x X. rewrite EARLY by lia. specialize (C3 x X). lia.
      * rewrite until_snoc, TK. cbn [andb one]. lia.
  - rewrite !until_snoc. destruct (travel_of i a) eqn:TR; [|cbn [andb one]; specialize (F t); pose proof (one_nonneg (take_of i a && (now <=? t - lat))); lia].
    pose proof (travel_late _ _ _ _ H NC OWN TR) as V.
    destruct (travel_step _ _ _ _ H TR) as ((p & u & b & S) & _). rewrite S in C. destruct C as (_ & G & C1 & C2 & _ & C4).
    specialize (V p u b S). rewrite G in V. specialize (F t). pose proof (one_nonneg (take_of i a && (now <=? t - lat))).
    destruct (Z.leb_spec now t) as [X|X]; cbn [andb one]; [|lia]. pose proof (until_all (travel_of i) now t l A X).
    pose proof (until_mono (take_of i) u (t - lat) l ltac:(lia)). lia.
  - rewrite !EARLY by lia. now apply D.
  - rewrite !NOW. destruct (return_of i a) eqn:RT; [|destruct (call_of i a) eqn:CA].
    + destruct (return_step _ _ _ _ _ _ H RT) as (u & U1 & U2 & U3). rewrite U3. rewrite U1 in E.
      assert (CA : call_of i a = false) by (destruct a; try discriminate RT; reflexivity). rewrite CA. cbn [one]. lia.
    + destruct (call_step _ _ _ _ _ _ H CA) as (U & V & _). rewrite V. rewrite U in E. cbn [one].
      assert (K : known_router c i = true).
      { pose proof (known_step _ _ _ _ H) as K. destruct a; try discriminate CA. cbn in CA, K. apply Z.eqb_eq in CA. now subst. }
      repeat split; auto; try lia. intros x X. rewrite EARLY by lia. pose proof (until_mono (call_of i) x now l ltac:(lia)). lia.
    + rewrite (client_step _ _ _ _ _ _ H RT CA). cbn [one]. destruct (adding _); [|lia]. destruct E as (K & E1 & E2 & E3). repeat split; auto; try lia.
      intros x X. rewrite EARLY by lia. specialize (E3 x X). lia.
Qed.

Lemma on_time_run l2 : forall l1 s1 s T, on_time T l1 s1 -> nreach c T s1 -> nascending T l2 = true -> urgent c T l2 s1 -> nrun c l2 s1 = Some s ->
  on_time (end_of T l2) (l1 ++ l2) s.
Proof.
  induction l2 as [|(now & a) l2 IH]; intros l1 s1 s T X R A U H; cbn in *.
  - injection H as <-. now rewrite app_nil_r.
  - destruct U as (U1 & U2). destruct (nstep c now a s1) as [s2|] eqn:E; [|discriminate]. apply andb_prop in A as (A1 & A2). assert (L : T <= now) by lia.
    assert (NC : n_crash s1 = None) by (unfold nstep, nstep_cap in E; destruct (n_crash s1); [discriminate|reflexivity]).
    replace (l1 ++ (now, a) :: l2) with ((l1 ++ [(now, a)]) ++ l2) by (now rewrite <- app_assoc).
    apply (IH (l1 ++ [(now, a)]) s2 s now); auto.
    + eapply on_time_step; [eapply on_time_later; eauto| |exact E]. intros k. exact (proj1 (proj2 (own_reach c _ _ R k))).
    + eapply nr_step; eauto.
Qed.

(** The journey of a packet takes exactly the latency, and so does the call that hands it over. *)
Lemma exact_times T0 l s t : nascending T0 l = true -> urgent c T0 l net_init -> nrun c l net_init = Some s -> t < end_of T0 l ->
  until (travel_of i) t l = until (take_of i) (t - w_intra_lat c) l /\ until (return_of i) t l = until (call_of i) (t - w_data_lat c) l.
Proof.
  intros A U R L. pose proof (on_time_run l [] net_init s T0 (on_time_init T0) (nr_init _ _) A U R) as [_ B _ F D _].
  pose proof (proj2 (latency c T0 l s i t A R)). specialize (B t L). specialize (D t L). specialize (F t). unfold tk, tr, lat in *. cbn [app] in *. lia.
Qed.
End Urgent.
