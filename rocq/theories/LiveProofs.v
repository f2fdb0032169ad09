(** An execution that cannot go on is complete if any execution completes, unless a read was missed. *)
From Verif Require Import PyBase PyLemmas MemoryModel CoreModel DramModel DramSpec DramProofs DramProgress RouterModel RouterSpec RouterProofs
  SystemModel SystemSpec SystemBase SystemInv SystemOracle SystemDet LiveSpec.
From Coq Require Import ZifyBool ZifyNat Permutation.

(** ** What can happen can happen later *)
Lemma own_later lat t t' a d d' : dram_own a = true -> dstep lat t a d = Some d' -> t <= t' -> exists d2, dstep lat t' a d = Some d2.
Proof.
  unfold dstep. destruct (d_crash d); [discriminate|]. destruct a; try discriminate; intros _ H T.
  - eauto.
  - unfold dc_grant in *. destruct (d_bus d); [discriminate|]. destruct (d_granted d); [discriminate|]. destruct (_ <? 0); eauto.
  - unfold dc_finish in *. destruct (d_bus d) as [|r rest]; [discriminate|]. destruct (d_granted d) as [g|]; [|discriminate].
    destruct (t <? _) eqn:L; [discriminate|]. replace (t' <? g + lat * q_batches r) with false by lia.
    destruct (q_kind r); [destruct (mem_read _ _ _ _) as ([|] & ?)|destruct (mem_write _ _ _ _) as ([|] & ?); [destruct (update_ready _ _ _)|]]; eauto.
Qed.
Lemma net_later c t t' a s s' : nstep c t a s = Some s' -> t <= t' -> exists s2, nstep c t' a s = Some s2.
Proof.
  unfold nstep, nstep_cap. destruct (n_crash s); [discriminate|]. destruct (negb _); [discriminate|]. intros H T.
  destruct a; unfold n_submit, n_added, n_take, n_travel, n_poll, n_halt in *; cbv zeta in *; eauto.
  - destruct (r_client _); try discriminate. destruct (r_running _); try discriminate. destruct (_ <? 0); eauto.
  - destruct (r_client _); try discriminate. destruct (t <? _) eqn:L; [discriminate|]. replace (t' <? since + w_data_lat c) with false by lia. eauto.
  - destruct (r_running _); try discriminate. destruct (r_sender _); try discriminate. destruct (r_queue _); try discriminate. destruct (get_latency _ _ _). destruct (negb _); [eauto|]. destruct (_ <? 0); eauto.
  - destruct (r_sender _); try discriminate. destruct (t <? _) eqn:L; [discriminate|].
    match goal with |- context [t' <? ?x] => replace (t' <? x) with false by lia end. destruct (buffer_key _ _ _); eauto.
  - destruct (r_client _); try discriminate. destruct (r_running _); eauto.
  - destruct (r_client _); try discriminate. destruct (t <? _) eqn:L; [discriminate|]. replace (t' <? next) with false by lia. destruct (r_queue _); eauto.
Qed.

(** ** The packets that have left a router *)
Definition left_over (r : router) : list packet := in_flight r ++ r_queue r.
Lemma split_reach c t s : nreach c t s -> forall i, exists o, r_submitted (n_router s i) = o ++ left_over (n_router s i).
Proof.
  induction 1 as [|t t' a s s' R IH T H]; intros i; [exists []; reflexivity|].
  unfold left_over, in_flight in *. pose proof (IH i) as (o & E). pose proof H as HH.
  assert (QUIET : r_submitted (n_router s' i) = r_submitted (n_router s i) -> r_sender (n_router s' i) = r_sender (n_router s i) -> r_queue (n_router s' i) = r_queue (n_router s i) ->
    exists o0, r_submitted (n_router s' i) = o0 ++ match r_sender (n_router s' i) with STravel p _ _ | SOffer p _ => [p] | _ => [] end ++ r_queue (n_router s' i)).
  { intros -> -> ->. eauto. }
  step_cases H; look; repeat match goal with |- context [?x =? ?y] => destruct (Z.eqb_spec x y); subst; look end; try (apply QUIET; reflexivity);
    repeat match goal with E : r_sender _ = _ |- _ => rewrite E in * end;
    repeat match goal with E : r_queue _ = _ |- _ => rewrite E in * end;
    try (exists o; rewrite E; reflexivity);
    try (exists o; rewrite E, <- !app_assoc; reflexivity).
  all: try (exists (o ++ [p]); rewrite E; rewrite <- ?app_assoc; reflexivity).
Qed.
Definition gone (n : net) (i : Z) : Z := zlen (r_submitted (n_router n i)) - zlen (left_over (n_router n i)).
Lemma zlen_nonneg {X} (l : list X) : 0 <= zlen l. Proof. unfold zlen. lia. Qed.
Lemma gone_nonneg c t s i : nreach c t s -> 0 <= gone s i.
Proof. intros R. destruct (split_reach _ _ _ R i) as (o & E). unfold gone. rewrite E, zlen_app. pose proof (zlen_nonneg o). lia. Qed.

Lemma gone_step c t a s s' : nstep c t a s = Some s' -> forall i, gone s' i = gone s i \/
  (a = NStore i /\ gone s' i = gone s i + 1 /\ known_router c i = true /\ exists p b, r_sender (n_router s i) = SOffer p b /\ zlen (r_buffers (n_router s (pk_dst p)) (pk_src p)) < 1).
Proof.
  intros H i. unfold gone, left_over, in_flight.
  step_cases H; look; repeat match goal with |- context [?x =? ?y] => destruct (Z.eqb_spec x y); subst; look end; try (left; reflexivity);
    repeat match goal with E : r_sender _ = _ |- _ => rewrite E in * end;
    repeat match goal with E : r_queue _ = _ |- _ => rewrite E in * end;
    try (left; rewrite ?zlen_app; rewrite ?zlen_cons; unfold zlen; cbn [length app]; lia).
  all: right; split; [reflexivity|]; split; [rewrite ?zlen_app, ?zlen_cons; unfold zlen; cbn [length app]; lia|]; split; [assumption|];
    exists p, inter; split; [first [assumption|reflexivity]|]; unfold buffer_capacity in *; try rewrite Z.eqb_refl in *; look;
    repeat match goal with E : context [?x =? ?y] |- _ => destruct (Z.eqb_spec x y); subst; look end; cbn in *; try congruence; try lia.
Qed.

(** Lists that start alike. *)
Lemma app_same_length {X} (a b c d : list X) : a ++ b = c ++ d -> length a = length c -> a = c /\ b = d.
Proof. revert c. induction a as [|x a IH]; intros [|y c] E L; cbn in *; try discriminate; [auto|]. injection E as -> E. injection L as L. destruct (IH _ E L) as (-> & ->). auto. Qed.
Lemma app_shorter {X} (a b c d : list X) : a ++ b = c ++ d -> (length a <= length c)%nat -> exists e, c = a ++ e.
Proof. revert c. induction a as [|x a IH]; intros c E L; [exists c; reflexivity|]. destruct c as [|y c]; cbn in *; [lia|]. injection E as -> E. destruct (IH _ E ltac:(lia)) as (e & ->). exists e. reflexivity. Qed.
Lemma from_tile_app k l1 l2 : from_tile k (l1 ++ l2) = from_tile k l1 ++ from_tile k l2.
Proof. unfold from_tile. now rewrite filter_app, map_app. Qed.

(** What has left router [i] for tile [k] is in its buffer or has been taken from it. *)
Lemma out_stream c t s i k o : nreach c t s -> r_submitted (n_router s i) = o ++ left_over (n_router s i) ->
  for_tile k o = from_tile i (r_delivered (n_router s k)) ++ from_tile i (in_hand (n_router s k)) ++ r_buffers (n_router s k) i.
Proof.
  intros R E. pose proof (stream_reach _ _ _ R i k) as ST. unfold stream in ST. rewrite E in ST. unfold left_over in ST. rewrite !for_tile_app' in ST.
  rewrite !app_assoc in ST. apply app_inv_tail in ST. apply app_inv_tail in ST. rewrite ST, <- app_assoc. reflexivity.
Qed.
