(** The claims about a node, put together from the invariants. *)
From Verif Require Import PyBase PyLemmas MemoryModel CoreModel DramModel DramSpec DramProofs RouterModel RouterSpec RouterProofs
  SystemModel SystemSpec SystemBase SystemInv SystemOracle SystemDet SystemCopy SystemProofs SystemDeadlock.
From Coq Require Import ZifyBool ZifyNat.

(** ** Larger buffers allow everything smaller ones do *)
Lemma nstep_more k k' c now a n n' : k <= k' -> nstep_cap k c now a n = Some n' -> nstep_cap k' c now a n = Some n'.
Proof.
  intros K. unfold nstep_cap. destruct (n_crash n); [auto|]. destruct (negb _); [auto|]. destruct a; auto. unfold n_store. destruct (r_sender _); auto.
  match goal with |- context [?x <? k] => destruct (x <? k) eqn:E; [replace (x <? k') with true by lia; auto|] end. intros H. discriminate H.
Qed.
Lemma with_net_more k k' c now a n t x : k <= k' -> with_net k c now a n t = x -> x <> Blocked -> with_net k' c now a n t = x.
Proof.
  intros K <- NB. unfold with_net in *. destruct (nstep_cap k _ _ _ _) as [n'|] eqn:E; [|congruence].
  now rewrite (nstep_more _ _ _ _ _ _ _ K E).
Qed.
Lemma tile_step_more k k' c now i n t x : k <= k' -> tile_step k c now i n t = x -> x <> Blocked -> tile_step k' c now i n t = x.
Proof.
  intros K. unfold tile_step. destruct (t_prog t) as [|op rest]; [auto|].
  destruct (t_phase t), op; auto; repeat match goal with |- context [match ?y with _ => _ end] => destruct y eqn:?; auto end; apply with_net_more; auto.
Qed.
Lemma sstep_more k k' c now a s s' : k <= k' -> sstep_cap k c now a s = Some s' -> sstep_cap k' c now a s = Some s'.
Proof.
  intros K. unfold sstep_cap. destruct (s_crash s); [auto|]. destruct a as [i a|a|i m|i]; [exact (fun H => H)| |exact (fun H => H)|].
  - destruct (negb _); [auto|]. destruct (nstep_cap k _ _ _ _) as [n'|] eqn:E; [|discriminate]. now rewrite (nstep_more _ _ _ _ _ _ _ K E).
  - destruct (negb _); [auto|]. destruct (tile_step k _ _ _ _ _) as [|e|x] eqn:E; [intros H; discriminate H| |]; (rewrite (tile_step_more _ _ _ _ _ _ _ _ K E); [auto|intros H; discriminate H]).
Qed.
Lemma srun_more k k' c l : k <= k' -> forall s s', srun k c l s = Some s' -> srun k' c l s = Some s'.
Proof.
  intros K. induction l as [|(t & a) l IH]; cbn; intros s s' H; [auto|].
  destruct (sstep_cap k c t a s) as [s1|] eqn:E; [|discriminate]. rewrite (sstep_more _ _ _ _ _ _ _ K E). auto.
Qed.

(** ** Copying *)
Lemma copies c j t s i k m1 a1 w v data m2 l1 a2 rows l2 : 0 <= y_size c -> sreach c j t s ->
  t_log (s_tile s i) = m1 ++ EvSend a1 k w v data :: m2 -> t_log (s_tile s k) = l1 ++ EvRecv a2 i w v rows :: l2 ->
  packets_sent_to k m1 = packets_taken_from i l1 -> (l2 <> [] \/ t_phase (s_tile s k) = PNext) ->
  exists h1 r g f h2 h1' r' g' f' h2',
    d_history (t_dram (s_tile s i)) = h1 ++ EDone r g f data :: h2 /\ program_reads h1 = sent_blocks m1 /\
    q_core r = -1 /\ q_start r = a1 /\ q_kind r = RRead w v /\ zlen data = w * v /\
    (forall o, 0 <= o < w * v -> exists x, last_written (rev h1) (a1 + o) = Some x /\ znth 0 data o = wrap32 x) /\
    d_history (t_dram (s_tile s k)) = h1' ++ EDone r' g' f' [] :: h2' /\ program_writes h1' = received_blocks l1 /\
    q_core r' = -1 /\ q_start r' = a2 /\ q_kind r' = RWrite rows /\ concat rows = data /\
    (forall b, last_written (rev (h1' ++ [EDone r' g' f' []])) b =
       if (a2 <=? b) && (b <? a2 + w * v) then Some (znth 0 data (b - a2)) else last_written (rev h1') b) /\
    (forall o, 0 <= o < w * v -> (forall e, In e h2' -> ~ stores e (a2 + o)) ->
       znth 0 (cells (d_mem (t_dram (s_tile s k)))) (a2 + o) = znth 0 data o).
Proof.
  intros SZ R LI LK M DONE. pose proof (matched_rows c j t s SZ R i k _ _ _ _ _ _ _ _ _ _ LI LK M) as MR.
  destruct (send_read c j t s SZ R i _ _ _ _ _ _ _ LI) as (h1 & r & g & f & h2 & H1 & H2 & H3 & H4 & H5 & H6 & H7 & H8 & H9).
  destruct (receive_write c j t s SZ R k _ _ _ _ _ _ _ LK) as (ZV & ZW & [(X & (id & Y) & _)|(h1' & r' & g' & f' & h2' & W1 & W2 & W3 & W4 & W5 & W6 & W7 & W8 & W9)]).
  { exfalso. destruct DONE as [D|D]; [auto|]. rewrite Y in D. discriminate. }
  exists h1, r, g, f, h2, h1', r', g', f', h2'. rewrite MR in W8, W9.
  split; [auto|]. split; [auto|]. split; [auto|]. split; [auto|]. split; [auto|]. split; [auto|]. split; [auto|].
  split; [auto|]. split; [auto|]. split; [auto|]. split; [auto|]. split; [auto|]. split; [auto|]. split; [auto|].
  intros o O ST. rewrite (W9 o O ST). destruct (H9 o O) as (x & _ & ->). apply wrap32_idem.
Qed.

(** ** Receives of another width *)
Lemma mismatch_step c j t s i addr src w v rest got from data : sreach c j t s -> on_node c i -> s_crash s = None ->
  t_prog (s_tile s i) = TRecv addr src w v :: rest -> t_phase (s_tile s i) = PRecv got ->
  r_client (n_router (s_net s) i) = KGot from data -> zlen data <> w ->
  forall now, exists s', sstep c now (STile i) s = Some s' /\ s_crash s' = None /\
    s_tile s' i = MkTile (t_dram (s_tile s i)) (t_cores (s_tile s i)) rest PNext (t_log (s_tile s i) ++ [EvMismatch addr src w v (got ++ [data])]) /\
    (forall k, k <> i -> s_tile s' k = s_tile s k) /\
    r_delivered (n_router (s_net s') i) = r_delivered (n_router (s_net s) i) ++ [(from, data)].
Proof.
  intros R N C P PH K W now. destruct (projections _ _ _ _ R) as (_ & _ & CF). destruct (CF C) as (CN & _).
  unfold sstep, sstep_cap. rewrite C. replace (negb (known_router (y_net c) i)) with false by (unfold known_router, on_node in *; lia).
  unfold tile_step. rewrite P, PH, K. replace (zlen data =? w) with false by lia.
  unfold with_net, nstep_cap. rewrite CN. cbn [tile_of]. replace (negb (known_router (y_net c) i)) with false by (unfold known_router, on_node in *; lia). unfold n_got. rewrite K. cbn. rewrite CN.
  eexists. split; [reflexivity|]. cbn. split; [auto|]. split; [rewrite set_fun_eq; unfold next_op; now rewrite P|].
  split; [intros k D; now rewrite set_fun_neq by auto|]. rewrite set_fun_eq. reflexivity.
Qed.

Lemma received_written c j t s i : 0 <= y_size c -> sreach c j t s ->
  exists rest, received_blocks (t_log (s_tile s i)) = program_writes (d_history (t_dram (s_tile s i))) ++ rest /\
    ((exists id, t_phase (s_tile s i) = PRecvWrite id) \/ rest = []).
Proof.
  intros SZ R. exists (waiting_write (s_tile s i)). split; [exact (cv_write _ _ _ (sreach_cinv _ _ _ _ SZ R i))|].
  unfold waiting_write, prog_req. destruct (t_phase (s_tile s i)) as [|id|rows|got|id|]; [right|right|right|right|left; eauto|right]; destruct (t_prog (s_tile s i)) as [|[] ?]; reflexivity.
Qed.

Lemma packets_taken_once c j t s i k : 0 <= y_size c -> sreach c j t s ->
  exists rest, from_tile k (r_delivered (n_router (s_net s) i)) = taken_packets k (t_log (s_tile s i)) ++ rest /\
    (t_phase (s_tile s i) = PRecv rest \/ rest = []).
Proof.
  intros SZ R. exists (partly (s_tile s i) k). split; [exact (cv_taken _ _ _ (sreach_cinv _ _ _ _ SZ R i) k)|].
  unfold partly. destruct (t_phase (s_tile s i)); auto. destruct (t_prog (s_tile s i)) as [|[] ?]; auto. destruct (_ =? _); auto.
Qed.

Lemma mismatches c j t s i addr src w v taken : 0 <= y_size c -> sreach c j t s -> In (EvMismatch addr src w v taken) (t_log (s_tile s i)) ->
  exists got bad, taken = got ++ [bad] /\ zlen got < v /\ Forall (fun r => zlen r = w) got /\ zlen bad <> w.
Proof. intros SZ R H. pose proof (cv_event _ _ _ (sreach_cinv _ _ _ _ SZ R i)) as EV. rewrite Forall_forall in EV. exact (EV _ H). Qed.

(** ** Halting *)
Lemma halted_is_quiet c j t s i : 0 <= y_size c -> sreach c j t s -> In THalt (j_prog j i) -> t_prog (s_tile s i) = [] ->
  Forall (fun p => cp_phase p = PHalted) (t_cores (s_tile s i)) /\
  r_running (n_router (s_net s) i) = false /\ r_queue (n_router (s_net s) i) = [] /\ being_sent (n_router (s_net s) i) = [] /\
  (forall k, for_tile k (r_submitted (n_router (s_net s) i)) =
     from_tile i (r_delivered (n_router (s_net s) k)) ++ from_tile i (in_hand (n_router (s_net s) k)) ++ r_buffers (n_router (s_net s) k) i) /\
  d_running (t_dram (s_tile s i)) = false /\ d_queue (t_dram (s_tile s i)) = [] /\ d_pending (t_dram (s_tile s i)) = [] /\ d_bus (t_dram (s_tile s i)) = [] /\
  (forall r, In r (d_submitted (t_dram (s_tile s i))) -> In r (completed (d_history (t_dram (s_tile s i))))).
Proof.
  intros SZ R H P. destruct (halt_kept c j t s R i H) as [X|X]; [rewrite P in X; contradiction|].
  destruct (halted_tile c j t s SZ R i X) as (H1 & H2 & H3 & H4 & H5 & H6 & H7 & H8 & H9).
  destruct (projections _ _ _ _ R) as ((t1 & _ & NR) & _).
  repeat (split; [first [assumption | intros k; exact (stopped_delivered _ _ _ _ k NR H2)]|]). auto.
Qed.
