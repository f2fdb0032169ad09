(** Sends, receives and halts of tile programs. *)
From Verif Require Import PyBase PyLemmas MemoryModel CoreModel DramModel DramSpec DramProofs RouterModel RouterSpec RouterProofs
  SystemModel SystemSpec SystemBase SystemInv SystemOracle SystemDet SystemCopy.
From Coq Require Import ZifyBool ZifyNat Permutation.

(** ** Splitting flat_maps *)
Lemma flat_map_split {A B} (f : A -> list B) (h : list A) (u : list B) x (w : list B) : (forall a, (length (f a) <= 1)%nat) ->
  flat_map f h = u ++ x :: w -> exists h1 a h2, h = h1 ++ a :: h2 /\ flat_map f h1 = u /\ f a = [x] /\ flat_map f h2 = w.
Proof.
  intros L. revert u. induction h as [|a h IH]; intros u E; cbn in E; [destruct u; discriminate|].
  specialize (L a). destruct (f a) as [|y [|]] eqn:F; cbn in *; try lia.
  - destruct (IH u E) as (h1 & b & h2 & -> & A1 & A2 & A3). exists (a :: h1), b, h2. cbn. rewrite F. auto.
  - destruct u as [|z u]; cbn in E.
    + injection E as -> E. exists [], a, h. auto.
    + injection E as -> E. destruct (IH u E) as (h1 & b & h2 & -> & A1 & A2 & A3). exists (a :: h1), b, h2. cbn. rewrite F, A1. auto.
Qed.

Lemma sent_split m1 a k w v data m2 : sent_blocks (m1 ++ EvSend a k w v data :: m2) = sent_blocks m1 ++ (a, w, v, data) :: sent_blocks m2.
Proof. unfold sent_blocks. rewrite flat_map_app. reflexivity. Qed.
Lemma received_split l1 a i w v rows l2 : received_blocks (l1 ++ EvRecv a i w v rows :: l2) = received_blocks l1 ++ (a, rows) :: received_blocks l2.
Proof. unfold received_blocks. rewrite flat_map_app. reflexivity. Qed.

Lemma program_reads_entry e x : match e with
    | EDone r _ _ data => if q_core r =? -1 then match q_kind r with RRead w v => [(q_start r, w, v, data)] | _ => [] end else []
    | _ => [] end = [x] ->
  exists r g f, e = EDone r g f (snd x) /\ q_core r = -1 /\ q_start r = fst (fst (fst x)) /\ q_kind r = RRead (snd (fst (fst x))) (snd (fst x)).
Proof.
  destruct e as [|r g f data]; [discriminate|]. destruct (Z.eqb_spec (q_core r) (-1)) as [E|E]; [|discriminate].
  destruct (q_kind r) eqn:K; [|discriminate]. intros [= <-]. cbn. exists r, g, f. auto.
Qed.
Lemma program_writes_entry e x : match e with
    | EDone r _ _ _ => if q_core r =? -1 then match q_kind r with RWrite rows => [(q_start r, rows)] | _ => [] end else []
    | _ => [] end = [x] ->
  exists r g f data, e = EDone r g f data /\ q_core r = -1 /\ q_start r = fst x /\ q_kind r = RWrite (snd x).
Proof.
  destruct e as [|r g f data]; [discriminate|]. destruct (Z.eqb_spec (q_core r) (-1)) as [E|E]; [|discriminate].
  destruct (q_kind r) eqn:K; [discriminate|]. intros [= <-]. cbn. exists r, g, f, data. auto.
Qed.
Ltac one_entry := let e := fresh in intros e; destruct e as [|? ? ? ?]; cbn; [lia|]; destruct (_ =? -1); cbn; [|lia]; destruct (q_kind _); cbn; lia.

Section Node.
Context (c : sys_cfg) (j : job) (t : Z) (s : sys) (SZ : 0 <= y_size c) (R : sreach c j t s).
Let dr (i : Z) : dram := t_dram (s_tile s i).

(** The read of a send. *)
Lemma send_read i m1 a k w v data m2 : t_log (s_tile s i) = m1 ++ EvSend a k w v data :: m2 ->
  exists h1 r g f h2, d_history (dr i) = h1 ++ EDone r g f data :: h2 /\ program_reads h1 = sent_blocks m1 /\
    q_core r = -1 /\ q_start r = a /\ q_kind r = RRead w v /\ zlen data = w * v /\ 0 <= a /\ a + w * v <= y_size c /\
    forall o, 0 <= o < w * v -> exists x, last_written (rev h1) (a + o) = Some x /\ znth 0 data o = wrap32 x.
Proof.
  intros L. pose proof (sreach_dinv _ _ SZ _ _ R i) as DI. pose proof (cv_read _ _ _ (sreach_cinv _ _ _ _ SZ R i)) as CR.
  rewrite L, sent_split, <- app_assoc in CR. cbn [app] in CR. apply flat_map_split in CR as (h1 & e & h2 & E & E1 & E2 & _); [|one_entry].
  apply program_reads_entry in E2 as (r & g & f & -> & Q1 & Q2 & Q3). cbn in *. exists h1, r, g, f, h2.
  destruct (i_hist _ _ _ _ DI _ _ _ _ _ _ E) as ((IR & _ & _ & _ & _ & X) & _). rewrite Q3 in X. destruct X as (_ & X1 & X2).
  unfold in_range, q_length, covers in *. rewrite Q3, Q2 in *. unfold dr. repeat split; auto; try lia.
  intros o Ho. destruct (X2 (a + o)) as (x & Y1 & Y2); [unfold q_length; rewrite Q3; lia|]. replace (a + o - a) with o in Y2 by lia. eauto.
Qed.

Lemma rows_length rows w v : zlen rows = v -> Forall (fun r : list Z => zlen r = w) rows -> zlen (concat rows) = w * v.
Proof.
  intros <- F. induction F as [|r rows H F IH]; [unfold zlen; cbn; lia|]. cbn [concat]. rewrite DramProofs.zlen_app, IH.
  unfold zlen in *. cbn [length]. lia.
Qed.

Lemma last_written_skip h a : (forall e, In e h -> ~ stores e a) -> forall h', last_written (h ++ h') a = last_written h' a.
Proof.
  intros H h'. induction h as [|e h IH]; [reflexivity|]. cbn [app last_written].
  pose proof (H e (or_introl eq_refl)) as N. rewrite IH by (intros e' I; apply H; now right).
  destruct e as [vals|r g f data]; cbn in N.
  - replace ((0 <=? a) && (a <? zlen vals)) with false by lia. auto.
  - destruct (q_kind r) eqn:K; [auto|]. destruct (coversb r a) eqn:E; [|auto]. exfalso. apply N. unfold is_read. rewrite K. split; [auto|].
    unfold covers, coversb in *. lia.
Qed.

(** The write of a receive. *)
Lemma receive_write k l1 a i w v rows l2 : t_log (s_tile s k) = l1 ++ EvRecv a i w v rows :: l2 ->
  zlen rows = v /\ Forall (fun r => zlen r = w) rows /\
  ((l2 = [] /\ (exists id, t_phase (s_tile s k) = PRecvWrite id) /\ program_writes (d_history (dr k)) = received_blocks l1) \/
   exists h1 r g f h2, d_history (dr k) = h1 ++ EDone r g f [] :: h2 /\ program_writes h1 = received_blocks l1 /\
     q_core r = -1 /\ q_start r = a /\ q_kind r = RWrite rows /\ 0 <= a /\ a + w * v <= y_size c /\
     (forall b, last_written (rev (h1 ++ [EDone r g f []])) b =
        if (a <=? b) && (b <? a + w * v) then Some (znth 0 (concat rows) (b - a)) else last_written (rev h1) b) /\
     forall o, 0 <= o < w * v -> (forall e, In e h2 -> ~ stores e (a + o)) ->
       znth 0 (cells (d_mem (dr k))) (a + o) = wrap32 (znth 0 (concat rows) o)).
Proof.
  intros L. pose proof (sreach_dinv _ _ SZ _ _ R k) as DI. pose proof (sreach_cinv _ _ _ _ SZ R k) as CI.
  pose proof (cv_event _ _ _ CI) as EV. rewrite L in EV. apply Forall_app in EV as (_ & EV). inversion_clear EV as [|? ? EV1 EV2]. cbn in EV1. destruct EV1 as (ZV & ZW).
  split; [auto|]. split; [auto|]. pose proof (rows_length _ _ _ ZV ZW) as ZC.
  pose proof (cv_write _ _ _ CI) as CW. rewrite L, received_split in CW.
  assert (X : (exists w0, program_writes (d_history (dr k)) = received_blocks l1 ++ (a, rows) :: w0) \/
              (program_writes (d_history (dr k)) = received_blocks l1 /\ waiting_write (s_tile s k) <> [])).
  { fold (dr k) in CW. assert (WW : waiting_write (s_tile s k) = [] \/ exists x, waiting_write (s_tile s k) = [x]).
    { unfold waiting_write. destruct (prog_req _) as [((id & a0) & [w0 v0|rows0])|]; auto. destruct (result_of _ _); eauto. }
    destruct WW as [WW|(x & WW)]; [rewrite WW, app_nil_r in CW; eauto|]. rewrite WW in *.
    destruct (received_blocks l2) as [|y l] eqn:EL using rev_ind.
    - apply app_inj_tail in CW as (CW & _). right. split; [auto|discriminate].
    - clear IHl. rewrite app_comm_cons, app_assoc in CW. apply app_inj_tail in CW as (CW & _). left. eauto. }
  destruct X as [(w0 & X)|(X & NW)].
  - right. apply flat_map_split in X as (h1 & e & h2 & E & E1 & E2 & _); [|one_entry].
    apply program_writes_entry in E2 as (r & g & f & data & -> & Q1 & Q2 & Q3). cbn in *.
    destruct (i_hist _ _ _ _ DI _ _ _ _ _ _ E) as ((IR & _ & _ & _ & _ & Y) & _). rewrite Q3 in Y. subst data.
    assert (LW : forall b, last_written (rev (h1 ++ [EDone r g f []])) b =
        if (a <=? b) && (b <? a + w * v) then Some (znth 0 (concat rows) (b - a)) else last_written (rev h1) b).
    { intros b. rewrite rev_app_distr. cbn [rev app last_written]. rewrite Q3. unfold coversb, q_length. rewrite Q3, Q2, ZC. reflexivity. }
    exists h1, r, g, f, h2. unfold in_range, q_length in IR. rewrite Q3, Q2 in IR. repeat split; auto; try lia.
    intros o Ho NS. pose proof (i_mem _ _ _ _ DI (a + o) ltac:(lia)) as M. fold (dr k) in M. rewrite E in M.
    change (EDone r g f [] :: h2) with ([EDone r g f []] ++ h2) in M. rewrite app_assoc, rev_app_distr in M.
    rewrite last_written_skip in M by (intros e I; apply NS; now apply in_rev). rewrite LW in M.
    replace ((a <=? a + o) && (a + o <? a + w * v)) with true in M by lia. replace (a + o - a) with o in M by lia. apply M.
  - left. assert (PH : exists id, t_phase (s_tile s k) = PRecvWrite id).
    { unfold waiting_write, prog_req in NW. destruct (t_phase (s_tile s k)) as [|id|rs|got|id|]; eauto; exfalso; apply NW; auto.
      destruct (t_prog _) as [|[]]; auto. }
    destruct PH as (id & PH). split; [|eauto].
    pose proof (ti_prog _ _ _ _ (sreach_tinv _ _ SZ _ _ R k)) as PS. unfold prog_shape in PS. rewrite PH in PS.
    destruct PS as (a0 & s0 & w0 & v0 & r0 & l & rows0 & P & LG).
    (* the last event is the receive being written, and all other receives are written *)
    fold (dr k) in CW. rewrite X in CW. destruct l2 as [|e l2] using rev_ind; [auto|]. clear IHl2. exfalso. rewrite L in LG.
    rewrite app_comm_cons, app_assoc in LG. apply app_inj_tail in LG as (LG & ->).
    unfold received_blocks in CW at 2. rewrite flat_map_app in CW. cbn in CW.
    assert (ZL : zlen (waiting_write (s_tile s k)) <= 1).
    { unfold waiting_write. destruct (prog_req _) as [((? & ?) & [|])|]; try (unfold zlen; cbn; lia). destruct (result_of _ _); unfold zlen; cbn; lia. }
    apply (f_equal (@length _)) in CW. rewrite !app_length in CW. cbn [length] in CW. rewrite app_length in CW. cbn [length] in CW. unfold zlen in ZL. lia.
Qed.

(** Packets of matching sends and receives. *)
Lemma firstn_more {X} (l : list X) a b : firstn (a + b) l = firstn a l ++ firstn b (skipn a l).
Proof. revert l. induction a as [|a IH]; intros [|x l]; cbn; auto; [now destruct b|]. now rewrite IH. Qed.
Lemma concat_rows w v (data : list Z) : 0 <= w -> 0 <= v -> zlen data = w * v -> concat (rows_of w v data) = data.
Proof.
  intros W V L. unfold rows_of.
  assert (X : forall n, concat (map (fun i => block data (i * w) w) (zrange (Z.of_nat n))) = block data 0 (w * Z.of_nat n)).
  { unfold zrange. intros n. rewrite Nat2Z.id. induction n as [|n IH].
    - cbn. unfold block. replace (Z.to_nat (w * 0)) with 0%nat by lia. reflexivity.
    - rewrite seq_S, !map_app, concat_app, IH. cbn [map concat Nat.add]. rewrite app_nil_r. unfold block. replace (Z.to_nat 0) with 0%nat by lia. cbn [skipn].
      replace (Z.to_nat (w * Z.of_nat (S n))) with (Z.to_nat (w * Z.of_nat n) + Z.to_nat w)%nat by (rewrite <- Z2Nat.inj_add by lia; f_equal; lia). rewrite firstn_more.
      do 3 f_equal. lia. }
  specialize (X (Z.to_nat v)). rewrite Z2Nat.id in X by lia. rewrite X. apply block_full. auto.
Qed.
Lemma length_rows w v (data : list Z) : length (rows_of w v data) = Z.to_nat v.
Proof. unfold rows_of. now rewrite map_length, length_zrange. Qed.

Lemma sent_count k l : Forall event_ok l -> zlen (sent_rows k l) = packets_sent_to k l.
Proof.
  induction 1 as [|e l H F IH]; [reflexivity|]. unfold sent_rows, packets_sent_to in *. cbn [flat_map map]. rewrite DramProofs.zlen_app, IH.
  unfold zsum. cbn [fold_right]. f_equal. destruct e; try reflexivity. destruct (_ =? _); [|reflexivity]. cbn in H. unfold zlen. rewrite length_rows. lia.
Qed.
Lemma taken_count k l : zlen (taken_packets k l) = packets_taken_from k l.
Proof.
  induction l as [|e l IH]; [reflexivity|]. unfold taken_packets, packets_taken_from in *. cbn [flat_map map]. rewrite DramProofs.zlen_app, IH.
  unfold zsum. cbn [fold_right]. f_equal. destruct e; try reflexivity; destruct (_ =? _); reflexivity.
Qed.

(** What was taken is a part of what was sent. *)
Lemma taken_prefix i k : exists l, sent_rows k (t_log (s_tile s i)) = taken_packets i (t_log (s_tile s k)) ++ l.
Proof.
  destruct (projections _ _ _ _ R) as ((t1 & _ & NR) & _). pose proof (stream_reach _ _ _ NR i k) as ST. unfold stream in ST.
  rewrite (cv_sent _ _ _ (sreach_cinv _ _ _ _ SZ R i) k), ST, (cv_taken _ _ _ (sreach_cinv _ _ _ _ SZ R k) i).
  rewrite <- !app_assoc. eexists. reflexivity.
Qed.

Lemma app_split_eq {X} (a b a' b' : list X) : a ++ b = a' ++ b' -> length a = length a' -> a = a' /\ b = b'.
Proof. revert a'. induction a as [|x a IH]; intros [|x' a'] E L; cbn in *; try discriminate; auto. injection E as -> E. destruct (IH a' E) as (-> & ->); auto. Qed.

Lemma matched_rows i k m1 a1 w v data m2 l1 a2 rows l2 :
  t_log (s_tile s i) = m1 ++ EvSend a1 k w v data :: m2 -> t_log (s_tile s k) = l1 ++ EvRecv a2 i w v rows :: l2 ->
  packets_sent_to k m1 = packets_taken_from i l1 -> concat rows = data.
Proof.
  intros LI LK M. destruct (taken_prefix i k) as (l & P). pose proof (cv_event _ _ _ (sreach_cinv _ _ _ _ SZ R i)) as EV.
  destruct (receive_write _ _ _ _ _ _ _ _ LK) as (ZV & _). destruct (send_read _ _ _ _ _ _ _ _ LI) as (_ & _ & _ & _ & _ & _ & _ & _ & _ & _ & ZD & _).
  rewrite LI, LK in P. rewrite LI in EV. apply Forall_app in EV as (EV1 & EV2). inversion_clear EV2 as [|? ? EV3 _]. cbn in EV3.
  pose proof (sent_count k m1 EV1) as S1. pose proof (taken_count i l1) as S2. rewrite M, <- S2 in S1.
  unfold sent_rows, taken_packets in *. rewrite !flat_map_app in P. cbn [flat_map] in P. rewrite !Z.eqb_refl in P. rewrite <- !app_assoc in P.
  apply app_split_eq in P as (_ & P); [|unfold zlen in S1; lia]. apply app_split_eq in P as (P & _).
  - rewrite <- P. apply concat_rows; tauto.
  - rewrite length_rows. unfold zlen in ZV. lia.
Qed.

(** ** Halting *)
Lemma halted_tile i : In EvHalt (t_log (s_tile s i)) ->
  Forall (fun p => cp_phase p = PHalted) (t_cores (s_tile s i)) /\
  r_running (n_router (s_net s) i) = false /\ r_queue (n_router (s_net s) i) = [] /\ being_sent (n_router (s_net s) i) = [] /\
  d_running (dr i) = false /\ d_queue (dr i) = [] /\ d_pending (dr i) = [] /\ d_bus (dr i) = [] /\
  (forall r, In r (d_submitted (dr i)) -> In r (completed (d_history (dr i)))).
Proof.
  intros H. assert (HH : has_halted (s_tile s i) = true) by (apply existsb_exists; exists EvHalt; auto).
  pose proof (sreach_tinv _ _ SZ _ _ R i) as TI. pose proof (sreach_dinv _ _ SZ _ _ R i) as DI. pose proof (ti_halt _ _ _ _ TI) as HS.
  destruct (halted_done _ _ _ _ _ _ _ DI TI (or_introl HH)) as (A1 & A2 & A3 & A4).
  destruct (projections _ _ _ _ R) as ((t1 & _ & NR) & _). pose proof (hs_router' _ _ HS HH) as RU.
  destruct (sent_reach _ _ _ NR i) as (_ & _ & _ & _ & X & _). destruct (X RU) as (Q & SI & _).
  unfold dr. rewrite (hs_dram _ _ HS), HH, Q, A1, A2, A3, RU. unfold being_sent. rewrite SI. repeat split; auto.
  pose proof (hs_cores _ _ HS (or_introl HH)) as HC. apply Forall_forall. intros p I. rewrite forallb_forall in HC. apply HC in I. unfold halted in I.
  destruct (cp_phase p); auto; discriminate.
Qed.

Lemma halt_kept i : In THalt (j_prog j i) -> In THalt (t_prog (s_tile s i)) \/ In EvHalt (t_log (s_tile s i)).
Proof.
  intros H. clear SZ dr. induction R as [t0|t0 t' a s0 s' R0 IH T ST]; [left; exact H|]. specialize (IH R0).
  apply sstep_go in ST as (CR & G).
  destruct G as [i0 a0 d K O0 HD HC HN HT|a0 n O0 HS HC HN HT|i0 k p d p' K KK HP HS HC HN HT|i0 n tt K HS HC HN HT|i0 k p e K KK HP HS ->|i0 e K HS ->];
    try rewrite HT; auto; try (destruct (Z.eq_dec i i0) as [->|NE]; [rewrite set_fun_eq|rewrite set_fun_neq by auto; auto]); auto.
  apply tile_step_go in HS. destruct HS; cbn [next_op set_phase t_prog t_log tl]; auto; rewrite ?in_app_iff; cbn; auto;
    match goal with P : t_prog _ = _ |- _ => rewrite ?P; rewrite P in IH end; cbn in IH |- *; destruct IH as [[IH|IH]|IH]; auto; discriminate IH.
Qed.
End Node.
