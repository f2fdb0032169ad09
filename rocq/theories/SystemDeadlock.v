(** Program order, and a program that can never complete. *)
From Verif Require Import PyBase PyLemmas MemoryModel CoreModel DramModel DramSpec DramProofs RouterModel RouterSpec RouterProofs
  SystemModel SystemSpec SystemBase SystemInv SystemOracle SystemDet SystemCopy SystemProofs.
From Coq Require Import ZifyBool ZifyNat Permutation.

(** ** Program order *)
Definition unsent_packets (i : Z) (t : tile) : list packet :=
  match t_phase t, t_prog t with PSending rows, TSend _ tg _ _ :: _ => map (MkPacket i tg) rows | _, _ => [] end.

Record oinv (j : job) (n : net) (i : Z) (t : tile) : Prop := {
  o_ops : map instruction_of (t_log t) ++ instructions_left t = j_prog j i;
  o_sub : packets_of i (t_log t) = r_submitted (n_router n i) ++ unsent_packets i t }.

Lemma oinv_same j n n' i t t' : r_submitted (n_router n' i) = r_submitted (n_router n i) ->
  t_prog t' = t_prog t -> t_phase t' = t_phase t -> t_log t' = t_log t -> oinv j n i t -> oinv j n' i t'.
Proof. intros A P1 P2 P3 [C1 C2]. split; unfold unsent_packets, instructions_left in *; rewrite ?A, ?P1, ?P2, ?P3; auto. Qed.

Lemma oinv_tile c j i n t now n' t' : tinv c i n t -> tile_go c now i n t n' t' -> oinv j n i t -> oinv j n' i t'.
Proof.
  intros T G [C1 C2]. pose proof (ti_prog _ _ _ _ T) as PS. unfold prog_shape in PS.
  unfold unsent_packets, instructions_left in *. destruct G; rewrite H, H0 in *; split;
    unfold unsent_packets, instructions_left, next_op, set_phase; cbn [t_dram t_phase t_prog t_log tl]; rewrite ?H, ?H0, ?app_nil_r in *; auto; cbn [tl] in *; auto.
  - rewrite map_app, <- app_assoc. auto.
  - unfold packets_of in *. rewrite flat_snoc, C2. unfold rows_of. now rewrite map_map.
  - destruct (net_log _ _ _ _ _ H2 i) as (E1 & _). rewrite E1, Z.eqb_refl, C2, <- app_assoc. reflexivity.
  - destruct (net_log _ _ _ _ _ H3 i) as (E1 & _). now rewrite E1, app_nil_r.
  - rewrite map_app, <- app_assoc. auto.
  - unfold packets_of in *. now rewrite flat_snoc, app_nil_r.
  - destruct (net_log _ _ _ _ _ H3 i) as (E1 & _). now rewrite E1, app_nil_r.
  - rewrite map_app, <- app_assoc. auto.
  - unfold packets_of in *. rewrite flat_snoc, app_nil_r. destruct (net_log _ _ _ _ _ H3 i) as (E1 & _). now rewrite E1, app_nil_r.
  - destruct (net_log _ _ _ _ _ H2 i) as (E1 & _). now rewrite E1, app_nil_r.
  - rewrite map_app, <- app_assoc. auto.
  - unfold packets_of in *. now rewrite flat_snoc, app_nil_r.
Qed.

Lemma sreach_oinv c j t s : 0 <= y_size c -> sreach c j t s -> forall i, oinv j (s_net s) i (s_tile s i).
Proof.
  intros SZ R. induction R as [t|t t' a s s' R IH T H]; [intros i; split; reflexivity|].
  pose proof (sreach_tinv _ _ SZ _ _ R) as TI. apply sstep_go in H as (CR & G).
  destruct G as [i0 a0 d K O0 HD HC HN HT|a0 n O0 HS HC HN HT|i0 k p d p' K KK HP HS HC HN HT|i0 n tt K HS HC HN HT|i0 k p e K KK HP HS ->|i0 e K HS ->];
    intros i; specialize (IH i); try rewrite HN; try rewrite HT; auto.
  + destruct (Z.eq_dec i i0) as [->|NE]; [rewrite set_fun_eq|rewrite set_fun_neq by auto; auto]. apply (oinv_same _ (s_net s) _ _ (s_tile s i0)); auto.
  + destruct (net_quiet _ _ _ _ _ HS i (or_intror O0)). apply (oinv_same _ (s_net s) _ _ (s_tile s i)); auto.
  + destruct (Z.eq_dec i i0) as [->|NE]; [rewrite set_fun_eq|rewrite set_fun_neq by auto; auto]. apply (oinv_same _ (s_net s) _ _ (s_tile s i0)); auto.
  + apply tile_step_go in HS. destruct (Z.eq_dec i i0) as [->|NE]; [rewrite set_fun_eq|rewrite set_fun_neq by auto].
    * eapply oinv_tile; eauto.
    * apply tile_go_net in HS as [->|(a1 & E & _ & HS & _)]; [auto|]. assert (NE1 : i <> tile_of a1) by congruence.
      destruct (net_quiet _ _ _ _ _ HS i (or_introl NE1)). apply (oinv_same _ (s_net s) _ _ (s_tile s i)); auto.
Qed.

(** ** First in, first out *)
Lemma fifo_reach c t s : nreach c t s -> forall i, exists l, r_submitted (n_router s i) = l ++ being_sent (n_router s i) ++ r_queue (n_router s i).
Proof.
  induction 1 as [t|t t' a s s' R IH T H]; intros i; [exists []; reflexivity|]. destruct (IH i) as (l & E). unfold being_sent in *.
  step_cases H; look; eauto.
  all: repeat match goal with |- context [?x =? ?y] => destruct (Z.eqb_spec x y); subst; look end; eauto.
  all: repeat match goal with E : r_sender _ = _ |- _ => rewrite E in * end.
  all: repeat match goal with E : r_queue _ = _ |- _ => rewrite E in * end; eauto.
  all: rewrite E; first [exists l; rewrite <- ?app_assoc; reflexivity|exists (l ++ [p]); rewrite <- !app_assoc; reflexivity].
Qed.

(** ** The program *)
Definition hol_prog (i : Z) : list top :=
  if i =? 0 then [TSend 0 1 1 2; TSend 0 2 1 1; THalt]
  else if i =? 1 then [TRecv 0 2 1 1; TRecv 1 0 1 2; THalt]
  else if i =? 2 then [TRecv 0 0 1 1; TSend 0 1 1 1; THalt]
  else [].
Definition hol_job : job := MkJob hol_prog (fun _ => []) [5; 6].

Lemma prefix_cases {X} (l r : list X) x y : l ++ r = x :: y -> l = [] \/ exists l', l = x :: l' /\ l' ++ r = y.
Proof. destruct l as [|z l]; cbn; [auto|]. intros [= -> E]. right. eauto. Qed.

Section Hol.
Context (c : sys_cfg) (SZ : 0 <= y_size c).

Lemma no_packet_for_1 t s : sreach c hol_job t s -> t_log (s_tile s 1) = [] ->
  for_tile 1 (r_submitted (n_router (s_net s) 2)) = [].
Proof.
  intros R L1. pose proof (sreach_oinv _ _ _ _ SZ R) as OI. pose proof (sreach_cinv _ _ _ _ SZ R) as CI. pose proof (sreach_tinv _ _ SZ _ _ R) as TI.
  destruct (projections _ _ _ _ R) as ((t1 & _ & NR) & _).
  destruct (for_tile 1 (r_submitted (n_router (s_net s) 2))) as [|row rows] eqn:F; [auto|exfalso].
  (* tile 2 has sent, hence it has received *)
  assert (S2 : sent_rows 1 (t_log (s_tile s 2)) <> []).
  { rewrite (cv_sent _ _ _ (CI 2) 1), F. discriminate. }
  pose proof (o_ops _ _ _ _ (OI 2)) as OP2. cbn in OP2. unfold hol_prog in OP2. cbn in OP2.
  assert (TK : taken_packets 0 (t_log (s_tile s 2)) <> []).
  { pose proof (cv_event _ _ _ (CI 2)) as EV. destruct (t_log (s_tile s 2)) as [|e l] eqn:L2; [contradiction S2; reflexivity|].
    inversion_clear EV as [|? ? EV1 _]. cbn [map app] in OP2. injection OP2 as OP _. destruct e as [|a src w v rs|a src w v rs|]; try discriminate; cbn in OP; injection OP as -> -> -> ->; cbn.
    - cbn in EV1. destruct rs; [unfold zlen in EV1; cbn in EV1; lia|discriminate].
    - cbn in EV1. destruct EV1 as (got & bad & -> & _). destruct got; discriminate. }
  assert (D2 : from_tile 0 (r_delivered (n_router (s_net s) 2)) <> []).
  { rewrite (cv_taken _ _ _ (CI 2) 0). destruct (taken_packets _ _); [contradiction|discriminate]. }
  (* the three packets of tile 0 *)
  pose proof (stream_reach _ _ _ NR 0 2) as ST2. pose proof (stream_reach _ _ _ NR 0 1) as ST1. unfold stream in *.
  pose proof (o_ops _ _ _ _ (OI 0)) as OP0. cbn in OP0. unfold hol_prog in OP0. cbn in OP0.
  pose proof (o_sub _ _ _ _ (OI 0)) as SU0.
  set (n := s_net s) in *. set (sub := r_submitted (n_router n 0)) in *.
  assert (PK : exists x y z, packets_of 0 (t_log (s_tile s 0)) = [MkPacket 0 1 x; MkPacket 0 1 y; MkPacket 0 2 z] \/
                packets_of 0 (t_log (s_tile s 0)) = [MkPacket 0 1 x; MkPacket 0 1 y] \/ packets_of 0 (t_log (s_tile s 0)) = []).
  { destruct (prefix_cases _ _ _ _ OP0) as [E|(l1 & E & OP1)].
    - apply map_eq_nil in E. rewrite E. exists [], [], []. auto.
    - destruct (t_log (s_tile s 0)) as [|e0 lg]; [discriminate|]. cbn in E. injection E as E0 E. destruct e0 as [a tg w v data| | |]; try discriminate. injection E0 as -> -> -> ->.
      destruct (prefix_cases _ _ _ _ OP1) as [E2|(l2 & E2 & OP3)].
      + rewrite E2 in E. apply map_eq_nil in E. subst lg. eexists _, _, []. right. left. reflexivity.
      + rewrite E2 in E. destruct lg as [|e1 lg]; [discriminate|]. cbn in E. injection E as E1 E. destruct e1 as [a tg w v data1| | |]; try discriminate. injection E1 as -> -> -> ->.
        destruct (prefix_cases _ _ _ _ OP3) as [E3|(l3 & E3 & OP4)].
        * rewrite E3 in E. apply map_eq_nil in E. subst lg. eexists _, _, _. left. reflexivity.
        * rewrite E3 in E. destruct lg as [|e2 lg]; [discriminate|]. cbn in E. injection E as E4 E. destruct e2; try discriminate. apply app_eq_nil in OP4 as (-> & _). apply map_eq_nil in E. subst lg.
          eexists _, _, _. left. reflexivity. }
  assert (SUB : exists x y z, sub = [MkPacket 0 1 x; MkPacket 0 1 y; MkPacket 0 2 z]).
  { destruct PK as (x & y & z & PK). assert (N : for_tile 2 sub <> []) by (rewrite ST2; destruct (from_tile 0 (r_delivered (n_router n 2))); [contradiction|discriminate]).
    destruct PK as [PK|[PK|PK]]; rewrite PK in SU0; clear - SU0 N; destruct sub as [|p1 [|p2 [|p3 [|p4 r]]]]; cbn in SU0; try discriminate.
    all: try (contradiction N; reflexivity).
    all: try (injection SU0 as <- _; contradiction N; reflexivity).
    all: try (injection SU0 as <- <- _; contradiction N; reflexivity).
    injection SU0 as <- <- <- _. eauto. }
  destruct SUB as (x & y & z & SUB). destruct (fifo_reach _ _ _ NR 0) as (l & FF). fold n sub in FF.
  assert (T2 : for_tile 2 (in_flight (n_router n 0)) = [] /\ for_tile 2 (r_queue (n_router n 0)) = []).
  { rewrite SUB in ST2. cbn in ST2. destruct (from_tile 0 (r_delivered (n_router n 2))) as [|d ds]; [contradiction|]. cbn [app] in ST2. injection ST2 as _ ST2.
    symmetry in ST2. apply app_eq_nil in ST2 as (_ & ST2). apply app_eq_nil in ST2 as (_ & ST2). apply app_eq_nil in ST2 as (_ & ST2). apply app_eq_nil in ST2. exact ST2. }
  destruct T2 as (T2a & T2b).
  assert (Q0 : r_queue (n_router n 0) = []).
  { destruct (r_queue (n_router n 0)) as [|q qs] using rev_ind; [auto|exfalso]. clear IHqs. rewrite SUB, !app_assoc in FF.
    change [MkPacket 0 1 x; MkPacket 0 1 y; MkPacket 0 2 z] with ([MkPacket 0 1 x; MkPacket 0 1 y] ++ [MkPacket 0 2 z]) in FF.
    apply app_inj_tail in FF as (_ & <-). rewrite for_tile_app in T2b. apply app_eq_nil in T2b as (_ & T2b). discriminate. }
  assert (F0 : for_tile 1 (in_flight (n_router n 0)) = []).
  { rewrite Q0, app_nil_r, SUB in FF. unfold being_sent, in_flight in *. destruct (r_sender (n_router n 0)); auto.
    all: change [MkPacket 0 1 x; MkPacket 0 1 y; MkPacket 0 2 z] with ([MkPacket 0 1 x; MkPacket 0 1 y] ++ [MkPacket 0 2 z]) in FF.
    all: apply app_inj_tail in FF as (_ & <-); discriminate. }
  (* so tile 1 holds both of its packets *)
  rewrite SUB, F0, Q0 in ST1. cbn in ST1. rewrite app_nil_r in ST1.
  pose proof (o_ops _ _ _ _ (OI 1)) as OP1. rewrite L1 in OP1. cbn in OP1. unfold hol_prog in OP1. cbn in OP1.
  pose proof (cv_taken _ _ _ (CI 1) 0) as TK1. rewrite L1 in TK1. fold n in TK1. cbn [taken_packets flat_map app] in TK1.
  pose proof (ti_client _ _ _ _ (TI 1)) as CL. unfold client_shape in CL. unfold partly, instructions_left in *.
  pose proof (capacity_reach _ _ _ NR 0 1) as CAP.
  assert (DE : from_tile 0 (r_delivered (n_router n 1)) = [] /\ from_tile 0 (in_hand (n_router n 1)) = []).
  { unfold in_hand. fold n in CL. pose proof (ti_prog _ _ _ _ (TI 1)) as PS. unfold prog_shape in PS.
    destruct (t_phase (s_tile s 1)) as [|id|rs|got|id|]; try rewrite CL; auto.
    - destruct CL as [->|(q & ->)]; auto.
    - rewrite OP1 in *. cbn in TK1. split; [auto|]. destruct CL as [->|(a & src & w & v & rest & P & _ & _ & [->|(d & ->)])]; auto.
      injection P as <- <- <- <- <-. reflexivity.
    - destruct CL as [(-> & _)|[(q & ->)| -> ]]; auto. }
  destruct DE as (D1 & D3). rewrite D1, D3 in ST1. cbn in ST1. rewrite <- ST1 in CAP. unfold zlen in CAP. cbn in CAP. lia.
Qed.

Lemma hol_stuck t s : sreach c hol_job t s -> t_log (s_tile s 1) = [].
Proof.
  intros R. induction R as [t|t t' a s s' R IH T H]; [reflexivity|].
  pose proof (no_packet_for_1 _ _ R IH) as NP. pose proof (sreach_tinv _ _ SZ _ _ R 1) as TI. pose proof (sreach_oinv _ _ _ _ SZ R 1) as OI. pose proof (sreach_cinv _ _ _ _ SZ R 1) as CI.
  destruct (projections _ _ _ _ R) as ((t1 & _ & NR) & _). pose proof (stream_reach _ _ _ NR 2 1) as ST. unfold stream in ST. rewrite NP in ST.
  symmetry in ST. apply app_eq_nil in ST as (ST1 & ST). apply app_eq_nil in ST as (ST2 & _).
  apply sstep_go in H as (CR & G).
  destruct G as [i0 a0 d K O0 HD HC HN HT|a0 n O0 HS HC HN HT|i0 k p d p' K KK HP HS HC HN HT|i0 n tt K HS HC HN HT|i0 k p e K KK HP HS ->|i0 e K HS ->];
    try rewrite HT; auto; try (destruct (Z.eq_dec 1 i0) as [<-|NE]; [rewrite set_fun_eq|rewrite set_fun_neq by auto; auto]); auto.
  apply tile_step_go in HS. pose proof (o_ops _ _ _ _ OI) as OP. rewrite IH in OP. cbn in OP. unfold hol_prog in OP. cbn in OP. unfold instructions_left in OP.
  pose proof (cv_taken _ _ _ CI 2) as TK. rewrite ST1, IH in TK. cbn in TK. unfold partly in TK.
  pose proof (ti_client _ _ _ _ TI) as CL. unfold client_shape in CL.
  destruct HS; cbn [next_op set_phase t_prog t_log tl]; rewrite ?IH; auto; exfalso; rewrite H, H0 in *; try discriminate OP.
  - injection OP as -> -> -> -> ->. cbn in TK. subst got. unfold zlen in *. cbn in *. lia.
  - injection OP as -> -> -> -> ->. destruct CL as [CL|(a0 & s0 & w0 & v0 & r0 & P & _ & _ & [CL|(d & CL)])]; try congruence. injection P as <- <- <- <- <-.
    unfold in_hand in ST2. rewrite CL in ST2. discriminate.
Qed.

Lemma hol_never_completes t s : 1 < w_tiles (y_net c) -> sreach c hol_job t s -> ~ completed_run c s.
Proof.
  intros W R (_ & C). pose proof (o_ops _ _ _ _ (sreach_oinv _ _ _ _ SZ R 1)) as OP. rewrite (hol_stuck _ _ R) in OP. cbn in OP. unfold hol_prog, instructions_left in OP. cbn in OP.
  rewrite (C 1) in OP by (unfold on_node; lia). destruct (t_phase _); discriminate.
Qed.
End Hol.
