(** What each core and each tile program does if every memory cell has one value and every stream
    of packets is given: the processes of a node do not depend on timing otherwise. *)
From Verif Require Import PyBase PyLemmas MemoryModel CoreModel DramModel DramSpec DramProofs RouterModel RouterSpec RouterProofs
  SystemModel SystemSpec SystemBase SystemInv.
From Coq Require Import ZifyBool ZifyNat Permutation.

Definition values (V : Z -> Z) (a n : Z) : list Z := map (fun i => V (a + i)) (zrange n).
Definition readable (size a w v : Z) : bool := (0 <=? a) && (a + w * v <=? size) && (0 <? w * v) && (0 <=? v).
Definition writable (size a : Z) (rows : list (list Z)) : bool := (0 <=? a) && (a + zlen (concat rows) <=? size).

(** A core without the numbers of its requests. *)
Definition abs_core (p : cproc) : cproc :=
  MkCProc (cp_core p) (cp_prog p) (match cp_phase p with PLoad _ a => PLoad 0 a | PStore _ => PStore 0 | ph => ph end) (cp_writes p).
Definition ocore (c : sys_cfg) (V : Z -> Z) (p : cproc) : option cproc :=
  match cp_phase p, cp_prog p with
  | PReady, o :: rest =>
      match o with
      | CLoad dest read w v =>
          match load_address (y_core c) (cp_core p) read with
          | (Ok a, k1) => Some (MkCProc k1 (cp_prog p) (PLoad 0 a) (cp_writes p))
          | _ => None
          end
      | CStore dest read w v =>
          match store_request (y_core c) (cp_core p) dest read w v with
          | (Ok (a, x), k1) => Some (MkCProc k1 (cp_prog p) (PStoring a (rows_of w v x)) (cp_writes p))
          | _ => None
          end
      | CHlt => Some (MkCProc (cp_core p) (cp_prog p) PHalted (cp_writes p))
      | _ =>
          match exec_local (y_core c) (cp_core p) o with
          | (Ok _, k1) => Some (MkCProc k1 rest PReady (cp_writes p))
          | _ => None
          end
      end
  | PLoad _ a, CLoad dest _ w v :: rest =>
      if readable (y_size c) a w v
      then match load_finish (y_core c) (cp_core p) dest (values V a (w * v)) with
           | (Ok _, k1) => Some (MkCProc k1 rest PReady (cp_writes p))
           | _ => None
           end
      else None
  | PStoring a rows, _ => Some (MkCProc (cp_core p) (cp_prog p) (PStore 0) (cp_writes p ++ [(a, rows)]))
  | PStore _, _ :: rest =>
      match last (map Some (cp_writes p)) None with
      | Some (a, rows) => if writable (y_size c) a rows then Some (MkCProc (cp_core p) rest PReady (cp_writes p)) else None
      | None => None
      end
  | _, _ => None
  end.

(** A tile's program, with the packets submitted to and delivered by its router. *)
Record aprog := MkAProg { a_prog : list top; a_phase : tphase; a_log : list tevent; a_sub : list packet; a_del : list (Z * list Z) }.
Definition abs_prog (n : net) (i : Z) (t : tile) : aprog :=
  MkAProg (t_prog t) (match t_phase t with PSendRead _ => PSendRead 0 | PRecvWrite _ => PRecvWrite 0 | ph => ph end) (t_log t)
    (r_submitted (n_router n i)) (r_delivered (n_router n i)).
Definition oprog (c : sys_cfg) (V : Z -> Z) (S : Z -> list (list Z)) (i : Z) (p : aprog) : option aprog :=
  let go ph := Some (MkAProg (a_prog p) ph (a_log p) (a_sub p) (a_del p)) in
  match a_phase p, a_prog p with
  | PNext, TSend a tg w v :: _ => if existsb is_halt (a_log p) then None else go (PSendRead 0)
  | PSendRead _, TSend a tg w v :: _ =>
      if readable (y_size c) a w v && (0 <=? w)
      then Some (MkAProg (a_prog p) (PSending (rows_of w v (values V a (w * v))))
                   (a_log p ++ [EvSend a tg w v (values V a (w * v))]) (a_sub p) (a_del p))
      else None
  | PSending (row :: rows), TSend a tg w v :: _ =>
      Some (MkAProg (a_prog p) (PSending rows) (a_log p) (a_sub p ++ [MkPacket i tg row]) (a_del p))
  | PSending [], TSend a tg w v :: rest => Some (MkAProg rest PNext (a_log p) (a_sub p) (a_del p))
  | PNext, TRecv a src w v :: _ => if (0 <=? w) && (0 <=? v) then go (PRecv []) else None
  | PRecv got, TRecv a src w v :: rest =>
      if zlen got <? v
      then if buffer_key (y_net c) i src
           then match nth_error (S src) (length (from_tile src (a_del p))) with
                | Some data =>
                    if zlen data =? w
                    then Some (MkAProg (a_prog p) (PRecv (got ++ [data])) (a_log p) (a_sub p) (a_del p ++ [(src, data)]))
                    else Some (MkAProg rest PNext (a_log p ++ [EvMismatch a src w v (got ++ [data])]) (a_sub p) (a_del p ++ [(src, data)]))
                | None => None
                end
           else None
      else if existsb is_halt (a_log p) then None
           else Some (MkAProg (a_prog p) (PRecvWrite 0) (a_log p ++ [EvRecv a src w v got]) (a_sub p) (a_del p))
  | PRecvWrite _, TRecv a src w v :: rest =>
      match last (map Some (log_writes (a_log p))) None with
      | Some (a', rows) => if writable (y_size c) a' rows then Some (MkAProg rest PNext (a_log p) (a_sub p) (a_del p)) else None
      | None => None
      end
  | PNext, THalt :: _ => go PHalting
  | PHalting, THalt :: rest => Some (MkAProg rest PNext (a_log p ++ [EvHalt]) (a_sub p) (a_del p))
  | _, _ => None
  end.

(** ** Paths of a partial function *)
Inductive otrace {A} (f : A -> option A) : A -> A -> Prop :=
| ot_refl x : otrace f x x
| ot_step x y z : otrace f x y -> f y = Some z -> otrace f x z.

Lemma otrace_head {A} (f : A -> option A) x z : otrace f x z -> x = z \/ exists y, f x = Some y /\ otrace f y z.
Proof.
  induction 1 as [|x y z H IH E]; [auto|]. right. destruct IH as [->|(y' & E' & T)].
  - exists z. split; [auto|apply ot_refl].
  - exists y'. split; [auto|]. eapply ot_step; eauto.
Qed.
Lemma otrace_det {A} (f : A -> option A) x y z : otrace f x y -> otrace f x z -> f z = None -> otrace f y z.
Proof.
  intros H. revert z. induction H as [|x y y' H IH E]; intros z T N; [auto|].
  specialize (IH z T N). destruct (otrace_head _ _ _ IH) as [->|(w & W & T')]; congruence.
Qed.
Lemma otrace_end {A} (f : A -> option A) y z : otrace f y z -> f y = None -> y = z.
Proof. intros T N. destruct (otrace_head _ _ _ T) as [E|(w & W & _)]; congruence. Qed.
Lemma otrace_mono {A B} (f : A -> option A) (g : A -> list B) : (forall x y, f x = Some y -> exists l, g y = g x ++ l) ->
  forall x y, otrace f x y -> exists l, g y = g x ++ l.
Proof.
  intros H x y T. induction T as [|x y z T (l & IH) E]; [exists []; now rewrite app_nil_r|].
  destruct (H _ _ E) as (l' & E'). exists (l ++ l'). rewrite E', IH, app_assoc. auto.
Qed.

Lemma ocore_writes c V p p' : ocore c V p = Some p' -> exists l, cp_writes p' = cp_writes p ++ l.
Proof.
  unfold ocore. intros H. destruct (cp_phase p).
  - destruct (cp_prog p) as [|o rest]; [discriminate|].
    assert (X : match exec_local (y_core c) (cp_core p) o with
                | (Ok _, k1) => Some (MkCProc k1 rest PReady (cp_writes p)) | _ => None end = Some p' -> exists l, cp_writes p' = cp_writes p ++ l).
    { destruct (exec_local _ _ _) as ([u|e] & k1); [|discriminate]. intros [= <-]. exists []. now rewrite app_nil_r. }
    destruct o; auto; clear X.
    + destruct (load_address _ _ _) as ([a|e] & k1); [|discriminate]. injection H as <-. exists []. now rewrite app_nil_r.
    + destruct (store_request _ _ _ _ _ _) as ([(a & v)|e] & k1); [|discriminate]. injection H as <-. exists []. now rewrite app_nil_r.
    + injection H as <-. exists []. now rewrite app_nil_r.
  - destruct (cp_prog p) as [|o rest]; [discriminate|]. destruct o; try discriminate.
    destruct (readable _ _ _ _); [|discriminate]. destruct (load_finish _ _ _ _) as ([u|e] & k1); [|discriminate]. injection H as <-. exists []. now rewrite app_nil_r.
  - injection H as <-. eexists; reflexivity.
  - destruct (cp_prog p) as [|o rest]; [discriminate|]. destruct (last _ _) as [(a & rows)|]; [|discriminate].
    destruct (writable _ _ _); [|discriminate]. injection H as <-. exists []. now rewrite app_nil_r.
  - discriminate.
Qed.

Ltac oprog_cases H :=
  unfold oprog in H; cbv zeta in H;
  repeat match type of H with
  | context [match ?x with _ => _ end] => destruct x eqn:?; try discriminate H
  end; injection H as <-.

Lemma oprog_log c V S i p p' : oprog c V S i p = Some p' -> exists l, a_log p' = a_log p ++ l.
Proof. intros H. oprog_cases H; cbn; try (eexists; reflexivity); exists []; now rewrite app_nil_r. Qed.
Lemma oprog_sub c V S i p p' : oprog c V S i p = Some p' -> exists l, a_sub p' = a_sub p ++ l.
Proof. intros H. oprog_cases H; cbn; try (eexists; reflexivity); exists []; now rewrite app_nil_r. Qed.

(** ** Values of memory *)
Definition stored (e : entry) (a : Z) : Z :=
  match e with
  | EPreload vals => znth 0 vals a
  | EDone r _ _ _ => match q_kind r with RWrite rows => znth 0 (concat rows) (a - q_start r) | RRead _ _ => 0 end
  end.
Definition cells_agree (V : Z -> Z) (h : list entry) : Prop := forall e a, In e h -> stores e a -> wrap32 (stored e a) = V a.

Lemma last_written_value h a v : last_written h a = Some v -> exists e, In e h /\ stores e a /\ v = stored e a.
Proof.
  induction h as [|e h IH]; cbn [last_written]; [discriminate|].
  assert (REC : last_written h a = Some v -> exists e0, In e0 (e :: h) /\ stores e0 a /\ v = stored e0 a).
  { intros H. destruct (IH H) as (e0 & I & S). exists e0. split; [now right|assumption]. }
  destruct e as [vals|r g f data].
  - destruct (_ && _) eqn:E; [|exact REC]. intros [= <-]. eexists. split; [now left|]. cbn. split; [lia|reflexivity].
  - destruct (q_kind r) eqn:K; [exact REC|]. destruct (coversb r a) eqn:E; [|exact REC]. intros [= <-].
    eexists. split; [now left|]. cbn. unfold is_read. rewrite K. split; [|reflexivity]. split; [reflexivity|]. unfold covers, coversb in *. lia.
Qed.

Lemma values_eq V a n l : zlen l = n -> (forall i, 0 <= i < n -> znth 0 l i = V (a + i)) -> l = values V a n.
Proof.
  intros L H. unfold values. unfold zlen in L. apply nth_ext with (d := 0) (d' := 0).
  - rewrite map_length, length_zrange. lia.
  - intros i Hi. rewrite nth_map_zrange by lia. specialize (H (Z.of_nat i)). unfold znth in H. rewrite Nat2Z.id in H. apply H. lia.
Qed.

Lemma read_oracle lat size t d V h1 r g f data h2 w v : dinv lat size t d -> 0 < lat -> cells_agree V (d_history d) ->
  d_history d = h1 ++ EDone r g f data :: h2 -> q_kind r = RRead w v ->
  readable size (q_start r) w v = true /\ data = values V (q_start r) (w * v).
Proof.
  intros I L AG H K. destruct (i_hist _ _ _ _ I _ _ _ _ _ _ H) as ((R & _ & B & _ & _ & E) & _). rewrite K in E.
  destruct E as (E1 & E2 & E3). unfold in_range, q_batches, q_length in *. rewrite K in *. split.
  - unfold readable. assert (0 <= v) by nia. lia.
  - apply values_eq; [auto|]. intros i Hi.
    destruct (E3 (q_start r + i)) as (x & X & Y); [unfold covers, q_length; rewrite K; lia|].
    replace (q_start r + i - q_start r) with i in Y by lia. rewrite Y.
    destruct (last_written_value _ _ _ X) as (e & I1 & I2 & ->). apply AG; [|auto].
    rewrite H. apply in_app_iff. left. now apply in_rev.
Qed.
Lemma write_oracle lat size t d h1 r g f data h2 rows : dinv lat size t d -> d_history d = h1 ++ EDone r g f data :: h2 ->
  q_kind r = RWrite rows -> writable size (q_start r) rows = true.
Proof.
  intros I H K. destruct (i_hist _ _ _ _ I _ _ _ _ _ _ H) as ((R & _) & _). unfold in_range, q_length in R. rewrite K in R.
  unfold writable. lia.
Qed.

(** ** A node follows the oracle *)
Record oracle := MkOracle { o_cell : Z -> Z -> Z; o_stream : Z -> Z -> list (list Z) }.
Definition agrees (O : oracle) (s : sys) : Prop :=
  (forall i, cells_agree (o_cell O i) (d_history (t_dram (s_tile s i)))) /\
  (forall i k, exists l, o_stream O i k = for_tile k (r_submitted (n_router (s_net s) i)) ++ l).
Definition prog_start (j : job) (i : Z) : aprog := MkAProg (j_prog j i) PNext [] [] [].
Definition core_start (x : core * list cop) : cproc := MkCProc (fst x) (snd x) PReady [].
Definition oprog' (c : sys_cfg) (O : oracle) (i : Z) : aprog -> option aprog := oprog c (o_cell O i) (fun src => o_stream O src i) i.
Definition follows (c : sys_cfg) (j : job) (O : oracle) (s : sys) : Prop := forall i,
  otrace (oprog' c O i) (prog_start j i) (abs_prog (s_net s) i (s_tile s i)) /\
  Forall2 (fun x p => otrace (ocore c (o_cell O i)) (core_start x) (abs_core p)) (j_cores j i) (t_cores (s_tile s i)).

(** The entry of the request a process waited for. *)
Lemma owner_entry lat size t d rq wr k id a kd x : dinv lat size t d ->
  owned (d_submitted d) (completed (d_history d)) rq wr -> rq k = Some (id, a, kd) -> result_of id (d_history d) = Some x ->
  exists r g f h1 h2, d_history d = h1 ++ EDone r g f x :: h2 /\ q_start r = a /\ q_kind r = kd.
Proof.
  intros I A RQ RO. destruct (ow_req _ _ _ _ A _ _ _ _ RQ) as (r & R1 & R2 & R3 & R4 & R5).
  destruct (result_of_entry _ _ _ RO) as (r' & g & f & h1 & h2 & E & ID). exists r', g, f, h1, h2. split; [auto|].
  assert (E2 : r = r'); [|subst r'; auto]. apply (nodup_id _ _ _ (inv_ids_nodup _ _ _ _ I)); [auto| |congruence].
  eapply Permutation_in; [symmetry; exact (i_place _ _ _ _ I)|]. rewrite E, completed_app, !in_app_iff. cbn. auto 7.
Qed.

Lemma core_follow c V t0 i n t now k p d' p' : 0 < y_lat c -> dinv (y_lat c) (y_size c) t0 (t_dram t) -> tinv c i n t ->
  cells_agree V (d_history (t_dram t)) -> nth_error (t_cores t) k = Some p ->
  core_step_sys c now (Z.of_nat k) (t_dram t) p = Go (d', p') -> ocore c V (abs_core p) = Some (abs_core p').
Proof.
  intros L I T AG NE H. pose proof (Forall_nth_error _ _ _ _ (ti_cores _ _ _ _ T) NE) as SH. unfold core_shape in SH.
  assert (RQ : agent_req t (Z.of_nat k) = core_req p) by (rewrite agent_core, NE; auto). unfold core_req in RQ.
  unfold core_step_sys in H. unfold ocore, abs_core. cbn [cp_phase cp_prog cp_core cp_writes].
  destruct (cp_phase p) as [|id a|a rows|id|] eqn:PH.
  - destruct (cp_prog p) as [|o rest] eqn:PR; [discriminate|].
    assert (X : match exec_local (y_core c) (cp_core p) o with
                | (Ok _, k1) => Go (t_dram t, MkCProc k1 rest PReady (cp_writes p))
                | (Raise e, _) => Crash e
                end = Go (d', p') ->
                match exec_local (y_core c) (cp_core p) o with
                | (Ok _, k1) => Some (MkCProc k1 rest PReady (cp_writes p))
                | _ => None
                end = Some (abs_core p')).
    { intros X. destruct (exec_local _ _ _) as ([u|e] & k1); [|discriminate]. injection X as <- <-. reflexivity. }
    destruct o; auto; clear X.
    + destruct (load_address _ _ _) as ([a|e] & k1); [|discriminate].
      destruct (dc_submit _ _ _ _ _) as ([r|e] & d1) eqn:E; [|discriminate]. injection H as <- <-. reflexivity.
    + destruct (store_request _ _ _ _ _ _) as ([(a & v)|e] & k1); [|discriminate]. injection H as <- <-. reflexivity.
    + injection H as <- <-. reflexivity.
  - destruct (result_of _ _) as [x|] eqn:E; [|discriminate]. destruct SH as (dest & rd & w & v & rest & PR). rewrite PR in *.
    destruct (owner_entry _ _ _ _ _ _ _ _ _ _ _ I (ti_own _ _ _ _ T) RQ E) as (r & g & f & h1 & h2 & HI & Q1 & Q2).
    destruct (read_oracle _ _ _ _ _ _ _ _ _ _ _ _ _ I L AG HI Q2) as (RD & ->). rewrite Q1 in *. rewrite RD.
    destruct (load_finish _ _ _ _) as ([u|e] & k1); [|discriminate]. injection H as <- <-. reflexivity.
  - destruct (dc_submit _ _ _ _ _) as ([r|e] & d1) eqn:E; [|discriminate]. injection H as <- <-. reflexivity.
  - destruct (result_of _ _) as [y|] eqn:E; [|discriminate]. destruct SH as (dest & rd & w & v & rest & l' & (xa & xr) & PR & WR). rewrite PR in *.
    assert (LA : last (map Some (cp_writes p)) None = Some (xa, xr)) by (rewrite WR, map_app; cbn [map]; apply last_last).
    rewrite LA in *. destruct (owner_entry _ _ _ _ _ _ _ _ _ _ _ I (ti_own _ _ _ _ T) RQ E) as (r & g & f & h1 & h2 & HI & Q1 & Q2).
    rewrite <- Q1. rewrite (write_oracle _ _ _ _ _ _ _ _ _ _ _ I HI Q2). injection H as <- <-. reflexivity.
  - discriminate.
Qed.

Lemma nth_error_mid {A} (l1 : list A) x l2 : nth_error (l1 ++ x :: l2) (length l1) = Some x.
Proof. rewrite nth_error_app2, Nat.sub_diag by lia. reflexivity. Qed.
Lemma from_tile_sel src x l : from_tile src (l ++ [(src, x)]) = from_tile src l ++ [x].
Proof. unfold from_tile. rewrite filter_app, map_app. cbn. now rewrite Z.eqb_refl. Qed.

Lemma prog_follow c O t0 i s now n' t' : 0 < y_lat c -> dinv (y_lat c) (y_size c) t0 (t_dram (s_tile s i)) -> tinv c i (s_net s) (s_tile s i) ->
  agrees O s -> (exists t1, nreach (y_net c) t1 (s_net s)) ->
  tile_go c now i (s_net s) (s_tile s i) n' t' ->
  abs_prog n' i t' = abs_prog (s_net s) i (s_tile s i) \/ oprog' c O i (abs_prog (s_net s) i (s_tile s i)) = Some (abs_prog n' i t').
Proof.
  intros L I T (AG & AS) (t1 & NR) G. set (t := s_tile s i) in *. set (n := s_net s) in *. specialize (AG i).
  pose proof (ti_client _ _ _ _ T) as CL. unfold client_shape in CL. pose proof (ti_own _ _ _ _ T) as OW. pose proof (ti_halt _ _ _ _ T) as HS.
  unfold oprog', oprog, abs_prog. cbn [a_phase a_prog a_log a_sub a_del]. cbv zeta. destruct G.
  - right. cbn [t_prog t_phase t_log]. rewrite H, H0 in *.
    assert (HH : existsb is_halt (t_log t) = false).
    { apply dc_submit_log in H1 as (R1 & _). rewrite (hs_dram _ _ HS) in R1. unfold has_halted in R1. now destruct (existsb _ _). }
    rewrite HH. reflexivity.
  - right. cbn [t_prog t_phase t_log]. assert (RQ : agent_req t (-1) = Some (id, addr, RRead w v)) by (rewrite agent_prog; unfold prog_req; rewrite H0, H; auto).
    rewrite H, H0 in *. destruct (owner_entry _ _ _ _ _ _ _ _ _ _ _ I OW RQ H1) as (r & g & f & h1 & h2 & HI & Q1 & Q2).
    destruct (read_oracle _ _ _ _ _ _ _ _ _ _ _ _ _ I L AG HI Q2) as (RD & ->). rewrite Q1 in *. rewrite RD.
    replace (0 <=? w) with true by lia. reflexivity.
  - right. cbn [t_prog t_phase t_log set_phase]. rewrite H, H0 in *. destruct (net_log _ _ _ _ _ H2 i) as (E1 & E2). rewrite E1, E2, Z.eqb_refl, app_nil_r. reflexivity.
  - right. cbn [t_prog t_phase t_log next_op]. rewrite H, H0 in *. now rewrite app_nil_r.
  - right. cbn [t_prog t_phase t_log set_phase]. rewrite H, H0 in *. replace (0 <=? w) with true by lia. replace (0 <=? v) with true by lia. reflexivity.
  - left. destruct (net_log _ _ _ _ _ H3 i) as (E1 & E2). rewrite E1, E2, !app_nil_r. reflexivity.
  - right. cbn [t_prog t_phase t_log]. rewrite H, H0 in *. replace (zlen got <? v) with false by lia.
    assert (HH : existsb is_halt (t_log t) = false).
    { apply dc_submit_log in H3 as (R1 & _). rewrite (hs_dram _ _ HS) in R1. unfold has_halted in R1. now destruct (existsb _ _). }
    rewrite HH. reflexivity.
  - right. cbn [t_prog t_phase t_log set_phase]. rewrite H, H0 in *. destruct CL as [CL|(a0 & s0 & w0 & v0 & r0 & P & BK & LT & [CL|(d & CL)])]; try congruence.
    injection P as <- <- <- <- <-. assert (src' = src /\ d = data) as (-> & ->) by (split; congruence).
    replace (zlen got <? v) with true by lia. rewrite BK.
    pose proof (stream_reach _ _ _ NR src i) as ST. unfold stream, in_hand in ST. fold n in ST. rewrite CL in ST.
    destruct (AS src i) as (l & SE). fold n in SE. rewrite SE, ST. unfold from_tile at 2. cbn [filter map fst snd]. rewrite Z.eqb_refl. cbn [map app]. rewrite <- app_assoc. cbn [app].
    rewrite nth_error_mid. cbn. replace (zlen data =? w) with true by lia. destruct (net_log _ _ _ _ _ H3 i) as (E1 & E2).
    rewrite E1, E2, Z.eqb_refl, app_nil_r. unfold in_hand. rewrite CL. reflexivity.
  - right. cbn [t_prog t_phase t_log next_op]. rewrite H, H0 in *. destruct CL as [CL|(a0 & s0 & w0 & v0 & r0 & P & BK & LT & [CL|(d & CL)])]; try congruence.
    injection P as <- <- <- <- <-. assert (src' = src /\ d = data) as (-> & ->) by (split; congruence).
    replace (zlen got <? v) with true by lia. rewrite BK.
    pose proof (stream_reach _ _ _ NR src i) as ST. unfold stream, in_hand in ST. fold n in ST. rewrite CL in ST.
    destruct (AS src i) as (l & SE). fold n in SE. rewrite SE, ST. unfold from_tile at 2. cbn [filter map fst snd]. rewrite Z.eqb_refl. cbn [map app]. rewrite <- app_assoc. cbn [app].
    rewrite nth_error_mid. cbn. replace (zlen data =? w) with false by lia. destruct (net_log _ _ _ _ _ H3 i) as (E1 & E2).
    rewrite E1, E2, Z.eqb_refl, app_nil_r. unfold in_hand. rewrite CL. reflexivity.
  - right. cbn [t_prog t_phase t_log next_op]. pose proof (ti_prog _ _ _ _ T) as PS. unfold prog_shape in PS. rewrite H0 in PS.
    destruct PS as (a0 & s0 & w0 & v0 & r0 & l & rows & P & LG). rewrite H in P. injection P as <- <- <- <- <-.
    assert (LA : last (map Some (log_writes (t_log t))) None = Some (addr, rows)).
    { rewrite LG, log_writes_app, map_app. cbn [log_writes flat_map ev_write app map]. apply last_last. }
    assert (RQ : agent_req t (-1) = Some (id, addr, RWrite rows)) by (rewrite agent_prog; unfold prog_req; rewrite H0, H, LA; auto).
    rewrite H, H0, LA in *. destruct (owner_entry _ _ _ _ _ _ _ _ _ _ _ I OW RQ H1) as (r & g & f & h1 & h2 & HI & Q1 & Q2).
    rewrite <- Q1, (write_oracle _ _ _ _ _ _ _ _ _ _ _ I HI Q2). now rewrite app_nil_r.
  - right. cbn [t_prog t_phase t_log set_phase]. rewrite H, H0 in *. destruct (net_log _ _ _ _ _ H2 i) as (E1 & E2). rewrite E1, E2, !app_nil_r. reflexivity.
  - right. cbn [t_prog t_phase t_log]. rewrite H, H0 in *. reflexivity.
Qed.

Lemma abs_prog_net n n' i t : r_submitted (n_router n' i) = r_submitted (n_router n i) -> r_delivered (n_router n' i) = r_delivered (n_router n i) ->
  abs_prog n' i t = abs_prog n i t.
Proof. intros A B. unfold abs_prog. now rewrite A, B. Qed.

Lemma net_quiet c now a n n' : nstep c now a n = Some n' -> forall i, i <> tile_of a \/ net_own a = true ->
  r_submitted (n_router n' i) = r_submitted (n_router n i) /\ r_delivered (n_router n' i) = r_delivered (n_router n i).
Proof.
  intros H i N. destruct (net_log _ _ _ _ _ H i) as (-> & ->).
  destruct a; cbn in N; rewrite ?app_nil_r; auto; destruct (Z.eqb_spec i i0); rewrite ?app_nil_r; auto; destruct N; [congruence|discriminate|congruence|discriminate].
Qed.

Lemma Forall2_upd {A B} (P : A -> B -> Prop) l1 l2 k y x : Forall2 P l1 l2 -> nth_error l1 k = Some x -> P x y -> Forall2 P l1 (upd l2 k y).
Proof. intros F. revert k. induction F as [|a b l1 l2 H F IH]; intros [|k] E X; cbn in *; try discriminate; constructor; auto. congruence. Qed.
Lemma Forall2_nth {A B} (P : A -> B -> Prop) l1 l2 k y : Forall2 P l1 l2 -> nth_error l2 k = Some y -> exists x, nth_error l1 k = Some x /\ P x y.
Proof. intros F. revert k. induction F as [|a b l1 l2 H F IH]; intros [|k] E; cbn in *; try discriminate; eauto. injection E as <-. eauto. Qed.

Lemma follow_start c j O t : follows c j O (sys_start c t j).
Proof.
  intros i. split; [apply ot_refl|]. cbn. induction (j_cores j i) as [|x l IH]; cbn; constructor; auto. apply ot_refl.
Qed.

Lemma follow_step c j O t t' a s s' : 0 <= y_size c -> 0 < y_lat c -> sreach c j t s -> agrees O s -> follows c j O s ->
  sstep c t' a s = Some s' -> follows c j O s'.
Proof.
  intros SZ L R AG F H. pose proof (sreach_tinv _ _ SZ _ _ R) as TI. pose proof (sreach_dinv _ _ SZ _ _ R) as DI.
  destruct (projections _ _ _ _ R) as ((t1 & _ & NR) & _). apply sstep_go in H as (CR & G).
  destruct G as [i0 a0 d K O0 HD HC HN HT|a0 n O0 HS HC HN HT|i0 k p d p' K KK HP HS HC HN HT|i0 n tt K HS HC HN HT|i0 k p e K KK HP HS ->|i0 e K HS ->];
    intros i; destruct (F i) as (FP & FC).
  - rewrite HN, HT. destruct (Z.eq_dec i i0) as [->|NE]; [rewrite set_fun_eq|rewrite set_fun_neq by auto; auto]. split; auto.
  - rewrite HN, HT. split; [|auto]. destruct (net_quiet _ _ _ _ _ HS i (or_intror O0)). rewrite (abs_prog_net (s_net s) n) by auto. auto.
  - rewrite HN, HT. destruct (Z.eq_dec i i0) as [->|NE]; [rewrite set_fun_eq|rewrite set_fun_neq by auto; auto]. split; [exact FP|]. cbn.
    destruct (Forall2_nth _ _ _ _ _ FC HP) as (x & X1 & X2). eapply Forall2_upd; eauto. eapply ot_step; [exact X2|].
    eapply core_follow; eauto; [apply AG|]. rewrite Z2Nat.id by lia. exact HS.
  - apply tile_step_go in HS. rewrite HN, HT. destruct (Z.eq_dec i i0) as [->|NE]; [rewrite set_fun_eq|rewrite set_fun_neq by auto].
    + split.
      * destruct (prog_follow _ O _ _ _ _ _ _ L (DI i0) (TI i0) AG (ex_intro _ _ NR) HS) as [E|E]; [rewrite E; auto|]. eapply ot_step; eauto.
      * replace (t_cores tt) with (t_cores (s_tile s i0)); [auto|]. destruct HS; reflexivity.
    + split; [|auto]. apply tile_go_net in HS as [->|(a1 & E & _ & HS & _)]; [auto|].
      assert (NE1 : i <> tile_of a1) by congruence. destruct (net_quiet _ _ _ _ _ HS i (or_introl NE1)). rewrite (abs_prog_net (s_net s) n) by auto. auto.
  - auto.
  - auto.
Qed.
