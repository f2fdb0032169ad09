(** Which events the processes of a simulation (DesModel) wait for: the event queue holds no other ones.  This file: the events,
    and those of a core. *)
From Verif Require Import PyBase PyLemmas CoreModel DramModel RouterModel SystemModel DesModel.

(** Events that may be in the queue more than once, and whose processing is possible whatever the processes wait for. *)
Definition tracked (e : ev) : bool :=
  match e with VReqPut _ | VSendPut _ | VRelease _ | VSent _ _ | VPut _ _ SF => false | _ => true end.
(** The two events of check_queue exclude each other. *)
Definition key (e : ev) : ev := match e with VPollTime i => VPoll i | _ => e end.
(** Events that are processed next when they are scheduled. *)
Definition immediate (e : ev) : bool := match e with VThread _ _ | VHandlerInt _ | VSenderInt _ => true | _ => false end.
Definition prio_of (e : ev) : prio :=
  match e with
  | VTile _ | VCore _ _ | VStage _ _ _ | VPipe _ _ | VLoadNew _ _ | VStoreNew _ _ | VHandler _ | VHandlerInt _ | VThread _ _ | VSender _
  | VOffer _ | VSenderInt _ | VOp _ | VAdd _ | VRead _ | VStop _ | VPoll _ | VMonitorInt => Urgent
  | _ => Normal
  end.
Definition keys (l : sched) : list ev := map key (filter tracked (map snd l)).

Section Core.
  Context {K M : Type}.
  Variable P : machine K M.
  Variable c : sys_cfg.
  Notation dcore := (dcore K).

  (** Events of core [k] of tile [i] (a done_event belongs to the tile). *)
  Definition core_ev (i k : Z) (e : ev) : Prop :=
    match e with
    | VCore i' k' | VStage i' k' _ | VPipe i' k' | VPut i' k' _ | VGot i' k' _ | VTime i' k' _ | VLoadNew i' k' | VLoadTime i' k' | VLoaded i' k'
    | VStoreNew i' k' | VStoreTime i' k' | VStored i' k' | VStageDone i' k' _ | VPipeDone i' k' | VCoreEnd i' k' => i' = i /\ k' = k
    | _ => False
    end.
  (** The core waits for the event at time [t]. *)
  Definition core_waits (b t : Z) (e : ev) (x : dcore) : Prop :=
    match e with
    | VCore _ _ => k_proc x = CNew /\ t = b
    | VStage _ _ s => k_proc x <> CNew /\ tget (k_stage x) s = GNew
    | VPipe _ _ => k_proc x <> CNew /\ k_mon x = MNew
    | VPut _ _ SF => True
    | VPut _ _ SD => match t_f (k_stage x) with GPut _ => True | _ => False end
    | VPut _ _ SX => match t_d (k_stage x) with GPut _ => True | _ => False end
    | VGot _ _ s => match tget (k_stage x) s with GGot _ => True | _ => False end
    | VTime _ _ s => match tget (k_stage x) s, s, k_xp x with
                     | GWork _, SX, XTiming => True
                     | GWork _, SX, _ => False
                     | GWork _, _, _ => True
                     | _, _, _ => False
                     end
    | VLoadNew _ _ => match k_xp x, t_x (k_stage x) with XLoadNew _, GWork (CLoad _ _ _ _) => True | _, _ => False end
    | VLoadTime _ _ => match k_xp x, t_x (k_stage x) with XLoadTiming _, GWork (CLoad _ _ _ _) => True | _, _ => False end
    | VLoaded _ _ => match k_xp x, t_x (k_stage x) with XLoaded, GWork _ => True | _, _ => False end
    | VStoreNew _ _ => match k_xp x, t_x (k_stage x) with XStoreNew _ _, GWork (CStore _ _ _ _) => True | _, _ => False end
    | VStoreTime _ _ => match k_xp x, t_x (k_stage x) with XStoreTiming _ _, GWork _ => True | _, _ => False end
    | VStored _ _ => match k_xp x, t_x (k_stage x) with XStored, GWork _ => True | _, _ => False end
    | VStageDone _ _ s => tget (k_comp x) s = Triggered
    | VPipeDone _ _ => k_proc x = CRunning /\ k_mon x = MEnd
    | VCoreEnd _ _ => k_proc x = CEnding
    | _ => False
    end.
  (** It waits for the completion of request [id]. *)
  Definition core_asked (id : Z) (x : dcore) : Prop :=
    match k_xp x, t_x (k_stage x) with
    | XLoading id', GWork (CLoad _ _ _ _) => id' = id
    | XStoring id', GWork _ => id' = id
    | _, _ => False
    end.
  Record core_inv (x : dcore) : Prop := {
    ki_new : k_proc x = CNew -> k_stage x = MkTri GNew GNew GNew /\ k_mon x = MNew;
    ki_comp : forall s, tget (k_comp x) s = Pending \/ tget (k_stage x) s = GDead;
    ki_mon : k_proc x = CEnding \/ k_proc x = CEnded -> k_mon x = MEnd }.

  (** A change of a core by the processing of the events [fired]. *)
  Record core_moves (b now i k : Z) (fired : list ev) (x x' : dcore) (new : sched) : Prop := {
    km_inv : core_inv x';
    km_keep : forall t e, core_ev i k e -> core_waits b t e x -> In (key e) fired \/ core_waits b t e x';
    km_asked : forall id, core_asked id x -> core_asked id x';
    km_new : Forall (fun z => core_ev i k (snd z) /\ core_waits b (now + fst (fst z)) (snd z) x' /\ snd (fst z) = prio_of (snd z) /\
                              (tracked (snd z) = true -> forall t, ~ core_waits b t (snd z) x)) new;
    km_nodup : NoDup (keys new) }.
  Definition core_good (b now i k : Z) (fired : list ev) (x : dcore) (r : dres dcore) : Prop :=
    match r with DGo x' new => core_moves b now i k fired x x' new | DRaise _ => True | DStuck => False end.

  Ltac open x := destruct x as [kc pr cy w [bf bd bx] [sf sd sx] xp [cf cd cx] mon]; cbn in *.
  (** The first four parts, and the fifth. *)
  Ltac inv_tac := match goal with H : core_inv _ |- core_inv _ =>
      destruct H as [KN KC KM]; constructor; cbn in *;
      [ let H := fresh in intro H; first [discriminate H | congruence | specialize (KN H); destruct KN as [KN1 KN2]; try congruence; auto | auto ]
      | let s := fresh in intro s; specialize (KC s); destruct s; cbn in *; intuition (auto; congruence)
      | intuition (auto; congruence) ] end.
  Ltac drop_facts := repeat match goal with H : _ \/ _ |- _ => clear H | H : ?A -> _ |- _ => clear H | H : core_inv _ |- _ => clear H end.
  Ltac keep_tac := drop_facts; let t := fresh "t" in let e := fresh "e" in let HE := fresh "HE" in let HW := fresh "HW" in
    intros t e HE HW; destruct e as [| |i'|i' k'|i' k' s'|i' k'|i' k' s'|i' k' s'|i' k' s'|i' k'|i' k'|i' k'|i' k'|i' k'|i' k'|i' k' s'|i' k'|i' k'|i'|i'|i'|i'|i' id'|i'|i'|i'|i' k' id'|i'|i'|i'|i'|i'|i'|i'|i' n'|i'|i'|i'|i'|i'|i'|i'|i'|i'|i'|i'|i'|i'|i'|i'|i'| | |];
      try contradiction HE; destruct HE as [-> ->]; cbn in *; try destruct s'; cbn in *;
      first [contradiction | left; now left | left; right; now left | right; intuition (auto; congruence) | match type of HW with match ?y with _ => _ end => destruct y; contradiction end ].
  Ltac new_tac := repeat (apply Forall_cons || apply Forall_nil); cbn; repeat split; auto; try congruence; try (intros _ t H; cbn in H; intuition congruence); try lia.
  Ltac nodup_tac := cbv [keys tracked key map filter snd start soon later]; repeat constructor; cbn; intuition congruence.
  Ltac moves := constructor; [inv_tac|keep_tac|intros ? ?; cbn in *; try contradiction; auto|new_tac|nodup_tac].

  Lemma core_start_good b now i k x : core_inv x -> core_waits b now (VCore i k) x -> core_good b now i k [VCore i k] x (core_start b now i k x).
  Proof.
    intros KI [E ->]. destruct (ki_new _ KI E) as [S Mo]. open x. subst pr. injection S as -> -> ->. subst mon. unfold core_start. cbn. rewrite Z.eqb_refl. cbn.
    destruct bf as [|o bf]; [destruct w as [|o w]|]; cbn; moves.
  Qed.
  Ltac split_all := repeat match goal with
    | |- context [match ?l with [] => _ | _ :: _ => _ end] => is_var l; destruct l; cbn
    | |- context [match ?g with GNew => _ | GWaiting => _ | GGot _ => _ | GWork _ => _ | GPutting _ => _ | GPut _ => _ | GDead => _ end] => is_var g; destruct g; cbn; try contradiction; try discriminate
    | |- context [match ?g with Pending => _ | Triggered => _ | Processed => _ end] => is_var g; destruct g; cbn; try contradiction; try discriminate
    | |- context [if is_hlt ?o then _ else _] => destruct (is_hlt o) eqn:?; cbn
    end.
  Lemma stage_start_good b now i k s x : core_inv x -> core_waits b now (VStage i k s) x -> core_good b now i k [VStage i k s] x (stage_start i k s x).
  Proof. intros KI [E1 E2]. open x. unfold stage_start, stage_get, buf_get. destruct s; cbn in *; subst; cbn; split_all; moves. Qed.
  Lemma pipe_start_good b now i k x : core_inv x -> core_waits b now (VPipe i k) x -> core_good b now i k [VPipe i k] x (pipe_start i k x).
  Proof. intros KI [E1 E2]. open x. subst mon. unfold pipe_start, mon_from, mon_wait, mon_end. cbn. pose proof (ki_mon _ KI) as Q. cbn in Q. assert (pr = CRunning) by (destruct pr; intuition congruence). subst pr. split_all; moves. Qed.
  Lemma buf_get_cases i k s (x : dcore) : buf_get i k s x = (x, []) \/
    exists o r, tget (k_stage x) s = GWaiting /\ tget (k_buf x) s = o :: r /\ buf_get i k s x = (set_stage (set_buf x s r) s (GGot o), [soon (VGot i k s)]).
  Proof. unfold buf_get. destruct (tget (k_stage x) s); auto. destruct (tget (k_buf x) s) as [|o r]; eauto 8. Qed.
  Lemma on_put_good b now i k s x : core_inv x -> core_waits b now (VPut i k s) x -> core_good b now i k [VPut i k s] x (on_put i k s x).
  Proof.
    intros KI E. pose proof (ki_comp _ KI SF) as Q1. pose proof (ki_comp _ KI SD) as Q2.
    unfold on_put. destruct (buf_get_cases i k s x) as [-> | (o & r & E1 & E2 & ->)]; unfold stage_end, stage_get.
    - destruct s; open x; [moves| |].
      + destruct sf; try contradiction. destruct Q1 as [-> |Q1]; [|discriminate]. destruct (is_hlt o); [moves|]. unfold buf_get. cbn. split_all; moves.
      + destruct sd; try contradiction. destruct Q2 as [-> |Q2]; [|discriminate]. destruct (is_hlt o); [moves|]. unfold buf_get. cbn. split_all; moves.
    - destruct s; open x; subst; [moves| |].
      + destruct sf; try contradiction. destruct Q1 as [-> |Q1]; [|discriminate]. destruct (is_hlt o0); [moves|]. unfold buf_get. cbn. split_all; moves.
      + destruct sd; try contradiction. destruct Q2 as [-> |Q2]; [|discriminate]. destruct (is_hlt o0); [moves|]. unfold buf_get. cbn. split_all; moves.
  Qed.
  Lemma on_time_good b now i k s x : core_inv x -> core_waits b now (VTime i k s) x -> core_good b now i k [VTime i k s] x (on_time i k s x).
  Proof.
    intros KI E. open x. pose proof (ki_comp _ KI) as Q. pose proof (Q SF) as Q1. pose proof (Q SD) as Q2. pose proof (Q SX) as Q3.
    unfold on_time, stage_put, stage_end, stage_get, buf_put, buf_get. destruct s; cbn in *.
    - split_all; moves.
    - split_all; moves.
    - destruct sx; try contradiction; destruct xp; try contradiction; cbn; split_all; moves.
  Qed.
  Lemma timeout_good b now i k fired x d e x' : (0 <= d -> core_moves b now i k fired x x' [later d e]) -> core_good b now i k fired x (timeout d e x').
  Proof. intros H. unfold timeout. destruct (d <? 0) eqn:E; [exact I|]. apply H. lia. Qed.
  Lemma load_new_good b now i k x : core_inv x -> core_waits b now (VLoadNew i k) x -> core_good b now i k [VLoadNew i k] x (load_new c i k x).
  Proof. intros KI E. open x. unfold load_new. cbn. destruct xp; try contradiction; destruct sx as [| | |[]| | |]; try contradiction. apply timeout_good. intros HD. moves. Qed.
  Lemma load_time_good b now i k x : core_inv x -> core_waits b now (VLoadTime i k) x -> core_good b now i k [VLoadTime i k] x (load_time P i k x).
  Proof. intros KI E. open x. unfold load_time. cbn. destruct xp; try contradiction; destruct sx as [| | |[]| | |]; try contradiction. destruct (m_loaded P kc dest data) as [[[]|e] k1]; [|exact I]. moves. Qed.
  Lemma store_new_good b now i k x : core_inv x -> core_waits b now (VStoreNew i k) x -> core_good b now i k [VStoreNew i k] x (store_new c i k x).
  Proof. intros KI E. open x. unfold store_new. cbn. destruct xp; try contradiction; destruct sx as [| | |[]| | |]; try contradiction. apply timeout_good. intros HD. moves. Qed.
  Lemma loaded_good b now i k x : core_inv x -> core_waits b now (VLoaded i k) x -> core_good b now i k [VLoaded i k] x (memory_end i k true x).
  Proof.
    intros KI E. open x. pose proof (ki_comp _ KI SX) as Q3. unfold memory_end, stage_end, stage_get, buf_get. cbn in *. destruct xp; try contradiction; destruct sx; try contradiction; cbn. split_all; moves.
  Qed.
  Lemma stored_good b now i k x : core_inv x -> core_waits b now (VStored i k) x -> core_good b now i k [VStored i k] x (memory_end i k false x).
  Proof.
    intros KI E. open x. pose proof (ki_comp _ KI SX) as Q3. unfold memory_end, stage_end, stage_get, buf_get. cbn in *. destruct xp; try contradiction; destruct sx; try contradiction; cbn. split_all; moves.
  Qed.
  Lemma stage_done_good b now i k s x : core_inv x -> core_waits b now (VStageDone i k s) x -> core_good b now i k [VStageDone i k s] x (stage_done i k s x).
  Proof.
    intros KI E. open x. pose proof (ki_comp _ KI) as Q. pose proof (Q SF) as Q1. pose proof (Q SD) as Q2. pose proof (Q SX) as Q3. pose proof (ki_mon _ KI) as QM. pose proof (ki_new _ KI) as QN. cbn in QM, QN.
    unfold stage_done, mon_from, mon_wait, mon_end. destruct s; cbn in *; subst; (destruct mon as [|s|]; [|destruct s|]); cbn; try (assert (pr = CRunning) by (destruct pr; intuition congruence); subst pr); split_all; moves.
  Qed.
  Lemma pipe_done_good b now i k x : core_inv x -> core_waits b now (VPipeDone i k) x -> core_good b now i k [VPipeDone i k] x (pipe_done b now i k x).
  Proof. intros KI [E1 E2]. open x. subst. unfold pipe_done. cbn. moves. Qed.
  Lemma core_end_moves b now i k x : core_inv x -> core_waits b now (VCoreEnd i k) x -> core_moves b now i k [VCoreEnd i k] x (set_proc x CEnded (k_cycles x)) [].
  Proof. intros KI E. open x. subst. unfold set_proc. cbn. moves. Qed.
  (** accept, after the buffer has served a put. *)
  Lemma got_moves b now i k s x d : s <> SX -> 0 <= d -> core_inv x -> core_waits b now (VGot i k s) x ->
    let '(x1, l1) := buf_put i k s x in exists o, tget (k_stage x1) s = GGot o /\ core_moves b now i k [VGot i k s] x (set_stage x1 s (GWork o)) (l1 ++ [later d (VTime i k s)]).
  Proof.
    intros NX HD KI E. open x. unfold buf_put. destruct s; [| |contradiction NX; reflexivity]; cbn in *.
    - destruct sf as [| |o| | | |]; try contradiction. destruct bf as [|o1 bf]; [destruct w as [|o1 w]|]; cbn; exists o; (split; [reflexivity|]); moves.
    - destruct sd as [| |o| | | |]; try contradiction. destruct bd as [|o1 bd]; [destruct sf|]; cbn; exists o; (split; [reflexivity|]); moves.
  Qed.
  Lemma got_execute b now i k x : core_inv x -> core_waits b now (VGot i k SX) x ->
    let '(x1, l1) := buf_put i k SX x in exists o, tget (k_stage x1) SX = GGot o /\ forall k1,
      let y := set_core (set_stage x1 SX (GWork o)) k1 in
      (forall d, 0 <= d -> core_moves b now i k [VGot i k SX] x (set_xp y XTiming) (l1 ++ [later d (VTime i k SX)])) /\
      (forall a rows, match o with CStore _ _ _ _ => True | _ => False end -> core_moves b now i k [VGot i k SX] x (set_xp y (XStoreNew a rows)) (l1 ++ [start (VStoreNew i k)])) /\
      (forall id, match o with CLoad _ _ _ _ => True | _ => False end -> core_moves b now i k [VGot i k SX] x (set_xp y (XLoading id)) l1).
  Proof.
    intros KI E. open x. unfold buf_put. cbn. destruct sx as [| |o| | | |]; try contradiction.
    destruct bx as [|o1 bx]; [destruct sd|]; cbn; exists o; (split; [reflexivity|]); intros k1; (split; [intros d HD; moves|split; [intros a rows HO; destruct o; try contradiction; moves|intros id HO; destruct o; try contradiction; moves]]).
    all: try (intros _ t H; cbn in H); try (match goal with H : core_asked _ _ |- _ => unfold core_asked in H; cbn in H end); destruct xp; contradiction.
  Qed.
  Lemma load_done_good b now i k id values x : core_inv x -> core_asked id x -> (exists v, value_of id values = Some v) ->
    match load_done i k id values x with
    | DGo x' new => core_inv x' /\ (forall t e, core_ev i k e -> core_waits b t e x -> core_waits b t e x') /\ (forall id', core_asked id' x -> id' = id) /\
        Forall (fun z => core_ev i k (snd z) /\ core_waits b (now + fst (fst z)) (snd z) x' /\ snd (fst z) = prio_of (snd z) /\ forall t, ~ core_waits b t (snd z) x) new /\ NoDup (keys new)
    | DRaise _ => True
    | DStuck => False
    end.
  Proof.
    intros KI E [v EV]. open x. unfold load_done. cbn. rewrite EV. unfold core_asked in E. cbn in E.
    destruct xp as [| |id'| | | | | |id'|]; try contradiction; destruct sx as [| | |o| | |]; try contradiction.
    - destruct o; try contradiction. subst. rewrite Z.eqb_refl. cbn. repeat apply conj; [inv_tac| |unfold core_asked; cbn; intros; congruence| |nodup_tac].
      + intros t e HE HW. destruct e; try contradiction HE; cbn in *; try destruct s; cbn in *; auto; contradiction.
      + repeat constructor; cbn; auto.
    - subst. rewrite Z.eqb_refl. cbn. repeat apply conj; [inv_tac| |unfold core_asked; cbn; intros; congruence| |nodup_tac].
      + intros t e HE HW. destruct e; try contradiction HE; cbn in *; try destruct s; cbn in *; auto; contradiction.
      + repeat constructor; cbn; auto.
  Qed.
  Lemma store_time_moves b now i k x id : core_inv x -> core_waits b now (VStoreTime i k) x -> core_moves b now i k [VStoreTime i k] x (set_xp x (XStoring id)) [].
  Proof. intros KI E. open x. destruct xp; try contradiction; destruct sx; try contradiction. moves. Qed.
End Core.
