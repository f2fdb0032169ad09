(** Every event that a process of a simulation (DesModel) needs is in the event queue.  This file: the events that a core needs. *)
From Verif Require Import PyBase PyLemmas CoreModel DramModel RouterModel SystemModel DesModel DesWait.

(** Where the needed events come from: they are new, or were needed before and are not the one that is processed. *)
Definition kept (E need need' : ev -> Prop) (fired : ev) (new : sched) : Prop :=
  forall e, E e -> need' e -> In (key e) (map key (map snd new)) \/ (need e /\ key e <> key fired).

Section Core.
  Context {K M : Type}.
  Variable P : machine K M.
  Variable c : sys_cfg.
  Notation dcore := (dcore K).

  Definition core_needs (e : ev) (x : dcore) : Prop :=
    match e with VPut _ _ SF => t_f (k_stage x) = GWaiting /\ t_f (k_buf x) <> [] | _ => core_waits 0 0 e x end.
  (** The halt instruction is in a stage or has passed it; it has left a stage. *)
  Definition held (g : gstate) : bool := match g with GGot o | GWork o | GPutting o | GPut o => is_hlt o | GDead => true | _ => false end.
  Definition left_ (g : gstate) : bool := match g with GPut o => is_hlt o | GDead => true | _ => false end.
  Definition got (g : gstate) : Prop := match g with GGot _ => True | _ => False end.
  Definition put (g : gstate) : Prop := match g with GPut _ => True | _ => False end.
  Record core_fit (x : dcore) : Prop := {
    kf_get_d : t_d (k_stage x) = GWaiting -> t_d (k_buf x) <> [] -> put (t_f (k_stage x));
    kf_get_x : t_x (k_stage x) = GWaiting -> t_x (k_buf x) <> [] -> put (t_d (k_stage x));
    kf_put_f : k_proc x <> CNew -> k_wait x <> [] -> t_f (k_buf x) = [] -> got (t_f (k_stage x));
    kf_put_d : forall o, t_f (k_stage x) = GPutting o -> t_d (k_buf x) = [] -> got (t_d (k_stage x));
    kf_put_x : forall o, t_d (k_stage x) = GPutting o -> t_x (k_buf x) = [] -> got (t_x (k_stage x));
    kf_dead : forall s, tget (k_stage x) s = GDead -> tget (k_comp x) s <> Pending;
    kf_mon : forall s, k_mon x = MWait s -> tget (k_comp x) s <> Processed;
    kf_hlt_d : left_ (t_f (k_stage x)) = existsb is_hlt (t_d (k_buf x)) || held (t_d (k_stage x));
    kf_hlt_x : left_ (t_d (k_stage x)) = existsb is_hlt (t_x (k_buf x)) || held (t_x (k_stage x));
    kf_last : match t_x (k_stage x) with GPutting _ | GPut _ => False | _ => True end }.
  (** A change of a core; it may wait for requests [A] afterwards. *)
  Record core_step (A : Z -> Prop) (i k : Z) (fired : ev) (x x' : dcore) (new : sched) : Prop := {
    ks_fit : core_fit x';
    ks_kept : kept (core_ev i k) (fun e => core_needs e x) (fun e => core_needs e x') fired new;
    ks_asked : forall id, core_asked id x' -> core_asked id x \/ A id;
    ks_over : core_over x' = true -> core_over x = true \/ fired = VCoreEnd i k }.
  Definition core_kept (i k : Z) (fired : ev) (x : dcore) (r : dres dcore) : Prop :=
    match r with DGo x' new => core_step (fun _ => False) i k fired x x' new | _ => True end.

  Ltac open x := destruct x as [kc pr cy w [bf bd bx] [sf sd sx] xp [cf cd cx] mon]; cbn in *.
  Ltac split_all := repeat match goal with
    | |- context [match ?l with [] => _ | _ :: _ => _ end] => is_var l; destruct l; cbn
    | |- context [match ?g with GNew => _ | GWaiting => _ | GGot _ => _ | GWork _ => _ | GPutting _ => _ | GPut _ => _ | GDead => _ end] => is_var g; destruct g; cbn; try contradiction; try discriminate
    | |- context [match ?g with Pending => _ | Triggered => _ | Processed => _ end] => is_var g; destruct g; cbn; try contradiction; try discriminate
    | |- context [if is_hlt ?o then _ else _] => destruct (is_hlt o) eqn:?; cbn
    end.
  Ltac bools := repeat match goal with H : @eq bool _ _ |- _ => revert H end;
    repeat match goal with |- context [existsb is_hlt ?l] => destruct (existsb is_hlt l) | |- context [is_hlt ?o] => destruct (is_hlt o) | |- context [left_ ?g] => is_var g; destruct (left_ g) | |- context [held ?g] => is_var g; destruct (held g) end;
    cbn; intros; congruence.
  Ltac fit_one := cbn in *; intros; try contradiction; try discriminate; try congruence; auto; first [now intuition congruence | now eauto | exfalso; now eauto | bools | idtac].
  Ltac fit KF := let H := fresh in pose proof KF as H; destruct H as [G1 G2 G3 G4 G5 G6 G7 G8 G9 G10];
    pose proof (G6 SF) as D1; pose proof (G6 SD) as D2; pose proof (G6 SX) as D3; pose proof (G7 SF) as M1; pose proof (G7 SD) as M2; pose proof (G7 SX) as M3; clear G6 G7; cbn in *;
    constructor; [| | | | |intros s; destruct s|intros s; destruct s| | |]; fit_one.
  Ltac drop_facts := repeat match goal with H : _ \/ _ |- _ => clear H | H : ?A -> _ |- _ => clear H | H : core_inv _ |- _ => clear H | H : core_fit _ |- _ => clear H end.
  Ltac need_tac := drop_facts; let e := fresh "e" in let HE := fresh "HE" in let HW := fresh "HW" in
    intros e HE HW; destruct e as [| |i'|i' k'|i' k' s'|i' k'|i' k' s'|i' k' s'|i' k' s'|i' k'|i' k'|i' k'|i' k'|i' k'|i' k'|i' k' s'|i' k'|i' k'|i'|i'|i'|i'|i' id'|i'|i'|i'|i' k' id'|i'|i'|i'|i'|i'|i'|i'|i' n'|i'|i'|i'|i'|i'|i'|i'|i'|i'|i'|i'|i'|i'|i'|i'|i'| | |];
      try contradiction HE; destruct HE as [-> ->]; try destruct s'; cbn in HW |- *;
      first [contradiction HW | left; left; reflexivity | right; split; [exact HW|discriminate] | left; right; left; reflexivity | discriminate HW
            | tauto | solve [intuition (congruence || discriminate || auto)] ].
  Ltac asked_tac := drop_facts; unfold core_asked; cbn; let H := fresh in intros ? H; first [left; exact H | contradiction H | right; reflexivity | right; congruence | exfalso; revert H; repeat match goal with |- match ?y with _ => _ end -> _ => is_var y; destruct y end; intros; contradiction | revert H; repeat match goal with |- match ?y with _ => _ end -> _ => is_var y; destruct y end; intros; subst; tauto ].
  Ltac over_tac := drop_facts; unfold core_over; cbn; let H := fresh in intros H; first [discriminate H | left; exact H | right; reflexivity].
  Ltac both KF := constructor; [fit KF|need_tac|asked_tac|over_tac].
  Lemma core_start_kept b now i k x : core_inv x -> core_fit x -> core_kept i k (VCore i k) x (core_start b now i k x).
  Proof.
    intros KI KF. unfold core_start. destruct (k_proc x) eqn:E; try exact I. destruct (negb _); [exact I|]. destruct (ki_new _ KI E) as [S Mo]. open x. subst pr. injection S as -> -> ->. subst mon. cbn.
    destruct bf as [|o bf]; [destruct w as [|o w]|]; cbn; both KF.
  Qed.
  Lemma stage_start_kept i k s x : core_fit x -> core_kept i k (VStage i k s) x (stage_start i k s x).
  Proof. intros KF. open x. unfold stage_start, stage_get, buf_get. destruct s; cbn in *; [destruct sf|destruct sd|destruct sx]; try exact I; cbn; split_all; both KF. Qed.
  Lemma pipe_start_kept i k x : core_fit x -> core_kept i k (VPipe i k) x (pipe_start i k x).
  Proof. intros KF. open x. unfold pipe_start, mon_from, mon_wait, mon_end. cbn. destruct mon; try exact I. cbn. split_all; both KF. Qed.
  Lemma on_put_kept i k s x : core_inv x -> core_fit x -> core_kept i k (VPut i k s) x (on_put i k s x).
  Proof.
    intros KI KF. pose proof (ki_comp _ KI SF) as Q1. pose proof (ki_comp _ KI SD) as Q2. pose proof (ki_comp _ KI SX) as Q3. clear KI. open x.
    unfold on_put, buf_get, stage_end, stage_get. cbn. destruct s; cbn.
    - split_all; both KF.
    - destruct sd; destruct bd; cbn; destruct sf; try exact I; cbn; unfold buf_get; cbn; split_all; both KF.
    - destruct sx; destruct bx; cbn; destruct sd; try exact I; cbn; unfold buf_get; cbn; split_all; both KF.
  Qed.
  Lemma on_time_kept i k s x : core_fit x -> core_kept i k (VTime i k s) x (on_time i k s x).
  Proof.
    intros KF. open x. unfold on_time, stage_put, stage_end, stage_get, buf_put, buf_get. destruct s; cbn.
    - destruct sf; try exact I; cbn. split_all; both KF.
    - destruct sd; try exact I; cbn. split_all; both KF.
    - destruct sx; try exact I; destruct xp; try exact I; cbn; split_all; both KF.
  Qed.
  Lemma timeout_kept i k fired x d e x' : core_kept i k fired x (DGo x' [later d e]) -> core_kept i k fired x (timeout d e x').
  Proof. intros H. unfold timeout. destruct (d <? 0); [exact I|]. exact H. Qed.
  Lemma load_new_kept i k x : core_fit x -> core_kept i k (VLoadNew i k) x (load_new c i k x).
  Proof. intros KF. open x. unfold load_new. cbn. destruct xp; try exact I; destruct sx as [| | |[]| | |]; try exact I. apply timeout_kept. cbn. both KF. Qed.
  Lemma load_time_kept i k x : core_fit x -> core_kept i k (VLoadTime i k) x (load_time P i k x).
  Proof. intros KF. open x. unfold load_time. cbn. destruct xp; try exact I; destruct sx as [| | |[]| | |]; try exact I. destruct (m_loaded P kc dest data) as [[[]|e] k1]; [|exact I]. cbn. both KF. Qed.
  Lemma store_new_kept i k x : core_fit x -> core_kept i k (VStoreNew i k) x (store_new c i k x).
  Proof. intros KF. open x. unfold store_new. cbn. destruct xp; try exact I; destruct sx as [| | |[]| | |]; try exact I. apply timeout_kept. cbn. both KF. Qed.
  Lemma loaded_kept i k x : core_fit x -> core_kept i k (VLoaded i k) x (memory_end i k true x).
  Proof. intros KF. open x. unfold memory_end, stage_end, stage_get, buf_get. cbn. destruct xp; try exact I; destruct sx; try exact I; cbn. split_all; both KF. Qed.
  Lemma stored_kept i k x : core_fit x -> core_kept i k (VStored i k) x (memory_end i k false x).
  Proof. intros KF. open x. unfold memory_end, stage_end, stage_get, buf_get. cbn. destruct xp; try exact I; destruct sx; try exact I; cbn; split_all; both KF. Qed.
  Lemma stage_done_kept i k s x : core_inv x -> core_fit x -> core_kept i k (VStageDone i k s) x (stage_done i k s x).
  Proof.
    intros KI KF. pose proof (ki_mon _ KI) as QM. pose proof (ki_new _ KI) as QN. clear KI. open x. unfold stage_done, mon_from, mon_wait, mon_end.
    destruct s; cbn; [destruct cf|destruct cd|destruct cx]; try exact I; cbn; (destruct mon as [|s|]; [|destruct s|]); cbn; split_all; both KF.
  Qed.
  Lemma pipe_done_kept b now i k x : core_fit x -> core_kept i k (VPipeDone i k) x (pipe_done b now i k x).
  Proof. intros KF. open x. unfold pipe_done. cbn. destruct pr; try exact I; destruct mon; try exact I. cbn. both KF. Qed.
  Lemma core_end_kept i k x : core_fit x -> k_proc x = CEnding -> core_step (fun _ => False) i k (VCoreEnd i k) x (set_proc x CEnded (k_cycles x)) [].
  Proof. intros KF E. open x. subst. cbn. both KF. Qed.
  Lemma got_kept i k s x d : s <> SX -> core_fit x ->
    let '(x1, l1) := buf_put i k s x in forall o, tget (k_stage x1) s = GGot o -> core_step (fun _ => False) i k (VGot i k s) x (set_stage x1 s (GWork o)) (l1 ++ [later d (VTime i k s)]).
  Proof.
    intros NX KF. open x. unfold buf_put. destruct s; [| |contradiction NX; reflexivity]; cbn.
    - destruct bf as [|o1 bf]; [destruct w as [|o1 w]|]; cbn; intros o2 E; subst; both KF.
    - destruct bd as [|o1 bd]; [destruct sf|]; cbn; intros o2 E; subst; both KF.
  Qed.
  Lemma execute_kept i k x :  core_fit x ->
    let '(x1, l1) := buf_put i k SX x in forall o, tget (k_stage x1) SX = GGot o -> forall k1,
      let y := set_core (set_stage x1 SX (GWork o)) k1 in
      (forall d, core_step (fun _ => False) i k (VGot i k SX) x (set_xp y XTiming) (l1 ++ [later d (VTime i k SX)])) /\
      (forall a rows, core_step (fun _ => False) i k (VGot i k SX) x (set_xp y (XStoreNew a rows)) (l1 ++ [start (VStoreNew i k)])) /\
      (forall id, core_step (fun a => a = id) i k (VGot i k SX) x (set_xp y (XLoading id)) l1).
  Proof.
    intros KF. open x. unfold buf_put. cbn. 
    destruct bx as [|o1 bx]; [destruct sd|]; cbn; intros o2 E k1; subst; (split; [intros d; both KF|split; [intros a rows; both KF|intros id; both KF]]).
  Qed.
  Lemma load_done_kept i k id values x : core_fit x -> core_kept i k (VDone i k id) x (load_done i k id values x).
  Proof.
    intros KF. open x. unfold load_done. cbn. destruct xp; try exact I; destruct sx; try exact I; destruct (value_of id values); try exact I; match goal with |- context [id =? ?i'] => destruct (id =? i'); [|exact I] end; cbn; both KF.
  Qed.
  Lemma load_done_asked i k id values (x : dcore) : match load_done i k id values x with DGo x' _ => forall id', ~ core_asked id' (x' : dcore) | _ => True end.
  Proof.
    open x. unfold load_done. cbn. destruct xp; try exact I; destruct sx; try exact I; destruct (value_of id values); try exact I; match goal with |- context [id =? ?i'] => destruct (id =? i'); [|exact I] end; unfold core_asked; cbn; auto.
  Qed.
  Lemma store_time_kept i k x a rows o id : core_fit x -> k_xp x = XStoreTiming a rows -> t_x (k_stage x) = GWork o -> core_step (fun a => a = id) i k (VStoreTime i k) x (set_xp x (XStoring id)) [].
  Proof. intros KF E1 E2. open x. subst. both KF. Qed.
  Lemma core_new_fit kp : core_fit (core_new kp).
  Proof. constructor; cbn; try (intros s; destruct s); cbn; try discriminate; try congruence; auto. Qed.
End Core.
