(** The events that the memory controller and the router of a tile need (continues DesNeed). *)
From Verif Require Import PyBase PyLemmas CoreModel DramModel DramProofs RouterModel SystemModel DesModel DesWait DesWaitCtl DesNeed.

Section Ctl.
  Context {K M : Type}.
  Variable P : machine K M.
  Variable c : sys_cfg.
  Notation dctl := (dctl M).

  Definition ctl_needs (e : ev) (d : dctl) : Prop :=
    match e with
    | VHandler _ => c_handler d = HNew /\ c_running d = true
    | VReqPut _ => c_handler d = HWaiting /\ c_items d <> []
    | VReqGot _ => match c_handler d with HGot _ => True | _ => False end
    | VThread _ id => In id (map q_id (c_starting d))
    | VGrant _ => match c_bus d with BGranted _ => True | _ => False end
    | VThreadTime _ => match c_bus d with BTiming _ _ => True | _ => False end
    | VRelease _ => c_bus d = BFree /\ c_waiting d <> []
    | _ => False
    end.
  Definition ctl_kept (i : Z) (fired : ev) (d : dctl) (r : dres dctl) : Prop :=
    match r with
    | DGo d' new => kept (ctl_ev i) (fun e => ctl_needs e d) (fun e => ctl_needs e d') fired new
    | _ => True
    end.
  Ltac openc d := destruct d as [m ru it h pe sg bu wa stt sta nx va]; cbn in *.
  Ltac need_tac := let e := fresh "e" in let HE := fresh "HE" in let HW := fresh "HW" in
    intros e HE HW; destruct e; try contradiction HE; cbn in HE; subst; cbn in HW |- *;
      first [contradiction HW | left; left; reflexivity | right; split; [exact HW|discriminate] | left; right; left; reflexivity
            | tauto | solve [intuition (congruence || discriminate || auto)] ].
  Lemma req_get_kept i d : ctl_kept i (VReqPut i) d (go (req_get i d)).
  Proof. openc d. unfold req_get. cbn. destruct h as [| |r|dang]; cbn; [need_tac| |need_tac|destruct dang; [|need_tac]]; destruct it; cbn; need_tac. Qed.
  Lemma bus_give_kept i d : ctl_kept i (VRelease i) d (go (bus_give i d)).
  Proof. openc d. unfold bus_give. cbn. destruct bu; cbn; [destruct wa; cbn|..]; need_tac. Qed.
  Lemma handler_start_kept i d : ctl_kept i (VHandler i) d (handler_start i d).
  Proof. openc d. unfold handler_start, req_get. cbn. destruct h; try exact I. cbn. destruct it; cbn; need_tac. Qed.
  Lemma on_req_kept i d : ctl_kept i (VReqGot i) d (on_req P i d).
  Proof.
    openc d. unfold on_req, req_get. cbn. destruct h as [| |r|dang]; try exact I.
    - destruct ru; [|exact I]. cbn. destruct (is_read r && negb (m_ready P m r)); cbn; destruct it; cbn; try need_tac.
      + intros e HE HW; destruct e; try contradiction HE; cbn in HE; subst; cbn in HW |- *; try tauto; try (intuition discriminate). rewrite map_app, in_app_iff in HW. cbn in HW. destruct HW as [HW|[<-|[]]]; [right; split; [exact HW|discriminate]|now left; left].
      + intros e HE HW; destruct e; try contradiction HE; cbn in HE; subst; cbn in HW |- *; try tauto; try (intuition discriminate). rewrite map_app, in_app_iff in HW. cbn in HW. destruct HW as [HW|[<-|[]]]; [right; split; [exact HW|discriminate]|now left; left].
    - need_tac.
  Qed.
  Lemma handler_int_kept i d : ctl_kept i (VHandlerInt i) d (handler_int d).
  Proof. openc d. unfold handler_int. cbn. destruct ru; try exact I. destruct h; try exact I; cbn; need_tac. Qed.
  Lemma thread_start_kept i id d : ctl_inv d -> ctl_kept i (VThread i id) d (thread_start i id d).
  Proof.
    intros KI. pose proof (ci_starting _ KI) as S. clear KI. openc d. unfold thread_start. cbn. destruct sg as [|r [|r' sg]]; try exact I; [|contradiction]. destruct (q_id r =? id) eqn:E; [|exact I]. apply Z.eqb_eq in E. subst id. unfold bus_give. cbn.
    destruct bu; cbn; [destruct wa; cbn|..]; need_tac.
  Qed.
  Lemma on_grant_kept now i d : ctl_kept i (VGrant i) d (on_grant c now i d).
  Proof. openc d. unfold on_grant, timeout. cbn. destruct bu; try exact I. destruct (_ <? 0); [exact I|]. cbn. need_tac. Qed.
  Lemma thread_end_kept now i d : ctl_kept i (VThreadTime i) d (thread_end P c now i d).
  Proof.
    openc d. unfold thread_end. cbn. destruct bu as [|r|r since]; try exact I. destruct (now <? _); [exact I|]. destruct (q_kind r) as [w v|rows].
    - destruct (m_read P m r) as [[data|e] m1]; [|exact I]. cbn. need_tac.
    - destruct (m_write P m r rows) as [[[]|e] m1]; [|exact I]. destruct (release_ready P (length pe) 0 m1 pe []) as [pe' new]. cbn.
      intros e HE HW. destruct e; try contradiction HE; cbn in HE; subst; cbn in HW; try contradiction; try (right; split; [exact HW|discriminate]).
      + destruct HW as [H1 H2]. destruct it as [|r1 it]; [|right; split; [split; [exact H1|discriminate]|discriminate]]. destruct new as [|r1 new]; [contradiction H2; reflexivity|]. now left; left.
      + left. rewrite !map_app, in_app_iff. right. cbn. tauto.
  Qed.
  Lemma ctl_stop_kept now i d : ctl_kept i (VStopped i) d (ctl_stop now i d).
  Proof. openc d. unfold ctl_stop. cbn. destruct ru; cbn; [|need_tac]. destruct (negb _); [exact I|]. cbn. need_tac. Qed.
  Lemma submit_kept now i core addr kd d fired : ~ ctl_ev i fired -> match submit now i core addr kd d with
    | DGo (r, d') new => kept (ctl_ev i) (fun e => ctl_needs e d) (fun e => ctl_needs e d') fired new /\ q_id r = c_next d /\ c_values d' = c_values d /\ c_next d' = c_next d + 1
    | _ => True end.
  Proof.
    intros HF. openc d. unfold submit. cbn. destruct ru; [|exact I]. cbn. split; [|auto].
    intros e HE HW. assert (HK : key e <> key fired) by (intros E; apply HF; destruct e; try contradiction HE; destruct fired; try discriminate E; injection E as <-; exact HE).
    destruct e; try contradiction HE; cbn in HE; subst; cbn in HW; try contradiction; first [now left; left|right; split; [exact HW|exact HK]].
  Qed.
  Lemma ctl_same i d fired new : ~ ctl_ev i fired -> kept (ctl_ev i) (fun e => ctl_needs e d) (fun e => ctl_needs e d) fired new.
  Proof. intros HF e HE HW. right. split; [exact HW|]. intros E; apply HF. destruct e; try contradiction HE; destruct fired; try discriminate E; injection E as <-; exact HE. Qed.
End Ctl.

Section Rt.
  Variable c : sys_cfg.
  Definition rt_needs (e : ev) (u : drt) : Prop :=
    match e with
    | VSender _ => u_sender u = ZNew /\ u_running u = true
    | VSendPut _ => u_sender u = ZWaiting /\ u_queue u <> []
    | VSendGot _ => match u_sender u with ZGot _ _ => True | _ => False end
    | VTravel _ => match u_sender u with ZTravel _ _ _ => True | _ => False end
    | VOffer _ => match u_sender u with ZOffering _ _ => True | _ => False end
    | VTaken _ => match u_sender u with ZPut _ _ => True | _ => False end
    | VArrived _ => match u_sender u with ZArrived _ _ => True | _ => False end
    | _ => False
    end.
  Definition rt_kept (i : Z) (fired : ev) (u : drt) (r : dres drt) : Prop :=
    match r with
    | DGo u' new => kept (rt_ev i) (fun e => rt_needs e u) (fun e => rt_needs e u') fired new
    | _ => True
    end.
  Ltac openr u := destruct u as [ru q z bf ev0 stt]; cbn in *.
  Ltac need_tac := let e := fresh "e" in let HE := fresh "HE" in let HW := fresh "HW" in
    intros e HE HW; destruct e; try contradiction HE; cbn in HE; subst; cbn in HW |- *;
      first [contradiction HW | left; left; reflexivity | right; split; [exact HW|discriminate] | left; right; left; reflexivity
            | tauto | solve [intuition (congruence || discriminate || auto)] ].
  Lemma send_get_kept now i u : rt_kept i (VSendPut i) u (go (send_get now i u)).
  Proof. openr u. unfold send_get. cbn. destruct z as [| | | | | | | |dang]; cbn; try need_tac; [|destruct dang; [|need_tac]]; destruct q; cbn; need_tac. Qed.
  Lemma sender_start_kept now i u : rt_kept i (VSender i) u (sender_start now i u).
  Proof. openr u. unfold sender_start, send_get. cbn. destruct z; try exact I. cbn. destruct q; cbn; need_tac. Qed.
  Lemma on_send_kept i u : rt_kept i (VSendGot i) u (on_send c i u).
  Proof. openr u. unfold on_send. cbn. destruct z; try exact I. - destruct (get_latency _ _ _) as [lat inter]. destruct (negb _); [exact I|]. unfold timeout. destruct (lat <? 0); [exact I|]. cbn. need_tac. - cbn. need_tac. Qed.
  Lemma on_travel_kept now i u : rt_kept i (VTravel i) u (on_travel c now i u).
  Proof. openr u. unfold on_travel. cbn. destruct z; try exact I. destruct (now <? _); [exact I|]. cbn. need_tac. Qed.
  Lemma on_arrived_kept now i u : rt_kept i (VArrived i) u (on_arrived now i u).
  Proof. openr u. unfold on_arrived, send_get. cbn. destruct z; try exact I. destruct ev0 as [[n []]|]; try exact I. cbn. destruct q; cbn; need_tac. Qed.
  Lemma sender_int_kept i u : rt_kept i (VSenderInt i) u (sender_int u).
  Proof. openr u. unfold sender_int. cbn. destruct ru; try exact I. destruct z; try exact I. cbn. need_tac. Qed.
  Lemma rt_same i u u' fired new : u_sender u' = u_sender u -> (u_running u' = true -> u_running u = true) -> u_queue u' = u_queue u -> ~ rt_ev i fired -> kept (rt_ev i) (fun e => rt_needs e u) (fun e => rt_needs e u') fired new.
  Proof.
    intros E1 E2 E3 HF e HE HW. right. split; [|intros E; apply HF; destruct e; try contradiction HE; destruct fired; try discriminate E; injection E as <-; exact HE].
    destruct e; cbn in *; rewrite ?E1, ?E3 in HW; try exact HW; tauto.
  Qed.
End Rt.
