(** Which events the memory controller and the router of a tile wait for (continues DesWait). *)
From Coq Require Import Permutation.
From Verif Require Import PyBase PyLemmas CoreModel DramModel DramProofs RouterModel SystemModel DesModel DesWait.

Section Ctl.
  Context {K M : Type}.
  Variable P : machine K M.
  Variable c : sys_cfg.
  Notation dctl := (dctl M).

  Definition ctl_ev (i : Z) (e : ev) : Prop :=
    match e with
    | VHandler i' | VReqPut i' | VReqGot i' | VHandlerInt i' | VThread i' _ | VGrant i' | VThreadTime i' | VRelease i' => i' = i
    | _ => False
    end.
  Definition ctl_waits (t : Z) (e : ev) (d : dctl) : Prop :=
    match e with
    | VHandler _ => c_handler d = HNew /\ c_running d = true
    | VReqPut _ | VRelease _ => True
    | VReqGot _ => match c_handler d with HGot _ | HDead _ => True | _ => False end
    | VHandlerInt _ => c_running d = false /\ match c_handler d with HWaiting | HGot _ => True | _ => False end
    | VThread _ id => match c_starting d with [r] => q_id r = id | _ => False end
    | VGrant _ => match c_bus d with BGranted _ => True | _ => False end
    | VThreadTime _ => match c_bus d with BTiming r since => since + y_lat c * q_batches r <= t | _ => False end
    | _ => False
    end.
  (** The requests whose done_event has not been triggered, except those of an interrupted handler. *)
  Definition requests (d : dctl) : list req :=
    (match c_handler d with HGot r => [r] | _ => [] end) ++ c_items d ++ c_pending d ++ c_starting d
    ++ (match c_bus d with BGranted r | BTiming r _ => [r] | BFree => [] end) ++ c_waiting d.
  Record ctl_inv (d : dctl) : Prop := {
    ci_nodup : NoDup (map q_id (requests d));
    ci_next : forall r, In r (requests d) -> q_id r < c_next d /\ ~ In (q_id r) (map fst (c_values d));
    ci_values : Forall (fun v => fst v < c_next d) (c_values d);
    ci_alive : c_running d = true -> match c_handler d with HDead _ => False | _ => True end;
    ci_starting : match c_starting d with [] | [_] => True | _ => False end }.
  (** What of a controller concerns its requests. *)
  Definition drops (d d' : dctl) : Prop := exists l, Permutation (requests d) (l ++ requests d').
  Definition urgent_new (e : ev) (fired : list ev) (new : sched) : Prop :=
    (exists l1 l2, new = l1 ++ start e :: l2 /\ Forall (fun z => snd (fst z) = Normal) (l1 ++ l2)) /\ Forall (fun f => prio_of f = Normal) fired.
  Record ctl_moves (now i : Z) (fired : list ev) (d d' : dctl) (new : sched) : Prop := {
    cm_inv : ctl_inv d';
    cm_req : drops d d';
    cm_values : c_values d' = c_values d;
    cm_running : c_running d' = c_running d;
    cm_keep : forall t e, ctl_ev i e -> immediate e = false -> ctl_waits t e d -> In (key e) fired \/ ctl_waits t e d';
    cm_new : Forall (fun z => ctl_ev i (snd z) /\ ctl_waits (now + fst (fst z)) (snd z) d' /\ snd (fst z) = prio_of (snd z) /\
                              (tracked (snd z) = true -> In (key (snd z)) fired \/ forall t, ~ ctl_waits t (snd z) d)) new;
    cm_nodup : NoDup (keys new);
    cm_imm : forall t e, ctl_ev i e -> immediate e = true -> ctl_waits t e d' -> ctl_waits t e d /\ ~ In e fired \/ urgent_new e fired new;
    cm_fresh : c_handler d' = HNew -> c_handler d = HNew /\ ~ In (VHandler i) fired }.
  Definition ctl_good (now i : Z) (fired : list ev) (d : dctl) (r : dres dctl) : Prop :=
    match r with DGo d' new => ctl_moves now i fired d d' new | DRaise _ => True | DStuck => False end.

  Lemma drops_inv d d' : ctl_inv d -> drops d d' -> c_values d' = c_values d -> c_next d' = c_next d ->
    (c_running d' = true -> match c_handler d' with HDead _ => False | _ => True end) ->
    match c_starting d' with [] | [_] => True | _ => False end -> ctl_inv d'.
  Proof.
    intros [N NX V A S] [l PM] EV EN HA HS. constructor; auto; try (now constructor).
    - apply (Permutation_map q_id) in PM. rewrite map_app in PM. apply (Permutation_NoDup PM) in N. exact (NoDup_app_r _ _ N).
    - intros r H. rewrite EV, EN. apply NX. apply (Permutation_in _ (Permutation_sym PM)). apply in_or_app. now right.
    - rewrite EV, EN. exact V.
  Qed.

  Ltac openc d := destruct d as [m ru it h pe sg bu wa stt sta nx va]; cbn in *.
  Ltac ctl_keep := let t := fresh "t" in let e := fresh "e" in let HE := fresh "HE" in let HW := fresh "HW" in
    intros t e HE HI HW; destruct e; try contradiction HE; try discriminate HI; cbn in HE; subst; cbn in *;
      first [contradiction | discriminate | left; now left | right; auto; fail | right; intuition (auto; congruence) ].
  Ltac ctl_new := repeat (apply Forall_cons || apply Forall_nil); cbn; repeat split; auto; try congruence; try (intros _; first [left; now left | right; intros t H; cbn in H; intuition congruence]); try lia.
  Ltac nodup_tac := cbv [keys tracked key map filter snd start soon later]; repeat constructor; cbn; intuition congruence.
  Ltac ctl_imm := let t := fresh "t" in let e := fresh "e" in
    intros t e HE HI HW; destruct e; try contradiction HE; try discriminate HI; cbn in HE; subst; cbn in *;
      first [contradiction | left; split; [intuition (auto; congruence)|intuition discriminate] ].
  Ltac drop0 l := exists l; unfold requests; cbn; repeat rewrite <- app_assoc; cbn; try reflexivity.
  Lemma mid_perm {A} (x : A) (l1 l2 : list A) : Permutation (x :: l1 ++ l2) (l1 ++ x :: l2).
  Proof. apply Permutation_middle. Qed.
  Ltac ctl_inv_tac := match goal with KI : ctl_inv ?d |- ctl_inv ?d' => apply (drops_inv d d' KI); [|cbn; auto..] end.

  Ltac fresh_tac := let E := fresh in intros E; cbn in E; first [discriminate E | split; [now auto|cbn; intuition discriminate] | split; now auto].
  (** [HA]: alive; [HS]: starting. *)
  Ltac ctl_go KI DR HA HS imm := constructor;
    [exact (drops_inv _ _ KI DR eq_refl eq_refl HA HS)|exact DR|reflexivity|reflexivity|ctl_keep|ctl_new|nodup_tac|imm|fresh_tac].
  Ltac imm_same IMM := let t := fresh "t" in let e := fresh "e" in intros t e H1 H2 H3; left; split; [|now apply IMM]; destruct e; try contradiction; try discriminate H2; cbn in *; auto.
  (** Events that are not tracked do not end a wait. *)
  Definition plain (fired : list ev) : Prop := Forall (fun f => tracked f = false) fired.
  Lemma plain_out fired e : plain fired -> tracked e = true -> ~ In e fired.
  Proof. intros HF HT HI. unfold plain in HF. rewrite Forall_forall in HF. specialize (HF _ HI). congruence. Qed.
  Lemma ctl_moves_refl now i fired d : ctl_inv d -> (c_handler d = HNew -> ~ In (VHandler i) fired) -> (forall t e, ctl_ev i e -> immediate e = true -> ctl_waits t e d -> ~ In e fired) ->
    ctl_moves now i fired d d [].
  Proof. intros KI H1 H2. constructor; auto; try (now constructor). - exists []. reflexivity. - intros. left. eauto. Qed.
  Lemma ctl_moves_plain now i fired d : ctl_inv d -> plain fired -> ctl_moves now i fired d d [].
  Proof. intros KI HF. apply ctl_moves_refl; auto. - intros _. now apply plain_out. - intros t e _ HI _. apply plain_out; auto. destruct e; discriminate HI || reflexivity. Qed.

  Lemma req_get_moves now i fired d : ctl_inv d -> plain fired -> ctl_moves now i fired d (fst (req_get i d)) (snd (req_get i d)).
  Proof.
    intros KI HF. pose proof (ci_alive _ KI) as A. pose proof (ci_starting _ KI) as S. pose proof (ctl_moves_plain now i fired d KI HF) as R0.
    assert (IMM : forall e, immediate e = true -> ~ In e fired).
    { intros e HI. apply plain_out; auto. destruct e; discriminate HI || reflexivity. }
    openc d. unfold req_get. cbn. destruct h as [| |r|dang]; try exact R0.
    - destruct it as [|r it]; [exact R0|]. cbn in *. clear R0.
      assert (DR : drops (MkCtl m ru (r :: it) HWaiting pe sg bu wa stt sta nx va) (MkCtl m ru it (HGot r) pe sg bu wa stt sta nx va)) by (exists []; reflexivity).
      ctl_go KI DR (fun _ : ru = true => I) S ltac:(imm_same IMM).
    - destruct dang; [|exact R0]. destruct it as [|r it]; [exact R0|]. cbn in *. clear R0.
      assert (DR : drops (MkCtl m ru (r :: it) (HDead true) pe sg bu wa stt sta nx va) (MkCtl m ru it (HDead false) pe sg bu wa stt sta nx va)) by (exists [r]; reflexivity).
      ctl_go KI DR A S ltac:(imm_same IMM).
  Qed.
  Lemma bus_give_moves now i fired d : ctl_inv d -> plain fired -> ctl_moves now i fired d (fst (bus_give i d)) (snd (bus_give i d)).
  Proof.
    intros KI HF. pose proof (ci_alive _ KI) as A. pose proof (ci_starting _ KI) as S. pose proof (ctl_moves_plain now i fired d KI HF) as R0.
    assert (IMM : forall e, immediate e = true -> ~ In e fired).
    { intros e HI. apply plain_out; auto. destruct e; discriminate HI || reflexivity. }
    assert (NH : ~ In (VHandler i) fired) by (now apply plain_out).
    openc d. unfold bus_give. cbn. destruct bu as [|r|r since]; try exact R0. destruct wa as [|r wa]; [exact R0|]. cbn in *. clear R0.
    assert (DR : drops (MkCtl m ru it h pe sg BFree (r :: wa) stt sta nx va) (MkCtl m ru it h pe sg (BGranted r) wa stt sta nx va)) by (exists []; reflexivity).
    ctl_go KI DR A S ltac:(imm_same IMM).
  Qed.
  Lemma handler_start_good now i d : ctl_inv d -> ctl_waits now (VHandler i) d -> ctl_good now i [VHandler i] d (handler_start i d).
  Proof.
    intros KI [E E']. pose proof (ci_starting _ KI) as S. openc d. subst h ru. unfold handler_start, req_get, go. cbn. destruct it as [|r it]; cbn.
    - assert (DR : drops (MkCtl m true [] HNew pe sg bu wa stt sta nx va) (MkCtl m true [] HWaiting pe sg bu wa stt sta nx va)) by (exists []; reflexivity).
      ctl_go KI DR (fun _ : true = true => I) S ltac:(ctl_imm).
    - assert (DR : drops (MkCtl m true (r :: it) HNew pe sg bu wa stt sta nx va) (MkCtl m true it (HGot r) pe sg bu wa stt sta nx va)) by (exists []; reflexivity).
      ctl_go KI DR (fun _ : true = true => I) S ltac:(ctl_imm).
  Qed.

  Lemma on_req_good now i d : ctl_inv d -> ctl_waits now (VReqGot i) d -> (c_running d = false -> match c_handler d with HGot _ => False | _ => True end) -> c_starting d = [] ->
    ctl_good now i [VReqGot i] d (on_req P i d).
  Proof.
    intros KI E RU ST. pose proof (ci_alive _ KI) as A. openc d. subst sg. unfold on_req. cbn. destruct h as [| |r|da]; try contradiction.
    - destruct ru; [|contradiction (RU eq_refl)]. cbn. destruct (is_read r && negb (m_ready P m r)).
      + unfold req_get, go. cbn. destruct it as [|r' it]; cbn.
        * assert (DR : drops (MkCtl m true [] (HGot r) pe [] bu wa stt sta nx va) (MkCtl m true [] HWaiting (pe ++ [r]) [] bu wa stt sta nx va)).
          { exists []. unfold requests. cbn. rewrite <- app_assoc. apply Permutation_middle. }
          ctl_go KI DR (fun _ : true = true => I) I ltac:(ctl_imm).
        * assert (DR : drops (MkCtl m true (r' :: it) (HGot r) pe [] bu wa stt sta nx va) (MkCtl m true it (HGot r') (pe ++ [r]) [] bu wa stt sta nx va)).
          { exists []. unfold requests. cbn. rewrite <- !app_assoc. eapply perm_trans; [apply perm_swap|]. constructor. cbn. rewrite !(app_assoc it pe). apply Permutation_middle. }
          ctl_go KI DR (fun _ : true = true => I) I ltac:(ctl_imm).
      + unfold req_get, go. cbn. destruct it as [|r' it]; cbn.
        * assert (DR : drops (MkCtl m true [] (HGot r) pe [] bu wa stt sta nx va) (MkCtl m true [] HWaiting pe [r] bu wa stt sta nx va)).
          { exists []. unfold requests. cbn. apply Permutation_middle. }
          ctl_go KI DR (fun _ : true = true => I) I ltac:(idtac).
          intros t e HE HI HW. destruct e; try contradiction HE; try discriminate HI; cbn in HE; subst; cbn in *; [destruct HW; discriminate|]. right. subst. split; [|repeat constructor]. exists [], []. split; [reflexivity|constructor].
        * assert (DR : drops (MkCtl m true (r' :: it) (HGot r) pe [] bu wa stt sta nx va) (MkCtl m true it (HGot r') pe [r] bu wa stt sta nx va)).
          { exists []. unfold requests. cbn. eapply perm_trans; [apply perm_swap|]. constructor. rewrite !(app_assoc it pe). apply Permutation_middle. }
          ctl_go KI DR (fun _ : true = true => I) I ltac:(idtac).
          intros t e HE HI HW. destruct e; try contradiction HE; try discriminate HI; cbn in HE; subst; cbn in *; [destruct HW; discriminate|]. right. subst. split; [|repeat constructor]. exists [], [soon (VReqGot i)]. split; [reflexivity|repeat constructor].
    - apply ctl_moves_refl; auto; cbn; [discriminate|]. intros t e HE HI HW. destruct e; try contradiction HE; try discriminate HI; cbn; intuition discriminate.
  Qed.
  Lemma handler_int_good now i d : ctl_inv d -> ctl_waits now (VHandlerInt i) d -> c_starting d = [] -> ctl_good now i [VHandlerInt i] d (handler_int d).
  Proof.
    intros KI [E1 E2] S. openc d. subst ru sg. unfold handler_int. cbn. destruct h as [| |r|da]; try contradiction.
    - assert (DR : drops (MkCtl m false it HWaiting pe [] bu wa stt sta nx va) (MkCtl m false it (HDead true) pe [] bu wa stt sta nx va)) by (exists []; reflexivity).
      ctl_go KI DR (fun E : false = true => Bool.diff_false_true E) I ltac:(ctl_imm).
    - assert (DR : drops (MkCtl m false it (HGot r) pe [] bu wa stt sta nx va) (MkCtl m false it (HDead false) pe [] bu wa stt sta nx va)) by (exists [r]; reflexivity).
      ctl_go KI DR (fun E : false = true => Bool.diff_false_true E) I ltac:(ctl_imm).
  Qed.
  Lemma thread_start_good now i id d : ctl_inv d -> ctl_waits now (VThread i id) d -> ctl_good now i [VThread i id] d (thread_start i id d).
  Proof.
    intros KI E. pose proof (ci_alive _ KI) as A. openc d. unfold thread_start. cbn. destruct sg as [|r [|]]; try contradiction. subst id. rewrite Z.eqb_refl. unfold bus_give, go. cbn.
    assert (IM : forall t e d', ctl_ev i e -> immediate e = true -> c_starting d' = [] -> c_handler d' = h -> c_running d' = ru -> ctl_waits t e d' -> ctl_waits t e (MkCtl m ru it h pe [r] bu wa stt sta nx va) /\ ~ In e [VThread i (q_id r)]).
    { intros t e d' HE HI E1 E2 E3 HW. destruct e; try contradiction HE; try discriminate HI; cbn in *; [rewrite E2, E3 in HW|rewrite E1 in HW; contradiction]. split; [exact HW|intuition discriminate]. }
    destruct bu as [|g|g since]; [destruct wa as [|w wa]|..]; cbn.
    - assert (DR : drops (MkCtl m ru it h pe [r] BFree [] stt sta nx va) (MkCtl m ru it h pe [] (BGranted r) [] stt sta nx va)) by (exists []; reflexivity).
      ctl_go KI DR A I ltac:(intros t e H1 H2 H3; left; refine (IM t e _ H1 H2 _ _ _ H3); reflexivity).
    - assert (DR : drops (MkCtl m ru it h pe [r] BFree (w :: wa) stt sta nx va) (MkCtl m ru it h pe [] (BGranted w) (wa ++ [r]) stt sta nx va)).
      { exists []. unfold requests. cbn. apply Permutation_app_head, Permutation_app_head, Permutation_app_head. eapply perm_trans; [apply perm_swap|]. constructor. apply Permutation_cons_append. }
      ctl_go KI DR A I ltac:(intros t e H1 H2 H3; left; refine (IM t e _ H1 H2 _ _ _ H3); reflexivity).
    - assert (DR : drops (MkCtl m ru it h pe [r] (BGranted g) wa stt sta nx va) (MkCtl m ru it h pe [] (BGranted g) (wa ++ [r]) stt sta nx va)).
      { exists []. unfold requests. cbn. apply Permutation_app_head, Permutation_app_head, Permutation_app_head. eapply perm_trans; [apply perm_swap|]. constructor. apply Permutation_cons_append. }
      ctl_go KI DR A I ltac:(intros t e H1 H2 H3; left; refine (IM t e _ H1 H2 _ _ _ H3); reflexivity).
    - assert (DR : drops (MkCtl m ru it h pe [r] (BTiming g since) wa stt sta nx va) (MkCtl m ru it h pe [] (BTiming g since) (wa ++ [r]) stt sta nx va)).
      { exists []. unfold requests. cbn. apply Permutation_app_head, Permutation_app_head, Permutation_app_head. eapply perm_trans; [apply perm_swap|]. constructor. apply Permutation_cons_append. }
      ctl_go KI DR A I ltac:(intros t e H1 H2 H3; left; refine (IM t e _ H1 H2 _ _ _ H3); reflexivity).
  Qed.
  Lemma on_grant_good now i d : ctl_inv d -> ctl_waits now (VGrant i) d -> ctl_good now i [VGrant i] d (on_grant c now i d).
  Proof.
    intros KI E. pose proof (ci_alive _ KI) as A. pose proof (ci_starting _ KI) as S. openc d. unfold on_grant. cbn. destruct bu as [|r|r s]; try contradiction.
    unfold timeout. destruct (y_lat c * q_batches r <? 0) eqn:L; [exact I|]. unfold ctl_bus. cbn.
    assert (DR : drops (MkCtl m ru it h pe sg (BGranted r) wa stt sta nx va) (MkCtl m ru it h pe sg (BTiming r now) wa stt sta nx va)) by (exists []; reflexivity).
    ctl_go KI DR A S ltac:(ctl_imm).
  Qed.
  Lemma remove_perm r l : NoDup (map q_id l) -> In r l -> Permutation l (r :: remove_first (q_id r) l).
  Proof.
    intros N H. apply in_split in H. destruct H as (a & b & ->). rewrite map_app in N. cbn in N.
    rewrite (remove_first_in a r b). - symmetry. apply Permutation_middle.
    - intros H. apply NoDup_remove_2 in N. apply N. apply in_or_app. now left.
  Qed.
  Lemma release_perm m fuel : forall j p q p' q', NoDup (map q_id p) -> release_ready P fuel j m p q = (p', q') -> Permutation (p ++ q) (p' ++ q') /\ exists l, q' = q ++ l.
  Proof.
    induction fuel as [|f IH]; intros j p q p' q' N E; cbn in E; [injection E as <- <-; split; [reflexivity|exists []; now rewrite app_nil_r]|].
    destruct (nth_error p j) as [r|] eqn:EN; [|injection E as <- <-; split; [reflexivity|exists []; now rewrite app_nil_r]]. destruct (m_ready P m r).
    - pose proof (remove_perm r p N (nth_error_In _ _ EN)) as PM. apply IH in E.
      + destruct E as [E [l ->]]. split; [|exists (r :: l); now rewrite <- app_assoc]. eapply perm_trans; [|exact E]. eapply perm_trans; [apply Permutation_app_tail; exact PM|]. cbn.
        rewrite app_assoc. eapply perm_trans; [apply Permutation_cons_append|]. reflexivity.
      + apply (Permutation_map q_id) in PM. apply (Permutation_NoDup PM) in N. now inversion N.
    - eapply IH; eauto.
  Qed.

  Definition same_waits (d d' : dctl) : Prop := c_running d' = c_running d /\ c_handler d' = c_handler d /\ c_starting d' = c_starting d.
  Lemma thread_end_spec now i d : ctl_inv d -> ctl_waits now (VThreadTime i) d ->
    match thread_end P c now i d with
    | DGo d' new => ctl_inv d' /\ same_waits d d' /\ (exists r s, c_bus d = BTiming r s) /\ c_bus d' = BFree /\
        exists r data l, Permutation (requests d) (r :: requests d') /\ c_values d' = c_values d ++ [(q_id r, data)] /\
          new = l ++ [soon (VDone i (q_core r) (q_id r)); soon (VRelease i)] /\ Forall (fun z => z = soon (VReqPut i)) l
    | DRaise _ => True
    | DStuck => False
    end.
  Proof.
    intros KI E. destruct KI as [N NX V A S].
    assert (B : exists r s, c_bus d = BTiming r s /\ s + y_lat c * q_batches r <= now) by (cbn in E; destruct (c_bus d) as [|r|r s]; try contradiction; eauto).
    clear E. destruct B as (r & s & EB & L). unfold thread_end. rewrite EB. destruct (now <? s + y_lat c * q_batches r) eqn:L'; [lia|].
    assert (G : forall m it pe data, Permutation (c_items d ++ c_pending d) (it ++ pe) ->
      let d' := MkCtl m (c_running d) it (c_handler d) pe (c_starting d) BFree (c_waiting d) (finish_stats (y_lat c) now r (c_stat d)) (c_start d) (c_next d) (c_values d ++ [(q_id r, data)]) in
      ctl_inv d' /\ Permutation (requests d) (r :: requests d')).
    { intros m it pe data PM d'.
      assert (PR : Permutation (requests d) (r :: requests d')).
      { unfold requests, d'. cbn. rewrite EB. cbn.
        set (h := match c_handler d with HGot r0 => [r0] | _ => [] end).
        eapply perm_trans. { apply Permutation_app_head. rewrite app_assoc. apply Permutation_app_tail. exact PM. }
        rewrite !app_assoc. symmetry. apply Permutation_middle. }
      split; [|exact PR]. pose proof (Permutation_map q_id PR) as PQ. cbn in PQ. apply (Permutation_NoDup PQ) in N. inversion N as [|? ? N1 N2]; subst.
      assert (IR : In r (requests d)) by (apply (Permutation_in _ (Permutation_sym PR)); now left).
      constructor; auto.
      - intros r' H'. assert (I' : In r' (requests d)) by (apply (Permutation_in _ (Permutation_sym PR)); now right).
        destruct (NX r' I') as [X1 X2]. split; [exact X1|]. unfold d'. cbn [c_values]. rewrite map_app, in_app_iff. intros [H|[H|[]]]; [auto|]. apply N1. cbn in H. rewrite H. now apply in_map.
      - unfold d'. cbn. apply Forall_app. split; [exact V|]. constructor; [|constructor]. cbn. apply (NX r IR). }
    destruct (q_kind r) as [w v|rows].
    - destruct (m_read P (c_mem d) r) as [[data|e] m]; [|exact I]. cbn. destruct (G m (c_items d) (c_pending d) data (Permutation_refl _)) as [G1 G2].
      split; [exact G1|]. split; [split; auto|]. split; [eauto|]. split; [reflexivity|]. exists r, data, []. split; [exact G2|]. split; [reflexivity|]. split; [reflexivity|constructor].
    - destruct (m_write P (c_mem d) r rows) as [[u|e] m]; [|exact I]. destruct (release_ready P (length (c_pending d)) 0 m (c_pending d) []) as [pe new] eqn:ER.
      assert (NP : NoDup (map q_id (c_pending d))).
      { unfold requests in N. rewrite !map_app in N. apply NoDup_app_r, NoDup_app_r, NoDup_app_l in N. exact N. }
      destruct (release_perm _ _ _ _ _ _ _ NP ER) as [PM _]. rewrite app_nil_r in PM.
      destruct (G m (c_items d ++ new) pe [] ) as [G1 G2]. { rewrite <- app_assoc. apply Permutation_app_head. eapply perm_trans; [exact PM|]. apply Permutation_app_comm. }
      cbn. split; [exact G1|]. split; [split; auto|]. split; [eauto|]. split; [reflexivity|]. exists r, [], (map (fun _ => soon (VReqPut i)) new). split; [exact G2|]. split; [reflexivity|]. split; [reflexivity|].
      apply Forall_forall. intros z H. apply in_map_iff in H. now destruct H as (? & <- & _).
  Qed.
  Lemma submit_spec now i k a kd d : ctl_inv d ->
    match submit now i k a kd d with
    | DGo (r, d') new => ctl_inv d' /\ same_waits d d' /\ c_bus d' = c_bus d /\ q_id r = c_next d /\ q_core r = k /\ c_values d' = c_values d /\
        Permutation (requests d') (r :: requests d) /\ new = [soon (VReqPut i)]
    | DRaise _ => True
    | DStuck => False
    end.
  Proof.
    intros [N NX V A S]. unfold submit. destruct (c_running d) eqn:ER; cbn; [|exact I].
    set (r := MkReq (c_next d) k a now kd). match goal with |- ctl_inv ?x /\ _ => set (d' := x) end.
    assert (PR : Permutation (requests d') (r :: requests d)).
    { unfold requests, d'. cbn. rewrite <- app_assoc. cbn. rewrite app_assoc. symmetry. rewrite !(app_assoc _ (c_items d)). apply Permutation_middle. }
    split; [constructor|].
    - apply (Permutation_NoDup (Permutation_sym (Permutation_map q_id PR))). cbn. constructor; [|exact N]. intros H. apply in_map_iff in H. destruct H as (r' & E & H). apply NX in H. cbn in *. lia.
    - intros r' H. apply (Permutation_in _ PR) in H. unfold d'. cbn. destruct H as [<- |H].
      + cbn. split; [lia|]. intros H. apply in_map_iff in H. destruct H as (v & E & H). rewrite Forall_forall in V. apply V in H. lia.
      + apply NX in H. split; [lia|apply H].
    - unfold d'. cbn. eapply Forall_impl; [|exact V]. cbn. intros. lia.
    - exact A.
    - exact S.
    - unfold same_waits, d'. cbn. auto 10.
  Qed.
End Ctl.

Section Rt.
  Variable c : sys_cfg.

  Definition rt_ev (i : Z) (e : ev) : Prop :=
    match e with
    | VSender i' | VSendPut i' | VSendGot i' | VTravel i' | VOffer i' | VTaken i' | VArrived i' | VSenderInt i' => i' = i
    | _ => False
    end.
  Definition rt_waits (t : Z) (e : ev) (u : drt) : Prop :=
    match e with
    | VSender _ => u_sender u = ZNew /\ u_running u = true
    | VSendPut _ => True
    | VSendGot _ => match u_sender u with ZGot _ since => since <= t | ZDead _ => True | _ => False end
    | VTravel _ => match u_sender u with ZTravel p since _ => since + fst (get_latency (y_net c) (pk_src p) (pk_dst p)) <= t | _ => False end
    | VOffer _ => match u_sender u with ZOffering _ _ => True | _ => False end
    | VTaken _ => match u_sender u with ZPut _ _ => True | _ => False end
    | VArrived _ => match u_sender u with ZArrived _ _ => True | _ => False end
    | VSenderInt _ => u_running u = false /\ u_sender u = ZWaiting
    | _ => False
    end.
  (** The packet between lines 168 and 183 of router.py. *)
  Definition under_way (u : drt) : option packet :=
    match u_sender u with ZTravel p _ _ | ZOffering p _ | ZPutting p _ | ZPut p _ | ZArrived p _ => Some p | _ => None end.
  Record rt_inv (u : drt) : Prop := {
    ri_event : match under_way u with
               | Some p => known_router (y_net c) (pk_dst p) = true /\ exists n, u_event u = Some (n, Pending)
               | None => forall n, u_event u <> Some (n, Pending)
               end;
    ri_alive : u_running u = true -> match u_sender u with ZDead _ => False | _ => True end;
    ri_live : match u_sender u with ZNew | ZWaiting | ZDead _ => True | _ => u_running u = true end }.
  (** stop_after_all_packets_sent may wait for sending_event number [m]. *)
  Definition sent_ok (m : Z) (u : drt) : Prop := u_event u = Some (m, Pending) \/ u_event u = Some (m, Triggered) /\ u_sender u = ZWaiting.
  Record rt_moves (now i : Z) (fired : list ev) (u u' : drt) (new : sched) : Prop := {
    rm_inv : rt_inv u';
    rm_running : u_running u' = u_running u;
    rm_queue : u_queue u = [] -> u_queue u' = [];
    rm_keep : forall t e, rt_ev i e -> immediate e = false -> rt_waits t e u -> In (key e) fired \/ rt_waits t e u';
    rm_new : Forall (fun z => rt_ev i (snd z) /\ rt_waits (now + fst (fst z)) (snd z) u' /\ snd (fst z) = prio_of (snd z) /\
                              (tracked (snd z) = true -> In (key (snd z)) fired \/ forall t, ~ rt_waits t (snd z) u)) new;
    rm_nodup : NoDup (keys new);
    rm_imm : forall t e, rt_ev i e -> immediate e = true -> rt_waits t e u' -> rt_waits t e u /\ ~ In e fired;
    rm_fresh : u_sender u' = ZNew -> u_sender u = ZNew /\ ~ In (VSender i) fired;
    rm_got : forall p s, u_sender u' = ZGot p s -> u_sender u = ZGot p s /\ ~ In (VSendGot i) fired \/ In (soon (VSendGot i)) new /\ u_queue u <> [];
    rm_sent : forall m, u_running u = true -> u_queue u = [] -> sent_ok m u -> sent_ok m u' }.

  Ltac openr u := destruct u as [ru q z bf ev0 stt]; cbn in *.
  Ltac r_keep := let t := fresh "t" in let e := fresh "e" in let HE := fresh "HE" in let HW := fresh "HW" in
    intros t e HE HI HW; destruct e; try contradiction HE; try discriminate HI; cbn in HE; subst; cbn in *;
      first [contradiction | discriminate | left; now left | right; auto; fail | right; intuition (auto; congruence) ].
  Ltac r_new := repeat (apply Forall_cons || apply Forall_nil); cbn; repeat split; auto; try congruence; try (intros _; first [left; now left | right; intros t H; cbn in H; intuition congruence]); try lia.
  Ltac nodup_tac := cbv [keys tracked key map filter snd start soon later]; repeat constructor; cbn; intuition congruence.
  Ltac r_imm := let t := fresh "t" in let e := fresh "e" in
    intros t e HE HI HW; destruct e; try contradiction HE; try discriminate HI; cbn in HE; subst; cbn in *;
      first [contradiction | intuition discriminate | split; [intuition (auto; congruence)|intuition discriminate] ].
  Ltac r_fresh := let E := fresh in intros E; cbn in E; first [discriminate E | split; [now auto|cbn; intuition discriminate] | split; now auto].
  Ltac r_got := let E := fresh in intros ? ? E; cbn in E; first [discriminate E | right; cbn; intuition congruence | left; split; [now auto|cbn; intuition discriminate]].
  Ltac r_sent := let m := fresh in let HR := fresh in let HQ := fresh in let HS := fresh in intros m HR HQ HS; unfold sent_ok in *; cbn in *; first [congruence | destruct HS as [HS|[HS ?]]; first [congruence | left; congruence | right; split; congruence]].
  Ltac rt_go inv := constructor; [inv|reflexivity|cbn; try congruence; auto|r_keep|r_new|nodup_tac|r_imm|r_fresh|r_got|r_sent].
  Definition rt_good (now i : Z) (fired : list ev) (u : drt) (r : dres drt) : Prop :=
    match r with DGo u' new => rt_moves now i fired u u' new | DRaise _ => True | DStuck => False end.

  Lemma rt_moves_plain now i fired u : rt_inv u -> Forall (fun f => tracked f = false) fired -> rt_moves now i fired u u [].
  Proof.
    intros KI HF. assert (NI : forall e, tracked e = true -> ~ In e fired) by (intros e HT HI; rewrite Forall_forall in HF; specialize (HF _ HI); congruence).
    constructor; auto; try (now constructor).
    - intros t e HE HI HW. split; auto. apply NI. destruct e; discriminate HI || reflexivity.
  Qed.
  Lemma send_get_moves now i fired u : rt_inv u -> (u_running u = false -> u_sender u <> ZWaiting) -> Forall (fun f => tracked f = false) fired -> rt_moves now i fired u (fst (send_get now i u)) (snd (send_get now i u)).
  Proof.
    intros KI HR HF. pose proof (rt_moves_plain now i fired u KI HF) as R0. assert (NI : forall e, tracked e = true -> ~ In e fired) by (intros e HT HI; rewrite Forall_forall in HF; specialize (HF _ HI); congruence).
    destruct KI as [RE RA RL]. openr u. unfold send_get. cbn. destruct z as [| | | | | | | |da]; try exact R0.
    - destruct q as [|p q]; [exact R0|]. destruct ru; [|contradiction (HR eq_refl); reflexivity]. cbn. clear R0. rt_go ltac:(constructor; cbn in *; auto).
    - destruct da; [|exact R0]. destruct q as [|p q]; [exact R0|]. cbn. clear R0. rt_go ltac:(constructor; cbn in *; auto).
  Qed.
  Lemma sender_start_good now i u : rt_inv u -> rt_waits now (VSender i) u -> rt_good now i [VSender i] u (sender_start now i u).
  Proof.
    intros [RE RA RL] [E1 E2]. openr u. subst z ru. unfold sender_start, send_get, go. cbn. destruct q as [|p q]; cbn; rt_go ltac:(constructor; cbn in *; auto).
  Qed.
  Lemma on_send_good now i u : rt_inv u -> rt_waits now (VSendGot i) u -> rt_good now i [VSendGot i] u (on_send c i u).
  Proof.
    intros [RE RA RL] E. openr u. unfold on_send. cbn. destruct z as [| |p s| | | | | |da]; try contradiction.
    - destruct (get_latency (y_net c) (pk_src p) (pk_dst p)) as [lat inter] eqn:EL. destruct (known_router (y_net c) (pk_dst p)) eqn:EK; cbn; [|exact I]. unfold timeout. destruct (lat <? 0) eqn:L; [exact I|].
      unfold rt_event, rt_sender. cbn. constructor.
      + constructor; cbn; auto. split; eauto.
      + reflexivity.
      + auto.
      + r_keep.
      + r_new. rewrite EL. cbn. lia.
      + nodup_tac.
      + r_imm.
      + r_fresh.
      + r_got.
      + intros m HR HQ [HS|[_ HS]]; cbn in *; [apply RE in HS; contradiction|discriminate].
    - assert (H : ru = false) by (destruct ru; auto; contradiction (RA eq_refl)). subst ru.
      constructor; [constructor; auto|reflexivity|auto|auto|constructor|constructor|..].
      + intros t e HE HI HW. destruct e; try contradiction HE; try discriminate HI. cbn in *. intuition discriminate.
      + discriminate.
      + discriminate.
      + auto.
  Qed.
  Lemma on_travel_good now i u : rt_inv u -> rt_waits now (VTravel i) u -> rt_good now i [VTravel i] u (on_travel c now i u).
  Proof.
    intros [RE RA RL] E. openr u. unfold on_travel. cbn. destruct z as [| | |p s b| | | | |]; try contradiction. destruct (now <? _) eqn:L; [lia|].
    rt_go ltac:(constructor; cbn in *; auto).
  Qed.
  Lemma on_arrived_good now i u : rt_inv u -> rt_waits now (VArrived i) u ->
    match on_arrived now i u with
    | DGo u' new => exists n l, new = soon (VSent i n) :: l /\ rt_moves now i [VArrived i] u u' l
    | DRaise _ => True
    | DStuck => False
    end.
  Proof.
    intros [RE RA RL] E. openr u. unfold on_arrived. cbn. destruct z as [| | | | | | |p b|]; try contradiction. destruct RE as [RK [n RE]]. cbn in RE, RL. subst ev0 ru. unfold send_get. cbn.
    destruct q as [|p' q]; cbn; eexists _, _; (split; [reflexivity|]); rt_go ltac:(constructor; cbn in *; auto; intros; congruence).
  Qed.
  Lemma sender_int_good now i u : rt_inv u -> rt_waits now (VSenderInt i) u -> rt_good now i [VSenderInt i] u (sender_int u).
  Proof. intros [RE RA RL] [E1 E2]. openr u. subst ru z. unfold sender_int. cbn. rt_go ltac:(constructor; cbn in *; auto; discriminate). Qed.

  (** The steps of a packet that involve another tile. *)
  Lemma offer_moves now i u p b : rt_inv u -> u_sender u = ZOffering p b -> rt_moves now i [VOffer i] u (rt_sender u (ZPutting p b)) [].
  Proof. intros [RE RA RL] E. openr u. subst z. rt_go ltac:(constructor; cbn in *; auto). Qed.
  Lemma put_moves now i u p b : rt_inv u -> u_sender u = ZPutting p b -> rt_moves now i [] u (rt_sender u (ZPut p b)) [soon (VTaken i)].
  Proof. intros [RE RA RL] E. openr u. subst z. rt_go ltac:(constructor; cbn in *; auto). Qed.
  Lemma taken_moves now i u p b : rt_inv u -> u_sender u = ZPut p b -> rt_moves now i [VTaken i] u (rt_sender u (ZArrived p b)) [soon (VArrived i)].
  Proof. intros [RE RA RL] E. openr u. subst z. rt_go ltac:(constructor; cbn in *; auto). Qed.
  (** Buffers and statistics do not matter. *)
  Definition rt_alike (u u' : drt) : Prop := u_running u' = u_running u /\ u_queue u' = u_queue u /\ u_sender u' = u_sender u /\ u_event u' = u_event u.
  Lemma alike_moves now i fired u u' : rt_inv u -> rt_alike u u' -> (forall e, rt_ev i e -> ~ In e fired) -> rt_moves now i fired u u' [].
  Proof.
    intros [RE RA RL] (E1 & E2 & E3 & E4) HF. destruct u' as [ru' q' z' bf' ev' st']. openr u. subst. constructor; [constructor; auto|reflexivity|auto|auto|constructor|constructor|..].
    - intros t e HE HI HW. split; auto.
    - intros E. split; auto. apply HF. reflexivity.
    - intros p s E. left. split; auto. apply HF. reflexivity.
    - auto.
  Qed.
End Rt.
