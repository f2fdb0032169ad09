(** The events that the node needs: between tiles, and all kinds of events (continues DesNeedOwn). *)
From Coq Require Import Permutation.
From Verif Require Import PyBase PyLemmas CoreModel DramModel DramProofs RouterModel SystemModel StatsProofs DesModel DesQueue DesWait DesWaitCtl DesWaitTile DesWaitStop DesWaitNode DesWaitQueue DesNeed DesNeedCtl DesNeedTile DesNeedOwn.

Section Node.
  Context {K M : Type}.
  Variable P : machine K M.
  Variable c : sys_cfg.
  Notation dcore := (dcore K). Notation dctl := (dctl M). Notation dtile := (dtile K M). Notation dnode := (dnode K M).
  Notation node_inv := (@node_inv K M c). Notation tile_inv := (@tile_inv K M c).

  Definition node_needs (e : ev) (n : dnode) : Prop :=
    match ev_tile e with
    | Some i => exists T, the_tile n i = Some T /\ tile_needs e T
    | None => match e with
              | VAllTiles => z_fin n = FRunning /\ forallb x_ended (z_tiles n) = true
              | VNodeEnd => z_fin n = FNode
              | VRunEnd => z_fin n = FCond
              | _ => False
              end
    end.
  Record node_fit (n : dnode) : Prop := {
    nf_tiles : Forall tile_fit (z_tiles n);
    nf_source : forall d D s got, the_tile n d = Some D -> x_phase D = TReading s got -> 0 <= s;
    nf_put : forall s S p b D, the_tile n s = Some S -> u_sender (x_rt S) = ZPutting p b -> the_tile n (pk_dst p) = Some D -> buffer_of (x_rt D) s = [] ->
      exists got d, x_phase D = TPopped s got d;
    nf_get : forall d D s got, the_tile n d = Some D -> x_phase D = TReading s got -> buffer_of (x_rt D) s <> [] ->
      exists S p b, the_tile n s = Some S /\ u_sender (x_rt S) = ZPut p b /\ pk_dst p = d }.
  Record node_step_to (fired : ev) (n n' : dnode) (new : sched) : Prop := {
    ns_fit : node_fit n';
    ns_kept : kept (fun _ => True) (fun e => node_needs e n) (fun e => node_needs e n') fired new }.
  Definition node_kept (fired : ev) (n : dnode) (r : dres dnode) : Prop := match r with DGo n' new => node_step_to fired n n' new | _ => True end.

  Lemma fit_at (n : dnode) i T : node_fit n -> the_tile n i = Some T -> tile_fit T.
  Proof. intros [H _ _ _] E. rewrite Forall_forall in H. eapply H, tile_in; eauto. Qed.
  Lemma new_buffers (T : dtile) s : tile_inv T -> is_new T = true -> buffer_of (x_rt T) s = [].
  Proof. intros IT N. pose proof (ti_phase _ _ IT) as PI. unfold is_new, phase_inv in *. destruct (x_phase T); try discriminate. destruct PI as (m & cs & p & ->). unfold buffer_of. cbn. now destruct (Z.to_nat s). Qed.
  Lemma ended_same (n : dnode) i T T' : the_tile n i = Some T -> x_ended T' = x_ended T -> forallb x_ended (z_tiles (put_tile n i T')) = forallb x_ended (z_tiles n).
  Proof.
    intros HT E. unfold the_tile in HT. destruct (i <? 0); [discriminate|]. cbn. revert HT. generalize (Z.to_nat i) as k. induction (z_tiles n) as [|a l IH]; intros [|k] H; try discriminate; cbn in *.
    - injection H as ->. now rewrite E.
    - now rewrite (IH k H).
  Qed.
  (** A tile changes. *)
  Lemma put_net (n : dnode) i T T' : node_inv n -> node_fit n -> the_tile n i = Some T -> tile_fit T' -> aside T T' -> node_fit (put_tile n i T').
  Proof.
    intros NI NF HT TF [A1 A2 A3]. pose proof (fun j => tile_put n i T T' j HT) as TP. pose proof (tile_is c n i T NI HT) as IT.
    assert (SEND : forall s S, the_tile (put_tile n i T') s = Some S -> midput (u_sender (x_rt S)) = true -> exists S0, the_tile n s = Some S0 /\ u_sender (x_rt S0) = u_sender (x_rt S)).
    { intros s S HS HM. rewrite TP in HS. destruct (Z.eqb_spec s i) as [-> |]; [|eauto]. injection HS as <-. destruct A2 as [E|[_ E]]; [eauto|congruence]. }
    assert (READ : forall s S, the_tile (put_tile n i T') s = Some S -> midread (x_phase S) = true -> exists S0, the_tile n s = Some S0 /\ x_phase S0 = x_phase S /\ u_buffers (x_rt S0) = u_buffers (x_rt S)).
    { intros s S HS HM. rewrite TP in HS. destruct (Z.eqb_spec s i) as [-> |]; [|eauto]. injection HS as <-. destruct A3 as [E|[_ E]]; [|congruence]. exists T. split; auto. split; auto. destruct A1 as [E1|E1]; auto. rewrite E in HM. unfold is_new in E1. destruct (x_phase T); try discriminate E1; discriminate HM. }
    constructor.
    - cbn. apply Forall_upd; [apply NF|exact TF].
    - intros d D s got HD EP. destruct (READ d D HD) as (D0 & HD0 & E & _); [now rewrite EP|]. eapply (nf_source _ NF); eauto. now rewrite E, EP.
    - intros s S p b D HS ES HD EB. destruct (SEND s S HS) as (S0 & HS0 & ES0); [now rewrite ES|]. rewrite ES in ES0. rewrite TP in HD. destruct (Z.eqb_spec (pk_dst p) i) as [ED|ED].
      + injection HD as <-. rewrite <- ED in HT. assert (EB' : buffer_of (x_rt T) s = []). { destruct A1 as [E|E]; [unfold buffer_of in *; now rewrite E in EB|now apply new_buffers]. }
        destruct (nf_put _ NF s S0 p b T HS0 ES0 HT EB') as (got & d & EP). exists got, d. destruct A3 as [E|[E _]]; [congruence|rewrite EP in E; discriminate].
      + eapply (nf_put _ NF); eauto.
    - intros d D s got HD EP EB. destruct (READ d D HD) as (D0 & HD0 & E & E'); [now rewrite EP|]. destruct (nf_get _ NF d D0 s got HD0) as (S & p & b & HS & ES & ED); [now rewrite E, EP|unfold buffer_of in *; now rewrite E'|].
      destruct (Z.eq_dec s i) as [-> |NE].
      + exists T', p, b. rewrite TP, Z.eqb_refl. split; auto. split; auto. assert (S = T) as -> by congruence. destruct A2 as [E2|[E2 _]]; [congruence|rewrite ES in E2; discriminate].
      + exists S, p, b. rewrite TP. destruct (Z.eqb_spec s i); [contradiction|]. auto.
  Qed.
  Lemma lift_step fired (n : dnode) i T T' new : node_inv n -> node_fit n -> the_tile n i = Some T -> tile_step i fired T T' new -> ev_tile fired = Some i -> node_step_to fired n (put_tile n i T') new.
  Proof.
    intros NI NF HT [S1 S2 S3 S4 S5] HF. pose proof (fun j => tile_put n i T T' j HT) as TP. constructor; [now apply (put_net n i T T')|].
    intros e _ HW. unfold node_needs in *. destruct (ev_tile e) as [j|] eqn:EJ.
    - destruct HW as (U & HU & HW). rewrite TP in HU. destruct (Z.eqb_spec j i) as [-> |NE].
      + injection HU as <-. destruct (S2 e EJ HW) as [H|[H1 H2]]; [auto|]. right. eauto.
      + right. split; [eauto|]. intros E. apply NE. rewrite <- (key_tile e), E, key_tile in EJ. congruence.
    - right. split; [|intros E; rewrite <- (key_tile e), E, key_tile in EJ; congruence]. rewrite (ended_same n i T T' HT S5) in HW. exact HW.
  Qed.
  Lemma on_tile_kept fired (n : dnode) i f : node_inv n -> node_fit n -> ev_tile fired = Some i -> (forall T, tile_inv T -> tile_fit T -> is_new T = false -> tile_kept i fired T (f T)) -> node_kept fired n (on_tile n i f).
  Proof.
    intros NI NF HF H. unfold on_tile. destruct (the_tile n i) as [T|] eqn:ET; [|exact I]. destruct (is_new T) eqn:EN; [exact I|]. specialize (H T (tile_is c n i T NI ET) (fit_at n i T NF ET) EN). destruct (f T) as [T' new| |]; try exact I. cbn in *. eapply lift_step; eauto.
  Qed.
  Lemma on_core_kept fired (n : dnode) i k f : node_inv n -> node_fit n -> ev_tile fired = Some i -> part_of fired = PCore k -> fired <> VCoreEnd i k -> (forall x, core_inv x -> core_fit x -> core_kept i k fired x (f x)) -> node_kept fired n (on_core n i k f).
  Proof. intros NI NF HF HP HC H. apply on_tile_kept; auto. intros T IT TF N. apply (core_case c i k T f fired); auto. Qed.
  Lemma on_core2_kept fired (n : dnode) i k f : node_inv n -> node_fit n -> ev_tile fired = Some i -> (forall T x, tile_inv T -> tile_fit T -> is_new T = false -> 0 <= k -> nth_error (x_cores T) (Z.to_nat k) = Some x ->
      tile_kept i fired T (dmap (fun dx => dt_core (dt_ctl T (fst dx)) k (snd dx)) (f (x_ctl T) x))) -> node_kept fired n (on_core2 n i k f).
  Proof. intros NI NF HF H. apply on_tile_kept; auto. intros T IT TF N. destruct (Z.ltb_spec k 0); [exact I|]. destruct (nth_error (x_cores T) (Z.to_nat k)) as [x|] eqn:E; [|exact I]. auto. Qed.
  Lemma on_ctl_kept fired (n : dnode) i f : node_inv n -> node_fit n -> ev_tile fired = Some i -> part_of fired = PCtl -> (forall d, ctl_inv d -> ctl_kept i fired d (f d)) ->
    (forall d, match f d with DGo d' _ => c_next d' = c_next d /\ c_values d' = c_values d | _ => True end) -> node_kept fired n (on_ctl n i f).
  Proof. intros NI NF HF HP H HV. apply on_tile_kept; auto. intros T IT TF N. apply (lift_ctl_kept c); auto. - apply H. apply IT. - apply HV. Qed.

  (** *** Receive buffers *)
  Record like (T T' : dtile) : Prop := {
    lk_cores : x_cores T' = x_cores T; lk_ctl : x_ctl T' = x_ctl T; lk_ended : x_ended T' = x_ended T;
    lk_running : u_running (x_rt T') = u_running (x_rt T); lk_queue : u_queue (x_rt T') = u_queue (x_rt T); lk_event : u_event (x_rt T') = u_event (x_rt T) }.
  Definition now_is {A} (f : option A) (a : A) : A := match f with Some x => x | None => a end.
  Record altered (fs : option sstate) (fp : option dphase) (fb : Z -> Prop) (T T' : dtile) : Prop := {
    al_like : like T T';
    al_sender : u_sender (x_rt T') = now_is fs (u_sender (x_rt T));
    al_phase : x_phase T' = now_is fp (x_phase T);
    al_buffer : forall s, 0 <= s -> ~ fb s -> buffer_of (x_rt T') s = buffer_of (x_rt T) s }.
  Definition related (R : Z -> dtile -> dtile -> Prop) (n n' : dnode) : Prop :=
    z_fin n' = z_fin n /\ forallb x_ended (z_tiles n') = forallb x_ended (z_tiles n) /\ Forall tile_fit (z_tiles n') /\
    forall j, match the_tile n j, the_tile n' j with Some T, Some T' => R j T T' | None, None => True | _, _ => False end.
  Definition alter (fs : Z -> option sstate) (fp : Z -> option dphase) (fb : Z -> Z -> Prop) : dnode -> dnode -> Prop := related (fun j => altered (fs j) (fp j) (fb j)).
  Definition only {A} (i : Z) (a : A) (j : Z) : option A := if j =? i then Some a else None.
  Definition none {A} (j : Z) : option A := None.
  Definition nowhere (j s : Z) : Prop := False.
  Definition over {A} (f g : Z -> option A) (j : Z) : option A := match g j with Some x => Some x | None => f j end.
  Lemma altered_refl (T : dtile) : altered None None (fun _ => False) T T.
  Proof. constructor; auto. constructor; auto. Qed.
  Lemma altered_trans fs fp (fb : Z -> Prop) gs gp (gb : Z -> Prop) (T T1 T2 : dtile) : altered fs fp fb T T1 -> altered gs gp gb T1 T2 ->
    altered (match gs with Some x => Some x | None => fs end) (match gp with Some x => Some x | None => fp end) (fun s => fb s \/ gb s) T T2.
  Proof.
    intros [[A1 A2 A3 A4 A5 A6] A7 A8 A9] [[B1 B2 B3 B4 B5 B6] B7 B8 B9]. constructor; [constructor; congruence|..].
    - rewrite B7, A7. now destruct gs, fs.
    - rewrite B8, A8. now destruct gp, fp.
    - intros s H1 H2. rewrite B9, A9; auto.
  Qed.
  Lemma alter_refl n : Forall tile_fit (z_tiles n) -> alter none none nowhere n n.
  Proof. intros H. repeat split; auto. intros j. destruct (the_tile n j); auto. apply altered_refl. Qed.
  Lemma alter_trans fs fp fb gs gp gb n n1 n2 : alter fs fp fb n n1 -> alter gs gp gb n1 n2 -> alter (over fs gs) (over fp gp) (fun j s => fb j s \/ gb j s) n n2.
  Proof.
    intros (A1 & A2 & A3 & A4) (B1 & B2 & B3 & B4). repeat split; auto; try congruence. intros j. specialize (A4 j). specialize (B4 j). destruct (the_tile n j), (the_tile n1 j), (the_tile n2 j); try contradiction; auto. eapply altered_trans; eauto.
  Qed.
  Lemma alter_put (n : dnode) i T T' fs fp fb : Forall tile_fit (z_tiles n) -> the_tile n i = Some T -> altered fs fp fb T T' -> tile_fit T' ->
    alter (fun j => if j =? i then fs else None) (fun j => if j =? i then fp else None) (fun j s => j = i /\ fb s) n (put_tile n i T').
  Proof.
    intros NF HT HA TF. repeat split; auto.
    - apply (ended_same n i T T' HT). apply HA.
    - cbn. now apply Forall_upd.
    - intros j. rewrite (tile_put n i T T' j HT). destruct (Z.eqb_spec j i) as [-> |NE].
      + rewrite HT. destruct HA as [H1 H2 H3 H4]. constructor; auto.
      + destruct (the_tile n j); auto. destruct (altered_refl d) as [H1 H2 H3 H4]. constructor; auto.
  Qed.
  Lemma buffer_other (u : drt) src items s : 0 <= s -> 0 <= src -> s <> src -> buffer_of (rt_buffer u src items) s = buffer_of u s.
  Proof.
    intros H1 H2 H3. unfold buffer_of. cbn. assert (NE : Z.to_nat src <> Z.to_nat s) by lia.
    assert (G : forall (l : list (list (list Z))) a b, a <> b -> nth b (upd l a items) [] = nth b l []) by (induction l as [|x l IH]; intros [|a] [|b] H; cbn; auto; try congruence). now apply G.
  Qed.
  Lemma like_fit (T T' : dtile) : tile_fit T -> like T T' -> (x_phase T' = x_phase T \/ (forall id, ~ asked T' (-1) id) /\ x_phase T' <> THaltWait) -> tile_fit T'.
  Proof.
    intros [F1 F2 F3 F4] [E1 E2 E3 _ _ _] HP.
    assert (AK : forall k id, asked T' k id -> asked T k id). { intros k id H. destruct HP as [HP|[HP _]]; [unfold asked in *; now rewrite E1, HP in H|]. destruct (Z.eq_dec k (-1)) as [-> |NE]; [destruct (HP _ H)|]. unfold asked in *. destruct (Z.eqb_spec k (-1)); [contradiction|]. now rewrite E1 in H. }
    constructor; rewrite ?E1, ?E2; eauto. intros H. destruct HP as [HP|[_ HP]]; [|contradiction]. apply F4. congruence.
  Qed.

  Definition starved (n : dnode) (src dst : Z) : Prop := forall S p b D, the_tile n src = Some S -> u_sender (x_rt S) = ZPutting p b -> pk_dst p = dst -> the_tile n dst = Some D -> buffer_of (x_rt D) src <> [].
  Lemma recv_put_is src dst (n n' : dnode) l : Forall tile_fit (z_tiles n) -> recv_put src dst n = DGo n' l ->
    n' = n /\ l = [] /\ starved n src dst \/
    (exists S p b, the_tile n src = Some S /\ u_sender (x_rt S) = ZPutting p b /\ pk_dst p = dst /\ l = [soon (VTaken src)] /\
       alter (only src (ZPut p b)) none (fun j s => j = dst /\ s = src) n n').
  Proof.
    intros NF. unfold recv_put. destruct (the_tile n src) as [S|] eqn:ES; [|intros H; injection H as <- <-; left; split; auto; split; auto; intros ? ? ? ? ?; congruence].
    destruct (u_sender (x_rt S)) eqn:EZ; try (intros H; injection H as <- <-; left; split; auto; split; auto; intros ? ? ? ? ? ? ? ?; congruence).
    destruct (Z.eqb_spec (pk_dst p) dst) as [ED|ED]; cbn [negb]; [|intros H; injection H as <- <-; left; split; auto; split; auto; intros ? ? ? ? ? ? ? ?; congruence].
    set (S1 := dt_rt S (rt_sender (x_rt S) (ZPut p inter))). assert (FS : tile_fit S) by (rewrite Forall_forall in NF; eapply NF, tile_in; eauto).
    assert (A1 : alter (only src (ZPut p inter)) none nowhere n (put_tile n src S1)).
    { assert (AL : altered (Some (ZPut p inter)) None (fun _ => False) S S1) by (repeat constructor). assert (FS1 : tile_fit S1) by (apply (like_fit S); auto; apply AL).
      pose proof (alter_put n src S S1 _ _ _ NF ES AL FS1) as (B1 & B2 & B3 & B4). repeat split; auto. intros j. specialize (B4 j). destruct (the_tile n j), (the_tile (put_tile n src S1) j); auto. destruct B4 as [C1 C2 C3 C4]. constructor; auto.
      - unfold none. rewrite C3. now destruct (j =? src).
      - intros s H1 _. apply C4; tauto. }
    cbn zeta. set (n1 := put_tile n src S1) in *. destruct (the_tile n1 dst) as [D|] eqn:HD; [|discriminate]. destruct (buffer_of (x_rt D) src) eqn:EB.
    - destruct (is_new D); [discriminate|]. intros H. injection H as <- <-. right. exists S, p, inter. repeat (split; [auto; fail|]).
      assert (NF1 : Forall tile_fit (z_tiles n1)) by apply A1. assert (FD : tile_fit D) by (rewrite Forall_forall in NF1; eapply NF1, tile_in; eauto).
      assert (SR : 0 <= src) by (unfold the_tile in ES; destruct (Z.ltb_spec src 0); [discriminate|lia]).
      assert (AL : altered None None (fun s => s = src) D (dt_rt D (rt_buffer (x_rt D) src [pk_data p]))). { constructor; auto; [repeat constructor|]. intros s H1 H2. apply buffer_other; auto. }
      assert (FD1 : tile_fit (dt_rt D (rt_buffer (x_rt D) src [pk_data p]))) by (apply (like_fit D); auto; apply AL).
      pose proof (alter_put n1 dst D _ _ _ _ NF1 HD AL FD1) as A2. pose proof (alter_trans _ _ _ _ _ _ _ _ _ A1 A2) as (B1 & B2 & B3 & B4). repeat split; auto. intros j. specialize (B4 j). destruct (the_tile n j), (the_tile (put_tile n1 dst _) j); auto. destruct B4 as [C1 C2 C3 C4].
      unfold over in *. constructor; auto.
      + rewrite C2. now destruct (j =? dst).
      + rewrite C3. now destruct (j =? dst).
      + intros s H1 H2. apply C4; auto. unfold nowhere. intros [[]|H]; auto.
    - intros H. injection H as <- <-. left. split; auto. split; auto. intros S' p' b' D' H1 H2 H3 H4. unfold n1 in HD. rewrite (tile_put n src S S1 dst ES) in HD. destruct (Z.eqb_spec dst src) as [E|E].
      + injection HD as <-. assert (D' = S) as -> by congruence. unfold S1, buffer_of in EB. cbn in EB. unfold buffer_of. rewrite EB. discriminate.
      + assert (D' = D) as -> by congruence. rewrite EB. discriminate.
  Qed.
  Definition unread (n : dnode) (src dst : Z) : Prop := forall D got, the_tile n dst = Some D -> x_phase D = TReading src got -> buffer_of (x_rt D) src = [].
  Lemma recv_get_is src dst (n n' : dnode) l : Forall tile_fit (z_tiles n) -> recv_get src dst n = DGo n' l -> 0 <= src ->
    n' = n /\ l = [] /\ unread n src dst \/
    (exists D got d, the_tile n dst = Some D /\ x_phase D = TReading src got /\ l = [soon (VPopped dst)] /\ alter none (only dst (TPopped src got d)) (fun j s => j = dst /\ s = src) n n').
  Proof.
    intros NF H SR. revert H. unfold recv_get. destruct (the_tile n dst) as [D|] eqn:ED; [|intros H; injection H as <- <-; left; split; auto; split; auto; intros ? ? ?; congruence].
    destruct (x_phase D) eqn:EP; try (intros H; injection H as <- <-; left; split; auto; split; auto; intros ? ? ? ?; congruence).
    destruct (Z.eqb_spec src0 src) as [-> |NE]; cbn [negb]; [|intros H; injection H as <- <-; left; split; auto; split; auto; intros ? ? ? ?; congruence].
    destruct (buffer_of (x_rt D) src) as [|d r] eqn:EB; [intros H; injection H as <- <-; left; split; auto; split; auto; intros ? ? ? ?; congruence|].
    intros H. injection H as <- <-. right. exists D, got, d. repeat (split; [auto; fail|]). assert (FD : tile_fit D) by (rewrite Forall_forall in NF; eapply NF, tile_in; eauto).
    assert (AL : altered None (Some (TPopped src got d)) (fun s => s = src) D (dt_phase (dt_rt D (rt_buffer (x_rt D) src r)) (TPopped src got d))). { constructor; auto; [repeat constructor|]. intros s H1 H2. apply buffer_other; auto. }
    assert (FD1 : tile_fit (dt_phase (dt_rt D (rt_buffer (x_rt D) src r)) (TPopped src got d))) by (apply (like_fit D); auto; [apply AL|right; split; [intros id []|discriminate]]).
    pose proof (alter_put n dst D _ _ _ _ NF ED AL FD1) as (B1 & B2 & B3 & B4). repeat split; auto. intros j. specialize (B4 j). destruct (the_tile n j), (the_tile (put_tile n dst _) j); auto. destruct B4 as [C1 C2 C3 C4]. constructor; auto.
    rewrite C2. now destruct (j =? dst).
  Qed.

  (** A change of senders, phases and buffers. *)
  Definition calm_phase (p : dphase) : bool := match p with TReadNew _ | TReading _ _ | TPopped _ _ _ | TReadEnd _ _ _ => true | _ => false end.
  Lemma alter_kept fired (n n' : dnode) new fs fp fb : alter fs fp fb n n' -> all_old n -> (exists i, ev_tile fired = Some i) ->
    (forall j z, fs j = Some z -> forall e, rt_ev j e -> match e with VSender _ => z = ZNew | VSendPut _ => z = ZWaiting | VSendGot _ => match z with ZGot _ _ => True | _ => False end | VTravel _ => match z with ZTravel _ _ _ => True | _ => False end
       | VOffer _ => match z with ZOffering _ _ => True | _ => False end | VTaken _ => match z with ZPut _ _ => True | _ => False end | VArrived _ => match z with ZArrived _ _ => True | _ => False end | _ => False end -> In (key e) (map key (map snd new))) ->
    (forall j p, fp j = Some p -> (exists T, the_tile n j = Some T /\ calm_phase (x_phase T) = true) /\ match p with TReading _ _ => True | TPopped _ _ _ => In (VPopped j) (map snd new) | TReadEnd _ _ _ => In (VReadEnd j) (map snd new) | _ => False end) ->
    (forall j, fs j = None -> ~ rt_ev j fired) -> (forall j, fp j = None -> ~ own_ev j fired) -> match fired with VOffer _ | VTaken _ | VRead _ | VPopped _ => True | _ => False end ->
    kept (fun _ => True) (fun e => node_needs e n) (fun e => node_needs e n') fired new.
  Proof.
    intros (A1 & A2 & A3 & A4) AO [i HF] HS HP NS NP FF e _ HW. assert (PF : part_of fired = PRt \/ part_of fired = POwn) by (destruct fired; try contradiction FF; auto). unfold node_needs in *. destruct (ev_tile e) as [j|] eqn:EJ.
    2: { right. rewrite A1, A2 in HW. split; [exact HW|]. intros E. rewrite <- (key_tile e), E, key_tile in EJ. congruence. }
    destruct HW as (T' & HT' & HW). specialize (A4 j). rewrite HT' in A4. destruct (the_tile n j) as [T|] eqn:HT; [|contradiction]. destruct A4 as [[L1 L2 L3 L4 L5 L6] B1 B2 B3]. pose proof (AO _ _ HT) as N.
    assert (N' : is_new T' = false). { unfold is_new in *. rewrite B2. destruct (fp j) as [p|] eqn:EP; cbn; [|exact N]. destruct (HP j p EP) as [_ H]. destruct p; try contradiction; reflexivity. }
    assert (KP : kept (of_tile j) (fun e => tile_needs e T) (fun e => tile_needs e T') fired new).
    { apply tile_join with (k := 0); auto.
      - intros k' _ _. now rewrite L1.
      - intros k' _. destruct PF as [-> | ->]; discriminate.
      - apply kept_same; [intros y _; unfold core_at; now rewrite L1|]. intros y HE. apply (core_out j 0); auto. destruct PF as [-> | ->]; discriminate.
      - apply kept_same; [intros y _; now rewrite L2|]. intros y HE. apply (ctl_out j); auto. destruct PF as [-> | ->]; discriminate.
      - destruct (fs j) as [z|] eqn:EZ.
        + intros y HE HW'. left. apply (HS j z EZ); auto. cbn in B1. destruct y; try contradiction HE; cbn in HW' |- *; rewrite ?B1 in HW'; tauto.
        + apply rt_same; auto. intros H. congruence.
      - destruct (fp j) as [p|] eqn:EP.
        + destruct (HP j p EP) as [(T0 & HT0 & HC) H]. assert (T0 = T) as -> by congruence. cbn in B2. intros y [HE HY] HW'. destruct y; try discriminate HY; cbn in HE; injection HE as ->; cbn in HW'; rewrite ?B2 in HW'; try (destruct p; try contradiction HW'; try contradiction H; left; apply (in_map key) in H; exact H).
          * right. split; [|destruct fired; try contradiction FF; discriminate]. cbn. rewrite L2 in HW'. destruct HW' as [H1 H2]. split; auto. unfold asked in *. rewrite L1, B2 in H2. destruct (Z.eqb_spec k (-1)); auto. destruct p; try contradiction H; contradiction H2.
          * right. split; [|destruct fired; try contradiction FF; discriminate]. cbn. now rewrite L6 in HW'.
        + intros y HE HW'. right. split.
          * destruct y; cbn in HW' |- *; unfold asked in *; rewrite ?L1, ?L2, ?L3, ?L6, ?B2 in HW'; exact HW'.
          * intros E. apply (NP j EP). destruct HE as [HE HY]. split; [rewrite <- (key_tile fired), <- E, key_tile; exact HE|]. rewrite <- (key_part fired), <- E, key_part. exact HY. }
    destruct (KP e EJ HW) as [H|[H1 H2]]; auto. right. eauto.
  Qed.
  Lemma alter_tile fs fp fb (n n' : dnode) j T' : alter fs fp fb n n' -> the_tile n' j = Some T' -> exists T, the_tile n j = Some T /\ altered (fs j) (fp j) (fb j) T T'.
  Proof. intros (_ & _ & _ & A) H. specialize (A j). rewrite H in A. destruct (the_tile n j) as [T|]; [eauto|contradiction]. Qed.
  Lemma alter_known fs fp fb (n n' : dnode) j T : alter fs fp fb n n' -> the_tile n j = Some T -> exists T', the_tile n' j = Some T' /\ altered (fs j) (fp j) (fb j) T T'.
  Proof. intros (_ & _ & _ & A) H. specialize (A j). rewrite H in A. destruct (the_tile n' j) as [T'|]; [eauto|contradiction]. Qed.
  Lemma alter_ext fs fp (fb : Z -> Z -> Prop) gs gp (gb : Z -> Z -> Prop) (n n' : dnode) : alter fs fp fb n n' -> (forall j, fs j = gs j) -> (forall j, fp j = gp j) -> (forall j s, fb j s -> gb j s) -> alter gs gp gb n n'.
  Proof.
    intros (A1 & A2 & A3 & A4) E1 E2 E3. repeat split; auto. intros j. specialize (A4 j). destruct (the_tile n j), (the_tile n' j); auto. destruct A4 as [B1 B2 B3 B4]. rewrite E1 in B2. rewrite E2 in B3. constructor; auto.
  Qed.
  Lemma alter_fit (n n' : dnode) fs fp (fb : Z -> Z -> Prop) : node_fit n -> alter fs fp fb n n' -> (forall j s, {fb j s} + {~ fb j s}) ->
    (forall d s got, fp d = Some (TReading s got) -> 0 <= s) ->
    (forall s p b D', fs s = Some (ZPutting p b) -> the_tile n' (pk_dst p) = Some D' -> buffer_of (x_rt D') s <> []) ->
    (forall s S p b, the_tile n s = Some S -> fs s = None -> u_sender (x_rt S) = ZPutting p b -> fb (pk_dst p) s -> exists got d, fp (pk_dst p) = Some (TPopped s got d)) ->
    (forall j D s got d S p b, the_tile n j = Some D -> x_phase D = TPopped s got d -> the_tile n s = Some S -> u_sender (x_rt S) = ZPutting p b -> pk_dst p = j -> buffer_of (x_rt D) s = [] -> fs s = None -> fp j = None) ->
    (forall d s got D', fp d = Some (TReading s got) -> the_tile n' d = Some D' -> buffer_of (x_rt D') s = []) ->
    (forall d D s got, the_tile n d = Some D -> x_phase D = TReading s got -> fp d = None -> fb d s -> exists S p b, the_tile n s = Some S /\ fs s = Some (ZPut p b) /\ pk_dst p = d) ->
    (forall d D s got S p b, the_tile n d = Some D -> x_phase D = TReading s got -> buffer_of (x_rt D) s <> [] -> fp d = None -> the_tile n s = Some S -> u_sender (x_rt S) = ZPut p b -> pk_dst p = d -> fs s = None) ->
    node_fit n'.
  Proof.
    intros NF A DEC H0 H1 H2 H3 H4 H5 H6. constructor.
    - apply A.
    - intros d D' s got HD EP. destruct (alter_tile _ _ _ _ _ _ _ A HD) as (D & HD0 & [_ _ B2 _]). rewrite EP in B2. destruct (fp d) as [p|] eqn:EF; cbn in B2; [subst p; eapply H0; exact EF|]. eapply (nf_source _ NF); eauto.
    - intros s S' p b D' HS ES HD EB. destruct (alter_tile _ _ _ _ _ _ _ A HS) as (S & HS0 & [_ B1 _ _]). destruct (alter_tile _ _ _ _ _ _ _ A HD) as (D & HD0 & [_ _ B2 B3]).
      assert (SR : 0 <= s) by (unfold the_tile in HS; destruct (Z.ltb_spec s 0); [discriminate|lia]).
      rewrite ES in B1. destruct (fs s) as [z|] eqn:EF; cbn in B1; [exfalso; subst z; eapply H1; eauto|]. destruct (DEC (pk_dst p) s) as [Y|Y].
      + destruct (H2 s S p b HS0 EF (eq_sym B1) Y) as (got & d & E). rewrite E in B2. eauto.
      + rewrite (B3 s SR Y) in EB. destruct (nf_put _ NF s S p b D HS0 (eq_sym B1) HD0 EB) as (got & d & EP). exists got, d. rewrite (H3 (pk_dst p) D s got d S p b) in B2; auto. cbn in B2. congruence.
    - intros d D' s got HD EP EB. destruct (alter_tile _ _ _ _ _ _ _ A HD) as (D & HD0 & [_ _ B2 B3]). rewrite EP in B2. destruct (fp d) as [p|] eqn:EF; cbn in B2.
      + exfalso. apply EB. subst p. eapply H4; eauto.
      + assert (SR : 0 <= s) by (eapply (nf_source _ NF); eauto). destruct (DEC d s) as [Y|Y].
        * destruct (H5 d D s got HD0 (eq_sym B2) EF Y) as (S & p & b & HS & E & ED). destruct (alter_known _ _ _ _ _ _ _ A HS) as (S' & HS' & [_ B1 _ _]). rewrite E in B1. exists S', p, b. auto.
        * rewrite (B3 s SR Y) in EB. destruct (nf_get _ NF d D s got HD0 (eq_sym B2) EB) as (S & p & b & HS & ES & ED). destruct (alter_known _ _ _ _ _ _ _ A HS) as (S' & HS' & [_ B1 _ _]). rewrite (H6 d D s got S p b) in B1; auto. exists S', p, b. cbn in B1. rewrite B1. auto.
  Qed.
  Lemma pair_dec (a b : Z) j s : {j = a /\ s = b} + {~ (j = a /\ s = b)}.
  Proof. destruct (Z.eq_dec j a), (Z.eq_dec s b); [left; auto|right; tauto..]. Qed.
  Lemma only_is {A} i (a b : A) j : only i a j = Some b -> j = i /\ b = a.
  Proof. unfold only. destruct (Z.eqb_spec j i); [|discriminate]. intros H. injection H as <-. auto. Qed.
  Lemma only_not {A} i (a : A) j : only i a j = None -> j <> i.
  Proof. unfold only. destruct (Z.eqb_spec j i); [discriminate|auto]. Qed.
  Lemma set_sender (n : dnode) i T z : Forall tile_fit (z_tiles n) -> the_tile n i = Some T -> alter (only i z) none nowhere n (put_tile n i (dt_rt T (rt_sender (x_rt T) z))).
  Proof.
    intros NF HT. assert (FS : tile_fit T) by (rewrite Forall_forall in NF; eapply NF, tile_in; eauto).
    assert (AL : altered (Some z) None (fun _ => False) T (dt_rt T (rt_sender (x_rt T) z))) by (repeat constructor). assert (F1 : tile_fit (dt_rt T (rt_sender (x_rt T) z))) by (apply (like_fit T); auto; apply AL).
    eapply alter_ext; [exact (alter_put n i T _ _ _ _ NF HT AL F1)|..]; auto. - intros j. cbv beta. unfold none. now destruct (j =? i). - intros j s [_ []].
  Qed.
  Lemma offer_kept i (n : dnode) : node_fit n -> all_old n -> node_kept (VOffer i) n (on_offer c i n).
  Proof.
    intros NF AO. unfold on_offer. destruct (the_tile n i) as [T|] eqn:ET; [|exact I]. destruct (u_sender (x_rt T)) eqn:ES; try exact I. destruct (negb _); [exact I|].
    pose proof (set_sender n i T (ZPutting p inter) (nf_tiles _ NF) ET) as A1. set (n1 := put_tile n i _) in *.
    destruct (recv_put i (pk_dst p) n1) as [n2 l| |] eqn:ER; try exact I. apply recv_put_is in ER; [|apply A1]. cbn.
    destruct ER as [(-> & -> & ST)|(S & p' & b' & HS & ES' & ED & -> & A2)].
    - constructor.
      + apply (alter_fit n n1 _ _ _ NF A1); unfold none, nowhere; auto; try discriminate; try (intros; contradiction).
        * intros s p0 b0 D' H HD. apply only_is in H as [-> H]. injection H as -> ->. unfold n1 in ST at 1. eapply ST; eauto.
          -- unfold starved, n1. rewrite (tile_put n i T _ i ET), Z.eqb_refl. reflexivity.
          -- reflexivity.
        * intros d D s got S p0 b0 HD EP EB _ HS ES' ED. unfold only. destruct (Z.eqb_spec s i) as [-> |]; auto. congruence.
      + apply (alter_kept _ _ _ _ _ _ _ A1 AO); cbn; eauto.
        * intros j z H. apply only_is in H as [-> ->]. intros e HE. destruct e; try contradiction HE; try discriminate; intros [].
        * discriminate.
        * intros j H. apply only_not in H. auto.
        * intros j _ [_ H]. discriminate.
    - pose proof (alter_known _ _ _ _ _ _ _ A1 ET) as (S1 & HS1 & [_ B1 _ _]). assert (S = S1) as -> by congruence. unfold only in B1. rewrite Z.eqb_refl in B1. cbn in B1. rewrite B1 in ES'. injection ES' as <- <-.
      assert (A : alter (only i (ZPut p inter)) none (fun j s => j = pk_dst p /\ s = i) n n2).
      { eapply alter_ext; [exact (alter_trans _ _ _ _ _ _ _ _ _ A1 A2)|..]. - intros j. unfold over, only. now destruct (j =? i). - reflexivity. - intros j s [[]|H]. exact H. }
      constructor.
      + apply (alter_fit n n2 _ _ _ NF A); unfold none; auto; try discriminate.
        * apply pair_dec.
        * intros s p0 b0 D' H. apply only_is in H as [-> H]. discriminate.
        * intros s S p0 b0 _ H _ [_ E]. apply only_not in H. contradiction.
        * intros d D s got HD EP _ [-> ->]. exists T, p, inter. split; auto. unfold only. now rewrite Z.eqb_refl.
        * intros d D s got S p0 b0 HD EP EB _ HS' ES' _. unfold only. destruct (Z.eqb_spec s i) as [-> |]; auto. congruence.
      + apply (alter_kept _ _ _ _ _ _ _ A AO); cbn; eauto.
        * intros j z H. apply only_is in H as [-> ->]. intros e HE. destruct e; try contradiction HE; try discriminate; try (intros []; fail). cbn in HE. subst. auto.
        * discriminate.
        * intros j H. apply only_not in H. auto.
        * intros j _ [_ H]. discriminate.
  Qed.
  Lemma set_phase (n : dnode) i T (T' : dtile) p : Forall tile_fit (z_tiles n) -> the_tile n i = Some T -> like T T' -> u_sender (x_rt T') = u_sender (x_rt T) -> u_buffers (x_rt T') = u_buffers (x_rt T) -> x_phase T' = p -> match p with TReading _ _ | TReadEnd _ _ _ => True | _ => False end ->
    alter none (only i p) nowhere n (put_tile n i T').
  Proof.
    intros NF HT HL E1 E2 E3 HP. assert (FS : tile_fit T) by (rewrite Forall_forall in NF; eapply NF, tile_in; eauto).
    assert (AL : altered None (Some p) (fun _ => False) T T'). { constructor; auto. intros s _ _. unfold buffer_of. now rewrite E2. }
    assert (F1 : tile_fit T'). { apply (like_fit T); auto. right. rewrite E3. split; [|destruct p; try contradiction; discriminate]. intros id. unfold asked. rewrite E3. destruct p; try contradiction; auto. }
    eapply alter_ext; [exact (alter_put n i T _ _ _ _ NF HT AL F1)|..]; auto. - intros j. cbv beta. unfold none. now destruct (j =? i). - intros j s [_ []].
  Qed.
  Lemma read_kept i (n : dnode) : node_fit n -> all_old n -> node_kept (VRead i) n (on_read c i n).
  Proof.
    intros NF AO. unfold on_read. destruct (the_tile n i) as [T|] eqn:ET; [|exact I]. destruct (x_phase T) eqn:EP; try exact I. destruct (x_prog T) as [|[|addr source width vec|] rest]; try exact I. destruct (negb (buffer_key _ _ _)) eqn:EK; [exact I|].
    assert (SR : 0 <= source) by (unfold buffer_key in EK; lia).
    assert (A1 : alter none (only i (TReading source got)) nowhere n (put_tile n i (dt_phase T (TReading source got)))) by (apply (set_phase n i T); auto; [apply NF|repeat constructor]).
    set (n1 := put_tile n i _) in *.
    destruct (recv_get source i n1) as [n2 l| |] eqn:ER; try exact I. apply recv_get_is in ER; [|apply A1|exact SR]. cbn.
    destruct ER as [(-> & -> & UR)|(D & got' & d & HD & EP' & -> & A2)].
    - constructor.
      + apply (alter_fit n n1 _ _ _ NF A1); unfold none, nowhere; auto; try discriminate; try (intros; contradiction).
        * intros d s g H. apply only_is in H as [_ H]. now injection H as -> _.
        * intros j D s g d S p b HD EP' _ _ _ _ _. unfold only. destruct (Z.eqb_spec j i) as [-> |]; auto. congruence.
        * intros d s g D' H HD. apply only_is in H as [-> H]. injection H as -> ->. apply (UR D' got); auto. destruct (alter_tile _ _ _ _ _ _ _ A1 HD) as (D & _ & [_ _ B2 _]). rewrite B2. unfold only. now rewrite Z.eqb_refl.
      + apply (alter_kept _ _ _ _ _ _ _ A1 AO); cbn; eauto.
        * discriminate.
        * intros j p H. apply only_is in H as [-> ->]. split; auto. exists T. rewrite EP. auto.
        * intros j H. apply only_not in H. intros [E _]. cbn in E. congruence.
    - destruct (alter_tile _ _ _ _ _ _ _ A1 HD) as (D0 & _ & [_ _ B2 _]). rewrite EP' in B2. unfold only in B2. rewrite Z.eqb_refl in B2. cbn in B2. injection B2 as ->.
      assert (A : alter none (only i (TPopped source got d)) (fun j s => j = i /\ s = source) n n2).
      { eapply alter_ext; [exact (alter_trans _ _ _ _ _ _ _ _ _ A1 A2)|..]. - reflexivity. - intros j. unfold over, only. now destruct (j =? i). - intros j s [[]|H]. exact H. }
      constructor.
      + apply (alter_fit n n2 _ _ _ NF A); unfold none; auto; try discriminate.
        * apply pair_dec.
        * intros d0 s g H. apply only_is in H as [_ H]. discriminate.
        * intros s S p b HS _ ES [-> ->]. exists got, d. unfold only. now rewrite Z.eqb_refl.
        * intros j D1 s g d0 S p b HD1 EP1 _ _ _ _ _. unfold only. destruct (Z.eqb_spec j i) as [-> |]; auto. congruence.
        * intros d0 s g D' H. apply only_is in H as [_ H]. discriminate.
        * intros d0 D1 s g _ _ H [-> _]. apply only_not in H. contradiction.
      + apply (alter_kept _ _ _ _ _ _ _ A AO); cbn; eauto.
        * discriminate.
        * intros j p H. apply only_is in H as [-> ->]. split; auto. exists T. rewrite EP. auto.
        * intros j H. apply only_not in H. intros [E _]. cbn in E. congruence.
  Qed.
  Lemma popped_kept i (n : dnode) : node_fit n -> all_old n -> node_kept (VPopped i) n (on_popped i n).
  Proof.
    intros NF AO. unfold on_popped. destruct (the_tile n i) as [T|] eqn:ET; [|exact I]. destruct (x_phase T) eqn:EP; try exact I.
    destruct (recv_put src i n) as [n1 l| |] eqn:ER; try exact I. apply recv_put_is in ER; [|apply NF]. cbn [dbind].
    assert (TAIL : forall fs fb, alter fs none fb n n1 -> exists n2, on_tile n1 i (fun t => DGo (dt_phase (dt_rt t (rt_stat (x_rt t) (let x := u_stat (x_rt t) in
                (MkRStats (packets_created x) (packets_sent_internode x) (packets_sent_intranode x)
                   (packets_sent x) (packets_received x) (packets_read x + 1))))) (TReadEnd src got data)) [soon (VReadEnd i)]) = DGo n2 [soon (VReadEnd i)] /\ alter fs (only i (TReadEnd src got data)) fb n n2).
    { intros fs fb A. destruct (alter_known _ _ _ _ _ _ _ A ET) as (T1 & HT1 & [_ _ B2 _]). unfold on_tile. rewrite HT1. assert (N1 : is_new T1 = false) by (unfold is_new; rewrite B2; cbn; now rewrite EP). rewrite N1. cbn [dmap]. eexists. split; [reflexivity|].
      eapply alter_ext; [eapply alter_trans; [exact A|apply (set_phase n1 i T1); auto; [apply A|repeat constructor|exact I]]|..].
      - reflexivity.
      - intros j. unfold over, none, only. cbn. now destruct (j =? i).
      - intros j s [H|[]]. exact H. }
    assert (PH : forall j p, only i (TReadEnd src got data) j = Some p -> (exists T, the_tile n j = Some T /\ calm_phase (x_phase T) = true) /\ forall l', match p with TReading _ _ => True | TPopped _ _ _ => In (VPopped j) (map snd (l' ++ [soon (VReadEnd i)])) | TReadEnd _ _ _ => In (VReadEnd j) (map snd (l' ++ [soon (VReadEnd i)])) | _ => False end).
    { intros j p H. apply only_is in H as [-> ->]. split; [exists T; rewrite EP; auto|]. intros l'. rewrite map_app, in_app_iff. right. now left. }
    cbn zeta in TAIL. destruct ER as [(-> & -> & ST)|(S & p & b & HS & ES & ED & -> & A1)].
    - destruct (TAIL none nowhere (alter_refl n (nf_tiles _ NF))) as (n2 & -> & A). cbn. constructor.
      + apply (alter_fit n n2 _ _ _ NF A); unfold none, nowhere; auto; try discriminate; try (intros; contradiction).
        * intros d s g H. apply only_is in H as [_ H]. discriminate.
        * intros j D s g d S p b HD EP' HS ES ED EB _. unfold only. destruct (Z.eqb_spec j i) as [-> |]; auto. exfalso. assert (D = T) as -> by congruence. rewrite EP in EP'. injection EP' as <- _ _. eapply (ST S p b T); eauto.
        * intros d s g D' H. apply only_is in H as [_ H]. discriminate.
      + apply (alter_kept _ _ _ _ _ _ _ A AO); cbn; eauto.
        * discriminate.
        * intros j p H. destruct (PH j p H) as [H1 H2]. split; auto. exact (H2 []).
        * intros j H. apply only_not in H. intros [E _]. cbn in E. congruence.
    - destruct (TAIL _ _ A1) as (n2 & -> & A). cbn. constructor.
      + apply (alter_fit n n2 _ _ _ NF A); auto; try discriminate.
        * apply pair_dec.
        * intros d s g H. apply only_is in H as [_ H]. discriminate.
        * intros s p0 b0 D' H. apply only_is in H as [_ H]. discriminate.
        * intros s S0 p0 b0 _ H _ [_ E]. apply only_not in H. contradiction.
        * intros j D s g d S0 p0 b0 HD EP' HS0 ES0 ED0 EB H. apply only_not in H. unfold only. destruct (Z.eqb_spec j i) as [E|]; auto. exfalso. assert (D = T) as -> by congruence. rewrite EP in EP'. injection EP' as E' _ _. congruence.
        * intros d s g D' H. apply only_is in H as [_ H]. discriminate.
        * intros d D s g _ _ H [E _]. apply only_not in H. contradiction.
        * intros d D s g S0 p0 b0 _ _ _ _ HS0 ES0 _. unfold only. destruct (Z.eqb_spec s src) as [-> |]; auto. congruence.
      + apply (alter_kept _ _ _ _ _ _ _ A AO); cbn [ev_tile]; eauto.
        * intros j z H. apply only_is in H as [-> ->]. intros e HE. destruct e; try contradiction HE; try discriminate; try (intros []; fail). cbn in HE. subst. cbn. auto.
        * intros j p0 H. destruct (PH j p0 H) as [H1 H2]. split; auto. exact (H2 [soon (VTaken src)]).
        * intros j H. apply only_not in H. intros [E _]. cbn in E. congruence.
  Qed.
  Lemma taken_kept i (n : dnode) : node_inv n -> node_fit n -> all_old n -> node_kept (VTaken i) n (on_taken i n).
  Proof.
    intros NI NF AO. unfold on_taken. destruct (the_tile n i) as [T|] eqn:ET; [|exact I]. destruct (u_sender (x_rt T)) eqn:ES; try exact I.
    assert (SR : 0 <= i) by (unfold the_tile in ET; destruct (Z.ltb_spec i 0); [discriminate|lia]).
    destruct (recv_get i (pk_dst p) n) as [n1 l| |] eqn:ER; try exact I. apply recv_get_is in ER; [|apply NF|exact SR]. cbn [dbind].
    match goal with |- node_kept _ _ (match ?r with _ => _ end) => destruct r as [n3 l3| |] eqn:E3; try exact I end.
    assert (TAIL : forall fp fb, alter none fp fb n n1 -> alter (only i (ZArrived p inter)) fp fb n n3 /\ l3 = [soon (VArrived i)]).
    { intros fp fb A. destruct (alter_known _ _ _ _ _ _ _ A ET) as (T1 & HT1 & [_ B1 _ _]). unfold on_tile in E3 at 1. rewrite HT1 in E3. destruct (is_new T1); [discriminate|]. cbn [dmap dbind] in E3.
      pose proof (set_sender n1 i T1 (ZArrived p inter) (proj1 (proj2 (proj2 A))) HT1) as A2. set (n2 := put_tile n1 i _) in *. unfold on_tile in E3. destruct (the_tile n2 (pk_dst p)) as [T2|] eqn:HT2; [|discriminate]. destruct (is_new T2); [discriminate|]. cbn in E3. injection E3 as <- <-.
      split; auto. eapply alter_ext; [eapply alter_trans; [eapply alter_trans; [exact A|exact A2]|]|..].
      - assert (FS : tile_fit T2) by (destruct A2 as (_ & _ & A2 & _); rewrite Forall_forall in A2; eapply A2, tile_in; eauto).
        apply (alter_put n2 (pk_dst p) T2 _ None None (fun _ => False)); auto; [apply A2|repeat constructor|]. apply (like_fit T2); auto. repeat constructor.
      - intros j. unfold over, none. now destruct (j =? pk_dst p), (only i (ZArrived p inter) j).
      - intros j. unfold over, none. destruct (j =? pk_dst p); reflexivity.
      - intros j s [[H|[]]|[_ []]]. exact H. }
    destruct ER as [(-> & -> & UR)|(D & got & d & HD & EP & -> & A1)].
    - destruct (TAIL none nowhere (alter_refl n (nf_tiles _ NF))) as [A ->]. cbn. constructor.
      + apply (alter_fit n n3 _ _ _ NF A); unfold none, nowhere; auto; try discriminate; try (intros; contradiction).
        * intros s p0 b0 D' H. apply only_is in H as [_ H]. discriminate.
        * intros d D s got S p0 b0 HD EP EB _ HS ES0 ED. unfold only. destruct (Z.eqb_spec s i) as [-> |]; auto. exfalso. assert (S = T) as -> by congruence. rewrite ES in ES0. injection ES0 as <- <-. subst d. apply EB. eapply UR; eauto.
      + apply (alter_kept _ _ _ _ _ _ _ A AO); cbn; eauto.
        * intros j z H. apply only_is in H as [-> ->]. intros e HE. destruct e; try contradiction HE; try discriminate; try (intros []; fail). cbn in HE. subst. cbn. auto.
        * discriminate.
        * intros j H. apply only_not in H. auto.
        * intros j _ [_ H]. discriminate.
    - destruct (TAIL _ _ A1) as [A ->]. cbn. constructor.
      + apply (alter_fit n n3 _ _ _ NF A); auto; try discriminate.
        * apply pair_dec.
        * intros d0 s g H. apply only_is in H as [_ H]. discriminate.
        * intros s p0 b0 D' H. apply only_is in H as [_ H]. discriminate.
        * intros s S0 p0 b0 _ H _ [_ E]. apply only_not in H. contradiction.
        * intros j D0 s g d0 S0 p0 b0 HD0 EP0 _ _ _ _ _. unfold only. destruct (Z.eqb_spec j (pk_dst p)) as [-> |]; auto. congruence.
        * intros d0 s g D' H. apply only_is in H as [_ H]. discriminate.
        * intros d0 D0 s g _ _ H [E _]. apply only_not in H. contradiction.
        * intros d0 D0 s g S0 p0 b0 _ _ _ H HS0 ES0 ED. apply only_not in H. unfold only. destruct (Z.eqb_spec s i) as [-> |]; auto. exfalso. assert (S0 = T) as -> by congruence. rewrite ES in ES0. injection ES0 as <- <-. congruence.
      + apply (alter_kept _ _ _ _ _ _ _ A AO); cbn [ev_tile]; eauto.
        * intros j z H. apply only_is in H as [-> ->]. intros e HE. destruct e; try contradiction HE; try discriminate; try (intros []; fail). cbn in HE. subst. cbn. auto.
        * intros j p0 H. apply only_is in H as [-> ->]. split; [exists D; rewrite EP; auto|]. cbn. auto.
        * intros j H. apply only_not in H. cbn. auto.
        * intros j _ [_ H]. discriminate.
  Qed.

  (** *** The node *)
  Lemma same_tiles_kept fired (n n' : dnode) new : node_fit n -> z_tiles n' = z_tiles n -> ev_tile fired = None ->
    (z_fin n' = z_fin n /\ fired <> VAllTiles /\ fired <> VNodeEnd /\ fired <> VRunEnd \/ z_fin n' = FNode /\ In VNodeEnd (map snd new) \/ z_fin n' = FCond /\ In VRunEnd (map snd new) \/ z_fin n' = FEnd) -> node_step_to fired n n' new.
  Proof.
    intros NF ET HF HZ. assert (TT : forall i, the_tile n' i = the_tile n i) by (intros; unfold the_tile; now rewrite ET). constructor.
    - destruct NF as [N1 N2 N3 N4]. constructor; rewrite ?ET; auto.
      + intros d D s g. rewrite TT. apply N2.
      + intros s S p b D. rewrite !TT. apply N3.
      + intros d D s g. rewrite TT. setoid_rewrite TT. apply N4.
    - intros e _ HW. unfold node_needs in *. destruct (ev_tile e) as [j|] eqn:EJ.
      + right. setoid_rewrite TT in HW. split; auto. intros E. rewrite <- (key_tile e), E, key_tile in EJ. congruence.
      + destruct e; try contradiction HW; destruct HZ as [(EZ & Z1 & Z2 & Z3)|[(EZ & HI)|[(EZ & HI)|EZ]]]; rewrite ?EZ, ?ET in HW; try discriminate HW; try discriminate (proj1 HW); try (right; split; [exact HW|destruct fired; cbn; congruence]); left; apply (in_map key) in HI; exact HI.
  Qed.
  Lemma tile_end_kept i (n : dnode) : node_inv n -> node_fit n -> node_kept (VTileEnd i) n (tile_end i n).
  Proof.
    intros NI NF. unfold tile_end, on_tile. destruct (the_tile n i) as [T|] eqn:ET; [|exact I]. destruct (is_new T) eqn:EN; [exact I|]. destruct (x_phase T) eqn:EP; try exact I. cbn. set (T' := MkDTile _ _ _ _ _ _ _). pose proof (fun j => tile_put n i T T' j ET) as TP.
    assert (AK : forall k id, asked T' k id -> asked T k id) by (intros k id; unfold asked; cbn; now rewrite EP). constructor.
    - apply (put_net n i T T'); auto.
      + destruct (fit_at n i T NF ET) as [F1 F2 F3 F4]. constructor; cbn; eauto. discriminate.
      + constructor; auto.
    - intros e _ HW. unfold node_needs in HW |- *. destruct (ev_tile e) as [j|] eqn:EJ.
      + destruct HW as (U & HU & HW). rewrite TP in HU. destruct (Z.eqb_spec j i) as [-> |NE]; [|right; split; [eauto|intros E; rewrite <- (key_tile e), E in EJ; cbn in EJ; congruence]].
        injection HU as <-. assert (NF' : e <> VTileEnd i). { intros ->. cbn in HW. destruct HW as [_ HW]. discriminate HW. }
        right. split; [|destruct e; cbn; congruence]. exists T. split; auto. unfold tile_needs in *. assert (N' : is_new T' = false) by reflexivity. rewrite N' in HW. rewrite EN. destruct (part_of e) eqn:EQ; try exact HW; try discriminate HW.
        destruct HW as [_ HW]. split; auto. destruct e; try discriminate EQ; cbn in HW |- *; rewrite ?EP; auto; try contradiction HW; try discriminate HW. destruct HW as [H1 H2]. split; auto.
      + destruct e; try contradiction HW; try (right; split; [exact HW|discriminate]). left. destruct HW as [_ HW]. cbn in HW. rewrite HW. now left.
  Qed.
  Theorem fire_kept now h (n : dnode) : node_inv n -> node_fit n -> quiet c h n -> node_kept h n (fire P c now h n).
  Proof.
    intros NI NF Q. destruct h; cbn [fire].
    - unfold on_monitor. destruct (negb (z_monitor n)); [|destruct (negb _); [exact I|]]; (apply same_tiles_kept; auto; left; repeat split; auto; discriminate).
    - unfold monitor_int. destruct (z_fin n) eqn:EZ; try exact I; (apply same_tiles_kept; auto; left; cbn; repeat split; auto; discriminate).
    - unfold start_tile. destruct (the_tile n i) as [T|] eqn:ET; [|exact I]. pose proof (tile_start_case c (z_begin n) now i T (tile_is c n i T NI ET)) as H. destruct (tile_start c (z_begin n) now i T) as [T' new| |]; try exact I. cbn in *. eapply lift_step; eauto.
    - apply on_core_kept; auto; try discriminate. intros. now apply core_start_kept.
    - apply on_core_kept; auto; try discriminate. intros. now apply stage_start_kept.
    - apply on_core_kept; auto; try discriminate. intros. now apply pipe_start_kept.
    - apply on_core_kept; auto; try discriminate. intros. now apply on_put_kept.
    - apply on_core2_kept; auto. intros. now apply got_case.
    - apply on_core_kept; auto; try discriminate. intros. now apply on_time_kept.
    - apply on_core_kept; auto; try discriminate. intros. now apply load_new_kept.
    - apply on_core_kept; auto; try discriminate. intros. now apply load_time_kept.
    - apply on_core_kept; auto; try discriminate. intros. now apply loaded_kept.
    - apply on_core_kept; auto; try discriminate. intros. now apply store_new_kept.
    - apply on_core2_kept; auto. intros. now apply (store_case c).
    - apply on_core_kept; auto; try discriminate. intros. now apply stored_kept.
    - apply on_core_kept; auto; try discriminate. intros. now apply stage_done_kept.
    - apply on_core_kept; auto; try discriminate. intros. now apply pipe_done_kept.
    - apply on_tile_kept; auto. intros. now apply (core_end_case c).
    - apply on_ctl_kept; auto. + intros. apply handler_start_kept. + intros d. unfold handler_start. destruct (c_handler d); try exact I. unfold go. match goal with |- context [req_get i ?x] => pose proof (req_get_values i x) as [E1 E2]; destruct (req_get i x) end. cbn in *. auto.
    - apply on_ctl_kept; auto. + intros. apply req_get_kept. + intros d. unfold go. pose proof (req_get_values i d) as [E1 E2]. destruct (req_get i d). auto.
    - apply on_ctl_kept; auto. + intros. apply on_req_kept. + intros d. unfold on_req. destruct (c_handler d) as [| |r|dg]; try exact I; [|cbn; auto]. destruct (negb (c_running d)); [exact I|]. cbv beta zeta. destruct (is_read r && _); unfold go; match goal with |- context [req_get i ?x] => pose proof (req_get_values i x) as [E1 E2]; destruct (req_get i x) end; cbn in *; auto.
    - apply on_ctl_kept; auto. + intros. apply handler_int_kept. + intros d. unfold handler_int. destruct (c_running d); try exact I. destruct (c_handler d); try exact I; cbn; auto.
    - apply on_ctl_kept; auto. + intros. now apply thread_start_kept. + intros d. unfold thread_start. destruct (c_starting d) as [|r sg]; try exact I. destruct (_ =? _); [|exact I]. unfold go. match goal with |- context [bus_give i ?x] => pose proof (bus_give_values i x) as [E1 E2]; destruct (bus_give i x) end; cbn in *; auto.
    - apply on_ctl_kept; auto. + intros. apply on_grant_kept. + intros d. unfold on_grant, timeout. destruct (c_bus d); try exact I. destruct (_ <? 0); [exact I|]. cbn. auto.
    - apply on_tile_kept; auto. intros. now apply (thread_end_case P c).
    - apply on_ctl_kept; auto. + intros. apply bus_give_kept. + intros d. unfold go. pose proof (bus_give_values i d) as [E1 E2]. destruct (bus_give i d). auto.
    - destruct (Z.eqb_spec k (-1)) as [-> |NK]; [apply on_tile_kept; auto; intros; now apply (tile_done_case c)|]. apply on_core2_kept; auto. intros. now apply (done_case c).
    - apply on_tile_kept; auto. intros. now apply sender_case.
    - apply on_tile_kept; auto. intros. now apply send_put_case.
    - apply on_tile_kept; auto. intros. now apply send_case.
    - apply on_tile_kept; auto. intros. now apply travel_case.
    - apply offer_kept; auto. exact (qt_old _ _ _ Q).
    - apply taken_kept; auto. exact (qt_old _ _ _ Q).
    - apply on_tile_kept; auto. intros. now apply arrived_case.
    - apply on_tile_kept; auto. intros. now apply (sent_case c).
    - apply on_tile_kept; auto. intros. now apply sender_int_case.
    - apply on_tile_kept; auto. intros. now apply (op_case c).
    - apply on_tile_kept; auto. intros. now apply (op_end_case c).
    - now apply tile_end_kept.
    - apply on_tile_kept; auto. intros. now apply add_case.
    - apply on_tile_kept; auto. intros. now apply add_time_case.
    - apply on_tile_kept; auto. intros. now apply (added_case c).
    - apply read_kept; auto. exact (qt_old _ _ _ Q).
    - apply popped_kept; auto. exact (qt_old _ _ _ Q).
    - apply on_tile_kept; auto. intros. now apply (read_end_case c).
    - apply on_tile_kept; auto. intros. now apply (all_cores_case c).
    - apply on_tile_kept; auto. intros. now apply (stop_case c).
    - apply on_tile_kept; auto. intros. now apply (poll_case c).
    - apply on_tile_kept; auto. intros. now apply (poll_time_case c).
    - apply on_tile_kept; auto. intros. now apply (empty_case c).
    - apply on_tile_kept; auto. intros. now apply (stopped_case c).
    - unfold all_tiles. destruct (z_fin n) eqn:EZ; try exact I. destruct (forallb x_ended (z_tiles n)); try exact I. apply same_tiles_kept; auto. right. left. cbn. auto.
    - unfold node_end. destruct (z_fin n) eqn:EZ; try exact I. apply same_tiles_kept; auto. right. right. left. cbn. auto.
    - unfold run_end. destruct (z_fin n) eqn:EZ; try exact I. apply same_tiles_kept; auto.
  Qed.
End Node.
