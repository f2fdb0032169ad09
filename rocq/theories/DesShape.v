(** The schedule does not depend on the data: two machines whose cores and memories succeed alike, and produce data of the same
    lengths, have the same events at the same times.  The relation of the cores may refer to the instructions that are left. *)
From Verif Require Import PyBase PyLemmas MemoryModel CoreModel DramModel RouterModel SystemModel DesModel.
From Coq Require Import ZifyBool ZifyNat.
Open Scope Z_scope.

Definition alike (a b : list Z) : Prop := length a = length b.
Definition rows_alike : list (list Z) -> list (list Z) -> Prop := Forall2 alike.

Inductive kind_alike : rkind -> rkind -> Prop :=
| ka_read w v : kind_alike (RRead w v) (RRead w v)
| ka_write a b : rows_alike a b -> kind_alike (RWrite a) (RWrite b).
(** The number of values a request returns; [g] has it for all requests so far, by their numbers. *)
Definition dlen (kd : rkind) : Z := match kd with RRead w v => w * v | RWrite _ => 0 end.
Definition has (g : list Z) (id n : Z) : Prop := 0 <= id /\ nth_error g (Z.to_nat id) = Some n.
Inductive req_alike (g : list Z) : req -> req -> Prop :=
| ra id core start time a b : kind_alike a b -> has g id (dlen a) -> req_alike g (MkReq id core start time a) (MkReq id core start time b).
Inductive xp_alike : xphase -> xphase -> Prop :=
| xa_none : xp_alike XNone XNone
| xa_timing : xp_alike XTiming XTiming
| xa_loading id : xp_alike (XLoading id) (XLoading id)
| xa_new a b : alike a b -> xp_alike (XLoadNew a) (XLoadNew b)
| xa_ltime a b : alike a b -> xp_alike (XLoadTiming a) (XLoadTiming b)
| xa_loaded : xp_alike XLoaded XLoaded
| xa_store s a b : rows_alike a b -> xp_alike (XStoreNew s a) (XStoreNew s b)
| xa_stime s a b : rows_alike a b -> xp_alike (XStoreTiming s a) (XStoreTiming s b)
| xa_storing id : xp_alike (XStoring id) (XStoring id)
| xa_stored : xp_alike XStored XStored.
Inductive h_alike (g : list Z) : hstate -> hstate -> Prop :=
| ha_new : h_alike g HNew HNew
| ha_waiting : h_alike g HWaiting HWaiting
| ha_got a b : req_alike g a b -> h_alike g (HGot a) (HGot b)
| ha_dead x : h_alike g (HDead x) (HDead x).
Inductive b_alike (g : list Z) : bstate -> bstate -> Prop :=
| ba_free : b_alike g BFree BFree
| ba_granted a b : req_alike g a b -> b_alike g (BGranted a) (BGranted b)
| ba_timing a b t : req_alike g a b -> b_alike g (BTiming a t) (BTiming b t).
Inductive val_alike (g : list Z) : Z * list Z -> Z * list Z -> Prop := va id a b : alike a b -> has g id (zlen a) -> val_alike g (id, a) (id, b).
Inductive pk_alike : packet -> packet -> Prop := pa s d a b : alike a b -> pk_alike (MkPacket s d a) (MkPacket s d b).
Inductive s_alike : sstate -> sstate -> Prop :=
| sa_new : s_alike ZNew ZNew
| sa_waiting : s_alike ZWaiting ZWaiting
| sa_got a b t : pk_alike a b -> s_alike (ZGot a t) (ZGot b t)
| sa_travel a b t i : pk_alike a b -> s_alike (ZTravel a t i) (ZTravel b t i)
| sa_offering a b i : pk_alike a b -> s_alike (ZOffering a i) (ZOffering b i)
| sa_putting a b i : pk_alike a b -> s_alike (ZPutting a i) (ZPutting b i)
| sa_put a b i : pk_alike a b -> s_alike (ZPut a i) (ZPut b i)
| sa_arrived a b i : pk_alike a b -> s_alike (ZArrived a i) (ZArrived b i)
| sa_dead x : s_alike (ZDead x) (ZDead x).
Inductive u_alike : drt -> drt -> Prop :=
| ua r q q' z z' b b' e s : Forall2 pk_alike q q' -> s_alike z z' -> Forall2 rows_alike b b' -> u_alike (MkRt r q z b e s) (MkRt r q' z' b' e s).
Inductive p_alike : dphase -> dphase -> Prop :=
| pa_new : p_alike TNew TNew
| pa_op : p_alike TOpNew TOpNew
| pa_send id : p_alike (TSendRead id) (TSendRead id)
| pa_addnew a b r r' : alike a b -> rows_alike r r' -> p_alike (TAddNew a r) (TAddNew b r')
| pa_adding r r' t : rows_alike r r' -> p_alike (TAdding r t) (TAdding r' t)
| pa_added r r' : rows_alike r r' -> p_alike (TAdded r) (TAdded r')
| pa_readnew r r' : rows_alike r r' -> p_alike (TReadNew r) (TReadNew r')
| pa_reading s r r' : rows_alike r r' -> p_alike (TReading s r) (TReading s r')
| pa_popped s r r' a b : rows_alike r r' -> alike a b -> p_alike (TPopped s r a) (TPopped s r' b)
| pa_readend s r r' a b : rows_alike r r' -> alike a b -> p_alike (TReadEnd s r a) (TReadEnd s r' b)
| pa_recv id : p_alike (TRecvWrite id) (TRecvWrite id)
| pa_wait : p_alike THaltWait THaltWait
| pa_all : p_alike THaltAll THaltAll
| pa_stop : p_alike TStopNew TStopNew
| pa_poll t : p_alike (TPolling t) (TPolling t)
| pa_emptied : p_alike TEmptied TEmptied
| pa_sent n : p_alike (TSentWait n) (TSentWait n)
| pa_stopend : p_alike TStopEnd TStopEnd
| pa_end t : p_alike (TOpEnd t) (TOpEnd t)
| pa_done : p_alike TDone TDone.

(** If the first succeeds, so does the second, in the same way, or it raises an exception that [may] allows. *)
Definition res_alike (may : exn -> Prop) {A B} (R : A -> B -> Prop) (x : dres A) (y : dres B) : Prop :=
  match x with DGo a l => match y with DGo b l' => R a b /\ l = l' | DRaise e => may e | DStuck => False end | _ => True end.
Definition okr {A B} (may : exn -> Prop) (r : res A * B) (Q : A -> B -> Prop) : Prop := match r with (Ok a, x) => Q a x | (Raise e, _) => may e end.
Definition pair_alike {A B} (R : A -> B -> Prop) (x : A * sched) (y : B * sched) : Prop := R (fst x) (fst y) /\ snd x = snd y.
Definition both {A B C D} (R : A -> B -> Prop) (S : C -> D -> Prop) (x : A * C) (y : B * D) : Prop := R (fst x) (fst y) /\ S (snd x) (snd y).

Lemma res_go {may A B} (R : A -> B -> Prop) x y : pair_alike R x y -> res_alike may R (go x) (go y).
Proof. exact (fun H => H). Qed.
Lemma res_timeout {may A B} (R : A -> B -> Prop) d e a b : R a b -> res_alike may R (timeout d e a) (timeout d e b).
Proof. intros H. unfold timeout. destruct (d <? 0); [exact I|]. split; [exact H|reflexivity]. Qed.
Lemma res_map {may A B C D} (R : A -> B -> Prop) (S : C -> D -> Prop) f g x y : res_alike may R x y -> (forall a b, R a b -> S (f a) (g b)) ->
  res_alike may S (dmap f x) (dmap g y).
Proof. intros H F. destruct x as [a l| |]; [|exact I|exact I]. destruct y as [b l'| |]; [|exact H|destruct H]. destruct H as [H <-]. split; auto. Qed.
Lemma res_bind {may A B C D} (R : A -> B -> Prop) (S : C -> D -> Prop) x y f g : res_alike may R x y -> (forall a b, R a b -> res_alike may S (f a) (g b)) ->
  res_alike may S (dbind x f) (dbind y g).
Proof.
  intros H F. destruct x as [a l| |]; [|exact I|exact I]. cbn [dbind]. destruct y as [b l'| |]; cbn [dbind].
  - destruct H as [H <-]. specialize (F a b H). destruct (f a) as [p m| |]; [|exact I|exact I]. destruct (g b) as [q m'| |]; [|exact F|destruct F]. destruct F as [F <-]. now split.
  - destruct (f a); [exact H|exact I|exact I].
  - destruct H.
Qed.

Lemma res_cons {may A B} (R : A -> B -> Prop) e e' p q : pair_alike R p q -> e = e' ->
  res_alike may R (let '(d, l) := p in DGo d (e :: l)) (let '(d, l) := q in DGo d (e' :: l)).
Proof. destruct p as [a l], q as [b l']. intros [H E] <-. cbn in *. subst. now split. Qed.
Lemma forall2_length' {A B} (R : A -> B -> Prop) l l' : Forall2 R l l' -> length l = length l'.
Proof. induction 1; cbn; congruence. Qed.

Lemma rows_length a b : rows_alike a b -> length a = length b.
Proof. induction 1; cbn; congruence. Qed.
Lemma rows_zlen a b : rows_alike a b -> zlen a = zlen b.
Proof. intros H. unfold zlen. now rewrite (rows_length a b H). Qed.
Lemma concat_length a b : rows_alike a b -> zlen (concat a) = zlen (concat b).
Proof. unfold zlen. induction 1 as [|x y a b H _ IH]; [reflexivity|]. cbn [concat]. rewrite !app_length. unfold alike in H. lia. Qed.
Lemma req_length {g} a b : req_alike g a b -> q_length a = q_length b.
Proof. intros [id core st t x y [w v|p q H] _]; cbn [q_length q_kind]; [reflexivity|now apply concat_length]. Qed.
Lemma req_batches {g} a b : req_alike g a b -> q_batches a = q_batches b.
Proof. intros [id core st t x y [w v|p q H] _]; cbn [q_batches q_kind]; [reflexivity|now apply rows_zlen]. Qed.
Lemma req_id {g} a b : req_alike g a b -> q_id a = q_id b.
Proof. now intros []. Qed.
Lemma req_is_read {g} a b : req_alike g a b -> is_read a = is_read b.
Proof. now intros [id core st t x y []]. Qed.
Lemma req_stats {g} a b lat now s : req_alike g a b -> finish_stats lat now a s = finish_stats lat now b s.
Proof. intros H. unfold finish_stats. rewrite (req_batches a b H). destruct H. reflexivity. Qed.
Lemma block_alike a b s n : alike a b -> alike (block a s n) (block b s n).
Proof. unfold alike, block. intros H. now rewrite !firstn_length, !skipn_length, H. Qed.
Lemma rows_of_alike w v a b : alike a b -> rows_alike (rows_of w v a) (rows_of w v b).
Proof. intros H. unfold rows_of, rows_alike. induction (zrange v) as [|i l IH]; [constructor|]. constructor; [now apply block_alike|exact IH]. Qed.

Lemma forall2_nth {A B} (R : A -> B -> Prop) l l' n x : Forall2 R l l' -> nth_error l n = Some x -> exists y, nth_error l' n = Some y /\ R x y.
Proof.
  intros H; revert n; induction H as [|a b l l' E _ IH]; intros [|n]; cbn [nth_error]; try discriminate.
  - intros [= <-]. eauto.
  - apply IH.
Qed.
Lemma forall2_upd {A B} (R : A -> B -> Prop) l l' n x y : Forall2 R l l' -> R x y -> Forall2 R (upd l n x) (upd l' n y).
Proof.
  intros H E; revert n; induction H as [|a b l l' F G IH]; intros [|n]; cbn [upd]; try constructor; auto.
Qed.
Lemma forall2_snoc {A B} (R : A -> B -> Prop) l l' x y : Forall2 R l l' -> R x y -> Forall2 R (l ++ [x]) (l' ++ [y]).
Proof. intros H E. apply Forall2_app; [exact H|]. constructor; [exact E|constructor]. Qed.

Lemma has_more g e id n : has g id n -> has (g ++ e) id n.
Proof. intros [H E]. split; [exact H|]. rewrite nth_error_app1; [exact E|]. apply nth_error_Some. congruence. Qed.
Lemma has_new g n : has (g ++ [n]) (zlen g) n.
Proof. split; [unfold zlen; lia|]. unfold zlen. rewrite Nat2Z.id, nth_error_app2, Nat.sub_diag by lia. reflexivity. Qed.
Lemma has_same g id n m : has g id n -> has g id m -> n = m.
Proof. intros [_ E] [_ F]. congruence. Qed.
Lemma req_more g e a b : req_alike g a b -> req_alike (g ++ e) a b.
Proof. intros []. constructor; [assumption|now apply has_more]. Qed.
Lemma reqs_more g e l l' : Forall2 (req_alike g) l l' -> Forall2 (req_alike (g ++ e)) l l'.
Proof. induction 1; constructor; auto using req_more. Qed.
Lemma vals_more g e l l' : Forall2 (val_alike g) l l' -> Forall2 (val_alike (g ++ e)) l l'.
Proof. induction 1 as [|x y l l' [id a b H HG] _ IH]; constructor; auto. constructor; auto using has_more. Qed.

(** The instructions that a core has not carried out: the one in the execution stage (a load until it writes the registers), then those in the
    buffers, in the other stages and still to be put into the first buffer. *)
Definition in_exec (s : gstate) (x : xphase) : list cop :=
  match s with
  | GGot o => [o]
  | GWork o => match x with XLoading _ | XLoadNew _ | XLoadTiming _ => [o] | _ => [] end
  | _ => []
  end.
Definition in_stage (s : gstate) : list cop := match s with GGot o | GWork o | GPutting o => [o] | _ => [] end.
Definition left_of (w : list cop) (b : tri (list cop)) (s : tri gstate) (x : xphase) : list cop :=
  in_exec (t_x s) x ++ t_x b ++ in_stage (t_d s) ++ t_d b ++ in_stage (t_f s) ++ t_f b ++ w.
(** A load gets as many values as it asks for. *)
Definition load_len (g : list Z) (s : gstate) (x : xphase) : Prop :=
  match s with
  | GWork (CLoad _ _ w v) => match x with XLoading id => has g id (w * v) | XLoadNew a | XLoadTiming a => zlen a = w * v | _ => True end
  | _ => True
  end.
Lemma load_len_more g e s x : load_len g s x -> load_len (g ++ e) s x.
Proof. unfold load_len. destruct s as [| | |[]| | |]; auto. destruct x; auto. apply has_more. Qed.
(** The execution stage, or another one, holds no instruction that is not carried out. *)
Definition spent {K} (x : dcore K) (s : st) : Prop :=
  match s with SX => in_exec (t_x (k_stage x)) (k_xp x) = [] | _ => in_stage (tget (k_stage x) s) = [] end.

Section Shape.
Context {K1 M1 K2 M2 : Type} (P1 : machine K1 M1) (P2 : machine K2 M2) (c1 c2 : sys_cfg) (may : exn -> Prop) (RK : K1 -> K2 -> list cop -> Prop) (RM : M1 -> M2 -> Prop).

(** The two configurations have the same times. *)
Record same_times : Prop := {
  sm_net : y_net c1 = y_net c2; sm_lat : y_lat c1 = y_lat c2;
  sm_fetch : k_fetch_lat (y_core c1) = k_fetch_lat (y_core c2); sm_data : k_data_lat (y_core c1) = k_data_lat (y_core c2);
  sm_exec : forall o, exec_time (y_core c1) o = exec_time (y_core c2) o }.
(** What the first machine can do, the second can too, with the same addresses and lengths, unless it raises an allowed exception. *)
Record follows : Prop := {
  fo_local : forall k k' o l x, RK k k' (o :: l) -> is_memory_op o = false -> m_local P1 k o = (Ok tt, x) -> okr may (m_local P2 k' o) (fun _ x' => RK x x' l);
  fo_load : forall k k' d r w v l a x, RK k k' (CLoad d r w v :: l) -> m_load P1 k r = (Ok a, x) ->
    okr may (m_load P2 k' r) (fun a' x' => a' = a /\ RK x x' (CLoad d r w v :: l));
  fo_loaded : forall k k' d r w v l a b x, RK k k' (CLoad d r w v :: l) -> zlen a = w * v -> alike a b -> m_loaded P1 k d a = (Ok tt, x) ->
    okr may (m_loaded P2 k' d b) (fun _ x' => RK x x' l);
  fo_store : forall k k' d r w n l a v x, RK k k' (CStore d r w n :: l) -> m_store P1 k d r w n = (Ok (a, v), x) ->
    okr may (m_store P2 k' d r w n) (fun p x' => fst p = a /\ alike v (snd p) /\ RK x x' l);
  fo_ready : forall g m m' r r', RM m m' -> req_alike g r r' -> m_ready P1 m r = m_ready P2 m' r';
  fo_read : forall g m m' r r' v x, RM m m' -> req_alike g r r' -> is_read r = true -> m_read P1 m r = (Ok v, x) ->
    zlen v = q_length r /\ okr may (m_read P2 m' r') (fun v' x' => alike v v' /\ RM x x');
  fo_write : forall g m m' r r' l l' x, RM m m' -> req_alike g r r' -> q_kind r = RWrite l -> q_kind r' = RWrite l' -> rows_alike l l' ->
    m_write P1 m r l = (Ok tt, x) -> okr may (m_write P2 m' r' l') (fun _ x' => RM x x') }.
Context (T : same_times) (F : follows).

Inductive core_alike (g : list Z) : dcore K1 -> dcore K2 -> Prop :=
| ca k k' p cy w b s x x' cm m : RK k k' (left_of w b s x) -> load_len g (t_x s) x -> xp_alike x x' -> core_alike g (MkDCore k p cy w b s x cm m) (MkDCore k' p cy w b s x' cm m).
Inductive ctl_alike (g : list Z) : dctl M1 -> dctl M2 -> Prop :=
| la m m' r i i' h h' p p' s s' b b' w w' st t n v v' : RM m m' -> Forall2 (req_alike g) i i' -> h_alike g h h' -> Forall2 (req_alike g) p p' -> Forall2 (req_alike g) s s' ->
    b_alike g b b' -> Forall2 (req_alike g) w w' -> Forall2 (val_alike g) v v' -> n = zlen g -> ctl_alike g (MkCtl m r i h p s b w st t n v) (MkCtl m' r i' h' p' s' b' w' st t n v').
Inductive tile_alike : dtile K1 M1 -> dtile K2 M2 -> Prop :=
| ta g d d' u u' l l' p f f' cy e : ctl_alike g d d' -> u_alike u u' -> Forall2 (core_alike g) l l' -> p_alike f f' ->
    tile_alike (MkDTile d u l p f cy e) (MkDTile d' u' l' p f' cy e).
Inductive node_alike : dnode K1 M1 -> dnode K2 M2 -> Prop :=
| na l l' b n y m f : Forall2 tile_alike l l' -> node_alike (MkDNode l b n y m f) (MkDNode l' b n y m f).

Lemma core_more g e x y : core_alike g x y -> core_alike (g ++ e) x y.
Proof. intros []. constructor; auto using load_len_more. Qed.
Lemma cores_more g e l l' : Forall2 (core_alike g) l l' -> Forall2 (core_alike (g ++ e)) l l'.
Proof. induction 1; constructor; auto using core_more. Qed.

Ltac held := constructor; [match goal with H : RK _ _ _ |- _ => exact H end|first [exact I | assumption]|first [assumption | constructor; auto]].
Ltac same := first [exact I | split; [solve [held | constructor; auto]|reflexivity]].
(** Cases on what both sides have in common. *)
Ltac cases_same := repeat (first [same | match goal with |- context [match ?x with _ => _ end] => is_var x; destruct x end; cbn]).

Lemma pair_open {A B} (R : A -> B -> Prop) x y : pair_alike R x y -> exists a b l, x = (a, l) /\ y = (b, l) /\ R a b.
Proof. destruct x as [a l], y as [b l']. intros [H E]. cbn in *. subst. eauto 6. Qed.
Ltac pair_cases Q := apply pair_open in Q as (?a & ?b & ?l & -> & -> & ?HA).

(** *** Cores *)
Section Cores.
Context {g : list Z}.
Notation Pc := (pair_alike (core_alike g)).
Notation Rc := (res_alike may (core_alike g)).
Local Ltac open_core H := destruct H as [K K' p cy w [bf bd bx] [sf sd sx] xp xp' [cf cd cx] m HK HL HX].
Lemma buf_get_alike i k s x y : core_alike g x y -> Pc (buf_get i k s x) (buf_get i k s y).
Proof. intros H. open_core H. unfold buf_get. destruct s; cbn; cases_same. Qed.
Lemma buf_put_alike i k s x y : core_alike g x y -> Pc (buf_put i k s x) (buf_put i k s y).
Proof. intros H. open_core H. unfold buf_put. destruct s; cbn; cases_same. Qed.
Lemma set_comp_alike s o x y : core_alike g x y -> core_alike g (set_comp x s o) (set_comp y s o).
Proof. intros H. destruct H. now constructor. Qed.
Lemma set_mon_alike o x y : core_alike g x y -> core_alike g (set_mon x o) (set_mon y o).
Proof. intros H. destruct H. now constructor. Qed.
Lemma set_proc_alike a b x y : core_alike g x y -> core_alike g (set_proc x a b) (set_proc y a b).
Proof. intros H. destruct H. now constructor. Qed.
(** A stage that holds no instruction may get into a state in which it holds none. *)
Lemma set_stage_alike s o x y : core_alike g x y -> spent x s -> in_stage o = [] -> core_alike g (set_stage x s o) (set_stage y s o).
Proof.
  intros H HS HO. open_core H. destruct s; cbn in HS; unfold set_stage; cbn; (constructor; [| |exact HX]); unfold left_of in *; cbn in *; try exact HL.
  - rewrite HO. now rewrite HS in HK.
  - rewrite HO. now rewrite HS in HK.
  - assert (E : in_exec o xp = []) by (destruct o; try discriminate HO; reflexivity). rewrite E. now rewrite HS in HK.
  - destruct o; try discriminate HO; exact I.
Qed.
Lemma stage_get_alike i k s x y : core_alike g x y -> spent x s -> Pc (stage_get i k s x) (stage_get i k s y).
Proof. intros H HS. now apply buf_get_alike, set_stage_alike. Qed.
Lemma stage_end_alike i k s o x y : core_alike g x y -> spent x s -> Pc (stage_end i k s o x) (stage_end i k s o y).
Proof.
  intros H HS. unfold stage_end. destruct (is_hlt o); [|now apply stage_get_alike]. split; [|reflexivity]. apply set_stage_alike; [now apply set_comp_alike| |reflexivity].
  destruct x, s; exact HS.
Qed.
Lemma stage_put_alike i k s o x y : core_alike g x y -> s <> SX -> tget (k_stage x) s = GWork o -> Pc (stage_put i k s o x) (stage_put i k s o y).
Proof.
  intros H NX HS. destruct s; [| |congruence]; apply buf_put_alike; open_core H; cbn in HS; subst; unfold set_stage; cbn; (constructor; [exact HK|exact HL|exact HX]).
Qed.
Lemma stages_same x y : core_alike g x y -> k_stage x = k_stage y.
Proof. now intros []. Qed.
Lemma procs_same x y : core_alike g x y -> k_proc x = k_proc y /\ k_cycles x = k_cycles y /\ k_comp x = k_comp y /\ k_mon x = k_mon y.
Proof. now intros []. Qed.
Lemma xps_same x y : core_alike g x y -> xp_alike (k_xp x) (k_xp y).
Proof. now intros []. Qed.
Lemma core_start_alike b now i k x y : core_alike g x y -> Rc (core_start b now i k x) (core_start b now i k y).
Proof.
  intros H. unfold core_start. destruct (procs_same x y H) as (-> & -> & _). destruct (k_proc y); try exact I. destruct (now =? b); [|exact I]. cbn [negb].
  pose proof (buf_put_alike i k SF _ _ (set_proc_alike CRunning (k_cycles y) x y H)) as Q. pair_cases Q. now split.
Qed.
Lemma stage_start_alike i k s x y : core_alike g x y -> Rc (stage_start i k s x) (stage_start i k s y).
Proof. intros H. unfold stage_start. rewrite (stages_same x y H). destruct (tget (k_stage y) s) eqn:E; try exact I. apply res_go, stage_get_alike; [exact H|]. rewrite <- (stages_same x y H) in E. unfold spent. destruct s; cbn [tget] in *; now rewrite E. Qed.
Lemma on_put_alike i k s x y : core_alike g x y -> Rc (on_put i k s x) (on_put i k s y).
Proof.
  intros H. unfold on_put. pose proof (buf_get_alike i k s x y H) as Q. pair_cases Q.
  destruct s; [now split| |]; rewrite (stages_same _ _ HA);
    match goal with |- context [match ?g with _ => _ end] => destruct g eqn:E; try exact I end; rewrite <- (stages_same _ _ HA) in E;
    match goal with |- context [stage_end i k ?s ?o _] => assert (Q : Pc (stage_end i k s o a) (stage_end i k s o b)) by (apply stage_end_alike; [exact HA|unfold spent; cbn [tget]; now rewrite E]) end; pair_cases Q; now split.
Qed.
Lemma mon_wait_alike i k s x y n n' : core_alike g x y -> Pc n n' -> Pc (mon_wait i k x s n) (mon_wait i k y s n').
Proof. intros H N. unfold mon_wait. destruct (procs_same x y H) as (_ & _ & -> & _). destruct (tget _ _); try exact N; (split; [|reflexivity]); now apply set_mon_alike. Qed.
Lemma mon_end_alike i k x y : core_alike g x y -> Pc (mon_end i k x) (mon_end i k y).
Proof. intros H. split; [now apply set_mon_alike|reflexivity]. Qed.
Lemma mon_from_alike i k s x y : core_alike g x y -> Pc (mon_from i k s x) (mon_from i k s y).
Proof. intros H. destruct s; repeat (apply mon_wait_alike; [exact H|]); now apply mon_end_alike. Qed.
Lemma pipe_start_alike i k x y : core_alike g x y -> Rc (pipe_start i k x) (pipe_start i k y).
Proof. intros H. unfold pipe_start. destruct (procs_same x y H) as (_ & _ & _ & ->). destruct (k_mon y); try exact I. now apply res_go, mon_from_alike. Qed.
Lemma stage_done_alike i k s x y : core_alike g x y -> Rc (stage_done i k s x) (stage_done i k s y).
Proof.
  intros H. unfold stage_done. destruct (procs_same x y H) as (_ & _ & -> & ->). destruct (tget _ _); try exact I.
  pose proof (set_comp_alike s Processed x y H) as Q. destruct (k_mon y); try (now split). destruct (st_eqb s s0); [|now split]. now apply res_go, mon_from_alike.
Qed.
Lemma pipe_done_alike b now i k x y : core_alike g x y -> Rc (pipe_done b now i k x) (pipe_done b now i k y).
Proof.
  intros H. unfold pipe_done. destruct (procs_same x y H) as (-> & _ & _ & ->). destruct (k_proc y), (k_mon y); try exact I. split; [|reflexivity]. now apply set_proc_alike.
Qed.

(** *** The memory controller *)
Notation Pm := (pair_alike (ctl_alike g)).
Notation Rm := (res_alike may (ctl_alike g)).
Lemma req_get_alike i d d' : ctl_alike g d d' -> Pm (req_get i d) (req_get i d').
Proof.
  intros H. destruct H as [m m' r it it' h h' p p' s s' b b' w w' st t n v v' HM HI HH HP HS HB HW HV HG]. unfold req_get. cbn.
  destruct HH as [| |a b0 HR|x]; try (destruct x); destruct HI; cbn; split; try reflexivity; constructor; auto; constructor; auto.
Qed.
Lemma ctl_run_alike now i d d' : ctl_alike g d d' -> Pm (ctl_run now i d) (ctl_run now i d').
Proof. intros H. unfold ctl_run. destruct H. cbn. destruct r; split; try reflexivity; constructor; auto; constructor. Qed.
Lemma submit_alike now i core addr kd kd' d d' : kind_alike kd kd' -> ctl_alike g d d' ->
  res_alike may (fun p q => q_id (fst p) = q_id (fst q) /\ has (g ++ [dlen kd]) (q_id (fst p)) (dlen kd) /\ ctl_alike (g ++ [dlen kd]) (snd p) (snd q))
    (submit now i core addr kd d) (submit now i core addr kd' d').
Proof.
  intros HK H. destruct H as [m m' r it it' h h' p p' s s' b b' w w' st t n v v' HM HI HH HP HS HB HW HV HG]. unfold submit. cbn.
  destruct r; [|exact I]. assert (R : req_alike (g ++ [dlen kd]) (MkReq n core addr now kd) (MkReq n core addr now kd')) by (constructor; [exact HK|rewrite HG; apply has_new]).
  split; [|reflexivity]. split; [reflexivity|]. split; [cbn; rewrite HG; apply has_new|]. cbn [snd]. rewrite (req_is_read _ _ R), (req_batches _ _ R). constructor; auto using reqs_more, vals_more.
  - apply forall2_snoc; [now apply reqs_more|exact R].
  - destruct HH; constructor; auto using req_more.
  - destruct HB; constructor; auto using req_more.
  - rewrite HG. unfold zlen. rewrite app_length. cbn [length]. lia.
Qed.
Lemma handler_start_alike i d d' : ctl_alike g d d' -> Rm (handler_start i d) (handler_start i d').
Proof.
  intros H. unfold handler_start. destruct H as [m m' r it it' h h' p p' s s' b b' w w' st t n v v' HM HI HH HP HS HB HW HV HG].
  destruct HH; try exact I. apply res_go, req_get_alike. constructor; auto. constructor.
Qed.
Lemma on_req_alike i d d' : ctl_alike g d d' -> Rm (on_req P1 i d) (on_req P2 i d').
Proof.
  intros H. unfold on_req. destruct H as [m m' r it it' h h' p p' s s' b b' w w' st t n v v' HM HI HH HP HS HB HW HV HG].
  destruct HH as [| |a b0 HR|x]; cbn [c_handler]; try exact I; [|split; [|reflexivity]; constructor; auto; constructor].
  cbn [c_running]. destruct r; cbn [negb]; [|exact I]. cbn [c_mem]. rewrite (req_is_read _ _ HR), (fo_ready F g _ _ _ _ HM HR).
  destruct (is_read b0 && negb (m_ready P2 m' b0)).
  - apply res_go, req_get_alike. constructor; auto; [constructor|now apply forall2_snoc].
  - apply res_cons; [|now rewrite (req_id _ _ HR)]. apply req_get_alike. constructor; auto; [constructor|now apply forall2_snoc].
Qed.
Lemma handler_int_alike d d' : ctl_alike g d d' -> Rm (handler_int d) (handler_int d').
Proof.
  intros H. unfold handler_int. destruct H as [m m' r it it' h h' p p' s s' b b' w w' st t n v v' HM HI HH HP HS HB HW HV HG].
  cbn [c_running c_handler]. destruct r; [exact I|]. destruct HH; try exact I; (split; [|reflexivity]); constructor; auto; constructor.
Qed.
Lemma bus_give_alike i d d' : ctl_alike g d d' -> Pm (bus_give i d) (bus_give i d').
Proof.
  intros H. unfold bus_give. destruct H as [m m' r it it' h h' p p' s s' b b' w w' st t n v v' HM HI HH HP HS HB HW HV HG].
  cbn [c_bus c_waiting]. destruct HB; destruct HW; (split; [|reflexivity]); constructor; auto; constructor; auto.
Qed.
Lemma thread_start_alike i id d d' : ctl_alike g d d' -> Rm (thread_start i id d) (thread_start i id d').
Proof.
  intros H. unfold thread_start. destruct H as [m m' r it it' h h' p p' s s' b b' w w' st t n v v' HM HI HH HP HS HB HW HV HG].
  cbn [c_starting]. destruct HS as [|x y s s' HR HS]; [exact I|]. rewrite (req_id _ _ HR). destruct (q_id y =? id); [|exact I].
  apply res_go, bus_give_alike. constructor; auto. now apply forall2_snoc.
Qed.
Lemma on_grant_alike now i d d' : ctl_alike g d d' -> Rm (on_grant c1 now i d) (on_grant c2 now i d').
Proof.
  intros H. unfold on_grant. destruct H as [m m' r it it' h h' p p' s s' b b' w w' st t n v v' HM HI HH HP HS HB HW HV HG].
  cbn [c_bus]. destruct HB as [|x y HR|]; try exact I. rewrite (sm_lat T), (req_batches _ _ HR). apply res_timeout. constructor; auto. now constructor.
Qed.
Lemma remove_first_alike id l l' : Forall2 (req_alike g) l l' -> Forall2 (req_alike g) (remove_first id l) (remove_first id l').
Proof.
  induction 1 as [|x y l l' H G IH]; [constructor|]. cbn [remove_first]. rewrite (req_id _ _ H). destruct (q_id y =? id); [exact G|now constructor].
Qed.
Lemma release_alike m m' f : RM m m' -> forall j p p' q q', Forall2 (req_alike g) p p' -> Forall2 (req_alike g) q q' ->
  both (Forall2 (req_alike g)) (Forall2 (req_alike g)) (release_ready P1 f j m p q) (release_ready P2 f j m' p' q').
Proof.
  intros HM. induction f as [|f IH]; intros j p p' q q' HP HQ; [now split|]. cbn [release_ready].
  destruct (nth_error p j) as [r|] eqn:E.
  - destruct (forall2_nth _ _ _ _ _ HP E) as (r' & -> & HR). rewrite (fo_ready F g _ _ _ _ HM HR), (req_id _ _ HR).
    destruct (m_ready P2 m' r'); apply IH; auto; [now apply remove_first_alike|now apply forall2_snoc].
  - replace (nth_error p' j) with (@None req); [now split|]. symmetry. apply nth_error_None. apply nth_error_None in E.
    now rewrite <- (forall2_length' _ _ _ HP).
Qed.
Lemma thread_end_alike now i d d' : ctl_alike g d d' -> Rm (thread_end P1 c1 now i d) (thread_end P2 c2 now i d').
Proof.
  intros H. unfold thread_end. destruct H as [m m' r it it' h h' p p' s s' b b' w w' st t n v v' HM HI HH HP HS HB HW HV HG].
  cbn [c_bus]. destruct HB as [| |x y since HR]; try exact I. rewrite (sm_lat T), (req_batches _ _ HR).
  destruct (now <? _); [exact I|]. cbv zeta. cbn [c_mem c_stat c_running c_items c_handler c_pending c_starting c_waiting c_start c_next c_values].
  rewrite (req_stats _ _ (y_lat c2) now st HR).
  assert (EI : q_id x = q_id y) by (exact (req_id _ _ HR)). assert (EC : q_core x = q_core y) by (now destruct HR).
  destruct (q_kind x) as [bw nb|rows] eqn:KX.
  - assert (KY : q_kind y = RRead bw nb) by (destruct HR as [? ? ? ? ? ? HK]; cbn in *; subst; now inversion HK).
    rewrite KY. destruct (m_read P1 m x) as [[data|e] m1] eqn:ER; [|exact I].
    assert (RX : is_read x = true) by (unfold is_read; now rewrite KX). destruct (fo_read F g _ _ _ _ _ _ HM HR RX ER) as [LD Q].
    assert (HD : has g (q_id x) (zlen data)). { rewrite LD. unfold q_length. destruct HR as [? ? ? ? ? ? _ HD]. cbn in *. subst. exact HD. }
    destruct (m_read P2 m' y) as [[data'|e] m2]; [|exact Q]. destruct Q as [HA HM']. cbn. rewrite <- EI, <- EC. split; [|reflexivity].
    constructor; auto; [constructor|]. apply forall2_snoc; [exact HV|]. now constructor.
  - assert (KY : exists rows', q_kind y = RWrite rows' /\ rows_alike rows rows') by (destruct HR as [? ? ? ? ? ? HK]; cbn in *; subst; inversion HK; subst; eauto).
    destruct KY as (rows' & KY & HRW). rewrite KY. destruct (m_write P1 m x rows) as [[[]|e] m1] eqn:EW; [|exact I].
    assert (HD : has g (q_id x) 0). { destruct HR as [? ? ? ? ? ? _ HD]. cbn in *. now subst. }
    pose proof (fo_write F g _ _ _ _ _ _ _ HM HR KX KY HRW EW) as HM'. cbn [c_pending].
    rewrite (forall2_length' _ _ _ HP). destruct (m_write P2 m' y rows') as [[[]|e] m2]; [|destruct (release_ready P1 _ _ m1 p []); exact HM'].
    pose proof (release_alike _ _ (length p') HM' 0%nat p p' [] [] HP ltac:(constructor)) as [Q1 Q2].
    destruct (release_ready P1 _ _ m1 p []) as [pe ne]. destruct (release_ready P2 _ _ m2 p' []) as [pe' ne']. cbn [fst snd] in Q1, Q2.
    split.
    + cbn. rewrite <- EI. constructor; auto; [now apply Forall2_app|constructor|]. apply forall2_snoc; [exact HV|]. constructor; [reflexivity|exact HD].
    + rewrite EI, EC. f_equal. clear - Q2. induction Q2; [reflexivity|]. cbn. now f_equal.
Qed.
Lemma ctl_stop_alike now i d d' : ctl_alike g d d' -> Rm (ctl_stop now i d) (ctl_stop now i d').
Proof.
  intros H. unfold ctl_stop. destruct H as [m m' r it it' h h' p p' s s' b b' w w' st t n v v' HM HI HH HP HS HB HW HV HG].
  cbn [c_running c_pending]. destruct r; cbn [negb]; [|split; [|reflexivity]; now constructor].
  unfold zlen. rewrite (forall2_length' _ _ _ HP). destruct (Z.of_nat (length p') =? 0); [|exact I]. split; [|reflexivity]. now constructor.
Qed.
Inductive opt_alike {A B} (R : A -> B -> Prop) : option A -> option B -> Prop :=
| oa_some a b : R a b -> opt_alike R (Some a) (Some b)
| oa_none : opt_alike R None None.
Lemma value_alike id l l' : Forall2 (val_alike g) l l' -> opt_alike (fun a b => alike a b /\ has g id (zlen a)) (value_of id l) (value_of id l').
Proof.
  unfold value_of. induction 1 as [|x y l l' H _ IH]; [constructor|]. cbn [find]. destruct H as [z a b H HD]. cbn [fst].
  destruct (z =? id) eqn:E; [|exact IH]. apply Z.eqb_eq in E as <-. now constructor.
Qed.

(** *** The execution stage *)
Definition grown (p : dctl M1 * dcore K1) (q : dctl M2 * dcore K2) : Prop := exists e, ctl_alike (g ++ e) (fst p) (fst q) /\ core_alike (g ++ e) (snd p) (snd q).
Notation Rb := (res_alike may grown).
Lemma grown_here d d' x y : ctl_alike g d d' -> core_alike g x y -> grown (d, x) (d', y).
Proof. intros HD HC. exists []. cbn [fst snd]. now rewrite app_nil_r. Qed.
Lemma execute_alike now i k o d d' x y : ctl_alike g d d' -> core_alike g x y -> t_x (k_stage x) = GGot o -> Rb (execute P1 c1 now i k o d x) (execute P2 c2 now i k o d' y).
Proof.
  intros HD HC HS. open_core HC. cbn in HS. subst sx. unfold left_of in HK. cbn in HK. unfold execute. cbv zeta. cbn [k_core].
  assert (LOC : is_memory_op o = false -> Rb (match m_local P1 K o with
        | (Ok _, k1) => match exec_time (y_core c1) o with Ok t => timeout t (VTime i k SX) (d, set_xp (set_core (set_stage (MkDCore K p cy w (MkTri bf bd bx) (MkTri sf sd (GGot o)) xp (MkTri cf cd cx) m) SX (GWork o)) k1) XTiming) | Raise e => DRaise e end
        | (Raise e, _) => DRaise e end)
     (match m_local P2 K' o with
        | (Ok _, k1) => match exec_time (y_core c2) o with Ok t => timeout t (VTime i k SX) (d', set_xp (set_core (set_stage (MkDCore K' p cy w (MkTri bf bd bx) (MkTri sf sd (GGot o)) xp' (MkTri cf cd cx) m) SX (GWork o)) k1) XTiming) | Raise e => DRaise e end
        | (Raise e, _) => DRaise e end)).
  { intros NM. destruct (m_local P1 K o) as [[[]|e] k1] eqn:E; [|exact I]. pose proof (fo_local F _ _ _ _ _ HK NM E) as Q.
    rewrite (sm_exec T). destruct (m_local P2 K' o) as [[u|e] k2].
    - destruct (exec_time (y_core c2) o) as [t|e]; [|exact I]. apply res_timeout, grown_here; [exact HD|]. cbn. constructor; [exact Q| |constructor].
      cbn. destruct o; exact I.
    - destruct (exec_time (y_core c2) o) as [t|e']; [|exact I]. unfold timeout. destruct (t <? 0); [exact I|exact Q]. }
  destruct o as [dest rd wd vec|dest rd wd vec| | | | |]; try (apply LOC; reflexivity); clear LOC.
  - destruct (m_load P1 K rd) as [[a|e] k1] eqn:E; [|exact I]. pose proof (fo_load F _ _ _ _ _ _ _ _ _ HK E) as Q.
    assert (S : submit now i k a (RRead wd vec) d = submit now i k a (RRead wd vec) d) by reflexivity.
    destruct (m_load P2 K' rd) as [[a'|e] k2].
    + destruct Q as [-> HK']. eapply res_map; [apply submit_alike; [constructor|exact HD]|]. intros [r q] [r' q'] (HR & HN & HQ). cbn [fst snd] in *. exists [dlen (RRead wd vec)]. split; [exact HQ|]. cbn [snd].
      rewrite <- HR. cbn. constructor; [exact HK'|exact HN|constructor].
    + destruct (submit now i k a (RRead wd vec) d); [exact Q|exact I|exact I].
  - destruct (m_store P1 K dest rd wd vec) as [[[a v]|e] k1] eqn:E; [|exact I]. pose proof (fo_store F _ _ _ _ _ _ _ _ _ _ HK E) as Q.
    destruct (m_store P2 K' dest rd wd vec) as [[[a' v']|e] k2]; [|exact Q]. cbn in Q. destruct Q as (-> & HV & HK').
    split; [|reflexivity]. apply grown_here; [exact HD|]. cbn. constructor; [exact HK'|exact I|]. constructor. now apply rows_of_alike.
Qed.
Lemma on_got_alike now i k s d d' x y : ctl_alike g d d' -> core_alike g x y -> Rb (on_got P1 c1 now i k s d x) (on_got P2 c2 now i k s d' y).
Proof.
  intros HD HC. unfold on_got. pose proof (buf_put_alike i k s _ _ HC) as Q. pair_cases Q. rewrite (stages_same _ _ HA).
  destruct (tget (k_stage b) s) as [| |o| | | |] eqn:E; try exact I. rewrite <- (stages_same _ _ HA) in E.
  apply (res_bind grown); [split; [now apply grown_here|reflexivity]|]. intros _ _ _.
  destruct s; [rewrite (sm_fetch T)|rewrite (sm_data T)|now apply execute_alike];
    (apply res_timeout, grown_here; [exact HD|]); open_core HA; cbn in E; subst; cbn; (constructor; [exact HK|exact HL|exact HX]).
Qed.
Lemma on_time_alike i k s x y : core_alike g x y -> Rc (on_time i k s x) (on_time i k s y).
Proof.
  intros H. unfold on_time. rewrite (stages_same _ _ H). destruct (tget (k_stage y) s) as [| | |o| | |] eqn:E; try exact I. rewrite <- (stages_same _ _ H) in E.
  destruct s; [apply res_go, stage_put_alike; auto; discriminate|apply res_go, stage_put_alike; auto; discriminate|].
  open_core H. cbn in E. subst sx. cbn [k_xp]. destruct HX; try exact I. apply res_go, stage_end_alike; [|reflexivity]. cbn. constructor; [exact HK|destruct o; exact I|constructor].
Qed.
Lemma load_done_alike i k id v v' x y : Forall2 (val_alike g) v v' -> core_alike g x y -> Rc (load_done i k id v x) (load_done i k id v' y).
Proof.
  intros HV H. unfold load_done. pose proof (value_alike id _ _ HV) as Q. open_core H. cbn [k_xp k_stage t_x].
  destruct HX; try exact I; destruct sx as [| | |o| | |]; try exact I; (destruct Q as [a' b' [Q HD]|]; [|exact I]);
    match goal with |- context [id =? ?z] => destruct (id =? z) eqn:E; [|exact I]; apply Z.eqb_eq in E; subst id end; (split; [|reflexivity]); cbn.
  - constructor; [exact HK| |now constructor]. cbn in HL |- *. destruct o; try exact I. exact (has_same _ _ _ _ HD HL).
  - constructor; [exact HK| |constructor]. cbn. destruct o; exact I.
Qed.
Lemma load_new_alike i k x y : core_alike g x y -> Rc (load_new c1 i k x) (load_new c2 i k y).
Proof.
  intros H. unfold load_new. rewrite (sm_data T). open_core H. cbn [k_xp k_stage t_x]. destruct HX; try exact I. destruct sx as [| | |[]| | |]; try exact I.
  apply res_timeout. cbn. constructor; [exact HK|exact HL|now constructor].
Qed.
Lemma load_time_alike i k x y : core_alike g x y -> Rc (load_time P1 i k x) (load_time P2 i k y).
Proof.
  intros H. unfold load_time. open_core H. cbn [k_xp k_stage t_x k_core].
  destruct HX as [| | | |a b HX| | | | |]; try exact I. destruct sx as [| | |[dest rd wd vec| | | | | |]| | |]; try exact I.
  destruct (m_loaded P1 K dest a) as [[[]|e] k1] eqn:E; [|exact I]. pose proof (fo_loaded F _ _ _ _ _ _ _ _ _ _ HK HL HX E) as Q.
  destruct (m_loaded P2 K' dest b) as [[u|e] k2]; [|exact Q]. split; [|reflexivity]. cbn. constructor; [exact Q|exact I|constructor].
Qed.
Lemma store_new_alike i k x y : core_alike g x y -> Rc (store_new c1 i k x) (store_new c2 i k y).
Proof.
  intros H. unfold store_new. rewrite (sm_data T). open_core H. cbn [k_xp k_stage t_x]. destruct HX; try exact I. destruct sx as [| | |[]| | |]; try exact I.
  apply res_timeout. cbn. constructor; [exact HK|exact I|now constructor].
Qed.
Lemma store_time_alike now i k d d' x y : ctl_alike g d d' -> core_alike g x y -> Rb (store_time now i k d x) (store_time now i k d' y).
Proof.
  intros HD H. unfold store_time. open_core H. cbn [k_xp k_stage t_x]. destruct HX as [| | | | | | |s a b HX| |]; try exact I. destruct sx as [| | |o| | |]; try exact I.
  eapply res_map; [apply submit_alike; [now constructor|exact HD]|]. intros [r q] [r' q'] (HR & HN & HQ). cbn [fst snd] in *. eexists. split; [exact HQ|]. cbn [snd].
  rewrite <- HR. cbn. constructor; [exact HK|destruct o; exact I|constructor].
Qed.
Lemma memory_end_alike i k l x y : core_alike g x y -> Rc (memory_end i k l x) (memory_end i k l y).
Proof.
  intros H. unfold memory_end. open_core H. cbn [k_xp k_stage t_x]. destruct HX; try exact I; destruct sx as [| | |o| | |]; try exact I; (destruct l; try exact I);
    (apply res_go, stage_end_alike; [|reflexivity]); cbn; (constructor; [exact HK|destruct o; exact I|constructor]).
Qed.
End Cores.

(** *** The router *)
Notation Pu := (pair_alike u_alike).
Notation Ru := (res_alike may u_alike).
Lemma send_get_alike now i u u' : u_alike u u' -> Pu (send_get now i u) (send_get now i u').
Proof.
  intros H. destruct H as [r q q' z z' b b' e s HQ HZ HB]. unfold send_get. cbn [u_sender u_queue].
  destruct HZ; try destruct x; destruct HQ; (split; [|reflexivity]); constructor; auto; constructor; auto.
Qed.
Lemma sender_set z z' u u' : u_alike u u' -> s_alike z z' -> u_alike (rt_sender u z) (rt_sender u' z').
Proof. intros H. destruct H. now constructor. Qed.
Lemma event_set e u u' : u_alike u u' -> u_alike (rt_event u e) (rt_event u' e).
Proof. intros H. destruct H. now constructor. Qed.
Lemma stat_set e u u' : u_alike u u' -> u_alike (rt_stat u e) (rt_stat u' e).
Proof. intros H. destruct H. now constructor. Qed.
Lemma buffer_set s b b' u u' : u_alike u u' -> rows_alike b b' -> u_alike (rt_buffer u s b) (rt_buffer u' s b').
Proof. intros H HB. destruct H. constructor; auto. now apply forall2_upd. Qed.
Lemma queue_set q q' u u' : u_alike u u' -> Forall2 pk_alike q q' -> u_alike (rt_queue u q) (rt_queue u' q').
Proof. intros H. destruct H. now constructor. Qed.
Lemma rt_run_alike i u u' : u_alike u u' -> Pu (rt_run c1 i u) (rt_run c2 i u').
Proof.
  intros H. unfold rt_run. rewrite (sm_net T). destruct H as [r q q' z z' b b' e s HQ HZ HB]. cbn [u_running]. destruct r; split; try reflexivity; constructor; auto; try constructor.
  induction (zrange (w_nodes (y_net c2) * w_tiles (y_net c2))); constructor; auto. constructor.
Qed.
Lemma sender_start_alike now i u u' : u_alike u u' -> Ru (sender_start now i u) (sender_start now i u').
Proof.
  intros H. unfold sender_start. assert (HZ : s_alike (u_sender u) (u_sender u')) by now destruct H. destruct HZ; try exact I.
  apply res_go, send_get_alike, sender_set; [exact H|constructor].
Qed.
Lemma pk_same p p' : pk_alike p p' -> pk_src p = pk_src p' /\ pk_dst p = pk_dst p' /\ alike (pk_data p) (pk_data p').
Proof. now intros []. Qed.
Lemma events_same u u' : u_alike u u' -> u_event u = u_event u' /\ u_running u = u_running u' /\ u_stat u = u_stat u'.
Proof. now intros []. Qed.
Lemma senders_alike u u' : u_alike u u' -> s_alike (u_sender u) (u_sender u').
Proof. now intros []. Qed.
Lemma on_send_alike i u u' : u_alike u u' -> Ru (on_send c1 i u) (on_send c2 i u').
Proof.
  intros H. unfold on_send. rewrite (sm_net T). destruct (events_same _ _ H) as (-> & _ & _). destruct (senders_alike _ _ H) as [| |p p' t HP| | | | | |x]; try exact I; [|now split].
  destruct (pk_same _ _ HP) as (-> & -> & _). destruct (get_latency _ _ _) as [lat inter]. destruct (known_router _ _); [|exact I]. cbn [negb].
  apply res_timeout, event_set, sender_set; [exact H|now constructor].
Qed.
Lemma on_travel_alike now i u u' : u_alike u u' -> Ru (on_travel c1 now i u) (on_travel c2 now i u').
Proof.
  intros H. unfold on_travel. rewrite (sm_net T). destruct (senders_alike _ _ H) as [| | |p p' t b HP| | | | |]; try exact I.
  destruct (pk_same _ _ HP) as (-> & -> & _). destruct (now <? _); [exact I|]. split; [|reflexivity]. apply sender_set; [exact H|now constructor].
Qed.
Lemma on_arrived_alike now i u u' : u_alike u u' -> Ru (on_arrived now i u) (on_arrived now i u').
Proof.
  intros H. unfold on_arrived. destruct (events_same _ _ H) as (E & _ & E'). rewrite E, E'. destruct (senders_alike _ _ H) as [| | | | | | |p p' b HP|]; try exact I.
  destruct (u_event u') as [[n []]|]; try exact I. apply res_cons; [|reflexivity]. apply send_get_alike, event_set, sender_set; [now apply stat_set|constructor].
Qed.
Lemma sender_int_alike u u' : u_alike u u' -> Ru (sender_int u) (sender_int u').
Proof.
  intros H. unfold sender_int. destruct (events_same _ _ H) as (_ & -> & _). destruct (u_running u'); [exact I|]. destruct (senders_alike _ _ H); try exact I.
  split; [|reflexivity]. apply sender_set; [exact H|constructor].
Qed.

(** *** Tiles *)
Notation Pt := (pair_alike tile_alike).
Notation Rt := (res_alike may tile_alike).
(** The parts of two tiles, and tiles in which the memory controller, or it and a core, have changed. *)
Lemma tile_parts t t' : tile_alike t t' -> exists g, ctl_alike g (x_ctl t) (x_ctl t') /\ Forall2 (core_alike g) (x_cores t) (x_cores t') /\
  (forall e d d', ctl_alike (g ++ e) d d' -> tile_alike (dt_ctl t d) (dt_ctl t' d')) /\
  (forall d d', ctl_alike g d d' -> tile_alike (dt_ctl t d) (dt_ctl t' d')) /\
  (forall k p q, @grown g p q -> tile_alike (dt_core (dt_ctl t (fst p)) k (snd p)) (dt_core (dt_ctl t' (fst q)) k (snd q))).
Proof.
  intros H. destruct H as [g d d' u u' l l' p f f' cy e HD HU HL HF]. exists g. cbn [x_ctl x_cores]. split; [exact HD|]. split; [exact HL|].
  assert (A : forall e' d0 d0', ctl_alike (g ++ e') d0 d0' -> tile_alike (dt_ctl (MkDTile d u l p f cy e) d0) (dt_ctl (MkDTile d' u' l' p f' cy e) d0')).
  { intros e' d0 d0' H. unfold dt_ctl. cbn. apply (ta (g ++ e')); auto. now apply cores_more. }
  split; [exact A|]. split; [intros d0 d0' H; apply (A []); now rewrite app_nil_r|].
  intros k [d0 x] [d0' y] (e' & H & HC). cbn [fst snd] in *. unfold dt_ctl, dt_core. cbn. apply (ta (g ++ e')); auto. apply forall2_upd; [now apply cores_more|exact HC].
Qed.
Lemma rt_set u u' t t' : tile_alike t t' -> u_alike u u' -> tile_alike (dt_rt t u) (dt_rt t' u').
Proof. intros H. destruct H. intros. econstructor; eauto. Qed.
Lemma phase_set p p' t t' : tile_alike t t' -> p_alike p p' -> tile_alike (dt_phase t p) (dt_phase t' p').
Proof. intros H. destruct H. intros. econstructor; eauto. Qed.
Lemma tiles_same t t' : tile_alike t t' -> x_prog t = x_prog t' /\ x_cycles t = x_cycles t' /\ x_ended t = x_ended t'.
Proof. now intros []. Qed.
Lemma prog_same t t' : tile_alike t t' -> x_prog t = x_prog t'.
Proof. now intros []. Qed.
Lemma ended_same t t' : tile_alike t t' -> x_ended t = x_ended t'.
Proof. now intros []. Qed.
Lemma phases_alike t t' : tile_alike t t' -> p_alike (x_phase t) (x_phase t').
Proof. now intros []. Qed.
Lemma rts_alike t t' : tile_alike t t' -> u_alike (x_rt t) (x_rt t').
Proof. now intros []. Qed.
Lemma values_alike g d d' : ctl_alike g d d' -> Forall2 (val_alike g) (c_values d) (c_values d').
Proof. now intros []. Qed.
Lemma queues_alike u u' : u_alike u u' -> Forall2 pk_alike (u_queue u) (u_queue u').
Proof. now intros []. Qed.

Lemma next_instr_alike b now i t t' : tile_alike t t' -> Pt (next_instr b now i t) (next_instr b now i t').
Proof.
  intros H. unfold next_instr. rewrite (prog_same _ _ H). destruct (x_prog t'); split; try reflexivity.
  - destruct H. econstructor; eauto. constructor.
  - apply phase_set; [exact H|constructor].
Qed.
Lemma tile_start_alike b now i t t' : tile_alike t t' -> Rt (tile_start c1 b now i t) (tile_start c2 b now i t').
Proof.
  intros H. unfold tile_start. destruct (phases_alike _ _ H); try exact I. destruct (now =? b); [|exact I]. cbn [negb]. cbv zeta.
  destruct (tile_parts _ _ H) as (g & HD & HL & _ & HS & _).
  pose proof (ctl_run_alike now i _ _ HD) as Q1. pair_cases Q1.
  pose proof (rt_run_alike i _ _ (rts_alike _ _ H)) as Q2. pair_cases Q2.
  pose proof (next_instr_alike b now i _ _ (rt_set _ _ _ _ (HS _ _ HA) HA0)) as Q3. pair_cases Q3.
  rewrite (forall2_length' _ _ _ HL). now split.
Qed.
Lemma op_end_alike now i t t' : tile_alike t t' -> Pt (op_end now i t) (op_end now i t').
Proof. intros H. split; [|reflexivity]. apply phase_set; [exact H|constructor]. Qed.
Lemma on_op_end_alike b now i t t' : tile_alike t t' -> Rt (on_op_end b now i t) (on_op_end b now i t').
Proof.
  intros H. unfold on_op_end. pose proof (phases_alike _ _ H) as HP. destruct HP eqn:E; try exact I. destruct (now =? t0); [|exact I]. cbn [negb].
  apply res_go, next_instr_alike. destruct H; econstructor; eauto.
Qed.
Lemma send_rows_alike now i r r' t t' : rows_alike r r' -> tile_alike t t' -> Pt (send_rows now i r t) (send_rows now i r' t').
Proof.
  intros HR H. unfold send_rows. destruct HR; [now apply op_end_alike|]. split; [|reflexivity]. apply phase_set; [exact H|now constructor].
Qed.
Lemma recv_rows_alike now i a v g g' t t' : rows_alike g g' -> tile_alike t t' -> Rt (recv_rows now i a v g t) (recv_rows now i a v g' t').
Proof.
  intros HR H. unfold recv_rows. rewrite (rows_zlen _ _ HR). destruct (zlen g' <? v).
  - split; [|reflexivity]. apply phase_set; [exact H|now constructor].
  - destruct (tile_parts _ _ H) as (gh & HD & _ & HS & _). eapply res_map; [apply (submit_alike (g := gh)); [now constructor|exact HD]|]. intros [r q] [r' q'] (HQ & _ & HC). cbn [fst snd] in *.
    apply phase_set; [exact (HS _ _ _ HC)|]. rewrite HQ. constructor.
Qed.
Lemma begin_stop_alike i t t' : tile_alike t t' -> Pt (begin_stop i t) (begin_stop i t').
Proof. intros H. split; [|reflexivity]. apply phase_set; [exact H|constructor]. Qed.
Lemma over_same g l l' : Forall2 (core_alike g) l l' -> forallb core_over l = forallb core_over l'.
Proof. induction 1 as [|x y l l' H _ IH]; [reflexivity|]. cbn [forallb]. rewrite IH. f_equal. now destruct H. Qed.
Lemma on_op_alike now i t t' : tile_alike t t' -> Rt (on_op now i t) (on_op now i t').
Proof.
  intros H. unfold on_op. rewrite (prog_same _ _ H). destruct (phases_alike _ _ H); try exact I. destruct (x_prog t') as [|[a tg w v|a sr w v|] rest]; try exact I.
  - destruct (tile_parts _ _ H) as (gh & HD & _ & HS & _). eapply res_map; [apply (submit_alike (g := gh)); [constructor|exact HD]|]. intros [r q] [r' q'] (HQ & _ & HC). cbn [fst snd] in *.
    apply phase_set; [exact (HS _ _ _ HC)|]. rewrite HQ. constructor.
  - destruct ((w <? 0) || (v <? 0)); [exact I|]. apply recv_rows_alike; [constructor|exact H].
  - destruct (tile_parts _ _ H) as (gh & _ & HC & _). pose proof (over_same _ _ _ HC) as E. destruct HC as [|x y l l' HX HL]; [now apply res_go, begin_stop_alike|]. rewrite E.
    destruct (forallb core_over (y :: l')); (split; [|reflexivity]); apply phase_set; auto; constructor.
Qed.
Lemma tile_done_alike now i id t t' : tile_alike t t' -> Rt (tile_done now i id t) (tile_done now i id t').
Proof.
  intros H. unfold tile_done. rewrite (prog_same _ _ H). destruct (tile_parts _ _ H) as (gh & HD & _). pose proof (value_alike id _ _ (values_alike _ _ _ HD)) as HV.
  destruct (phases_alike _ _ H); try exact I; (destruct (x_prog t') as [|[a tg w v|a sr w v|] rest]; try exact I); (destruct HV as [p p' [HV _]|]; [|exact I]);
    (destruct (id =? _); [|exact I]); cbn [negb].
  - destruct ((w <? 0) || (v <? 0)); [exact I|]. apply res_go, send_rows_alike; [|exact H]. now apply rows_of_alike.
  - now apply res_go, op_end_alike.
Qed.
Lemma on_add_alike now i t t' : tile_alike t t' -> Rt (on_add c1 now i t) (on_add c2 now i t').
Proof.
  intros H. unfold on_add. rewrite (prog_same _ _ H), (sm_net T). destruct (phases_alike _ _ H) as [| | |a b r r' HA HR| | | | | | | | | | | | | | | |]; try exact I.
  destruct (x_prog t') as [|[ad tg w v|ad sr w v|] rest]; try exact I. eapply (res_bind tile_alike).
  - split; [|reflexivity]. apply rt_set; [exact H|]. apply queue_set; [now apply rts_alike|]. apply forall2_snoc; [now apply queues_alike, rts_alike|now constructor].
  - intros s s' HS. apply res_timeout, phase_set; [exact HS|now constructor].
Qed.
Lemma on_add_time_alike now i t t' : tile_alike t t' -> Rt (on_add_time c1 now i t) (on_add_time c2 now i t').
Proof.
  intros H. unfold on_add_time. rewrite (sm_net T). pose proof (rts_alike _ _ H) as HU. destruct (phases_alike _ _ H); try exact I. destruct (now <? _); [exact I|].
  split; [|reflexivity]. destruct (events_same _ _ HU) as (_ & _ & ->). apply phase_set; [|now constructor]. apply rt_set; [exact H|now apply stat_set].
Qed.
Lemma on_added_alike now i t t' : tile_alike t t' -> Rt (on_added now i t) (on_added now i t').
Proof. intros H. unfold on_added. destruct (phases_alike _ _ H); try exact I. now apply res_go, send_rows_alike. Qed.
Lemma on_read_end_alike now i t t' : tile_alike t t' -> Rt (on_read_end now i t) (on_read_end now i t').
Proof.
  intros H. unfold on_read_end. rewrite (prog_same _ _ H). destruct (phases_alike _ _ H) as [| | | | | | | | |s r r' a b HR HA| | | | | | | | | |]; try exact I.
  destruct (x_prog t') as [|[ad tg w v|ad sr w v|] rest]; try exact I. replace (zlen a) with (zlen b) by (unfold zlen; unfold alike in HA; lia). destruct (zlen b =? w).
  - apply recv_rows_alike; [now apply forall2_snoc|exact H].
  - now apply res_go, op_end_alike.
Qed.
Lemma on_stop_alike now i t t' : tile_alike t t' -> Rt (on_stop now i t) (on_stop now i t').
Proof.
  intros H. unfold on_stop. destruct (events_same _ _ (rts_alike _ _ H)) as (_ & -> & _). destruct (phases_alike _ _ H); try exact I.
  destruct (u_running (x_rt t')); (split; [|reflexivity]); apply phase_set; auto; constructor.
Qed.
Lemma on_poll_alike now i t t' : tile_alike t t' -> Rt (on_poll now i t) (on_poll now i t').
Proof.
  intros H. unfold on_poll. destruct (phases_alike _ _ H); try exact I. destruct (now <? _); [exact I|].
  destruct (queues_alike _ _ (rts_alike _ _ H)); (split; [|reflexivity]); apply phase_set; auto; constructor.
Qed.
Lemma on_poll_time_alike i t t' : tile_alike t t' -> Rt (on_poll_time i t) (on_poll_time i t').
Proof. intros H. unfold on_poll_time. destruct (phases_alike _ _ H); try exact I. now split. Qed.
Lemma router_stop_alike i t t' : tile_alike t t' -> Rt (router_stop i t) (router_stop i t').
Proof.
  intros H. unfold router_stop. pose proof (rts_alike _ _ H) as HU. cbv zeta. destruct HU as [r q q' z z' b b' e s HQ HZ HB]. cbn [u_sender]. destruct HZ; try exact I.
  split; [|reflexivity]. apply phase_set; [|constructor]. apply rt_set; [exact H|]. constructor; auto. constructor.
Qed.
Lemma on_empty_alike i t t' : tile_alike t t' -> Rt (on_empty i t) (on_empty i t').
Proof.
  intros H. unfold on_empty. destruct (events_same _ _ (rts_alike _ _ H)) as (-> & _ & _). destruct (phases_alike _ _ H); try exact I.
  destruct (u_event (x_rt t')) as [[n []]|]; try (now apply router_stop_alike); (split; [|reflexivity]); apply phase_set; auto; constructor.
Qed.
Lemma on_sent_alike i n t t' : tile_alike t t' -> Rt (on_sent i n t) (on_sent i n t').
Proof.
  intros H. unfold on_sent. destruct (events_same _ _ (rts_alike _ _ H)) as (-> & _ & _). destruct (u_event (x_rt t')) as [[m []]|]; try (now split).
  destruct (m =? n); [|now split]. cbv zeta. pose proof (rt_set _ _ _ _ H (event_set (Some (m, Processed)) _ _ (rts_alike _ _ H))) as Q.
  destruct (phases_alike _ _ H); try (now split). destruct (n0 =? n); [now apply router_stop_alike|now split].
Qed.
Lemma on_stopped_alike now i t t' : tile_alike t t' -> Rt (on_stopped now i t) (on_stopped now i t').
Proof.
  intros H. unfold on_stopped. destruct (phases_alike _ _ H); try exact I. destruct (tile_parts _ _ H) as (g & HD & _ & _ & HS & _). eapply res_bind; [exact (ctl_stop_alike _ _ _ _ HD)|].
  intros d d' HD'. now apply res_go, op_end_alike, HS.
Qed.
Lemma on_all_cores_alike i t t' : tile_alike t t' -> Rt (on_all_cores i t) (on_all_cores i t').
Proof. intros H. unfold on_all_cores. destruct (phases_alike _ _ H); try exact I. now apply res_go, begin_stop_alike. Qed.
Lemma core_end_alike i k t t' : tile_alike t t' -> Rt (core_end i k t) (core_end i k t').
Proof.
  intros H. unfold core_end. destruct (tile_parts _ _ H) as (g & HD & HL & _ & _ & HS). destruct (nth_error (x_cores t) (Z.to_nat k)) as [x|] eqn:E; [|exact I].
  destruct (forall2_nth _ _ _ _ _ HL E) as (y & -> & HC). destruct (procs_same _ _ HC) as (-> & -> & _). destruct (k_proc y); try exact I. cbv zeta.
  pose proof (set_proc_alike CEnded (k_cycles y) _ _ HC) as HC'. pose proof (HS k (x_ctl t, _) (x_ctl t', _) (grown_here _ _ _ _ HD HC')) as Q. cbn [fst snd] in Q.
  replace (dt_ctl t (x_ctl t)) with t in Q by (now destruct t). replace (dt_ctl t' (x_ctl t')) with t' in Q by (now destruct t').
  destruct (tile_parts _ _ Q) as (g' & _ & HL' & _). pose proof (over_same _ _ _ HL') as O.
  destruct (phases_alike _ _ H); try (now split). rewrite O. destruct (forallb core_over (x_cores (dt_core t' k (set_proc y CEnded (k_cycles y))))); [|now split]. split; [|reflexivity]. apply phase_set; [exact Q|constructor].
Qed.

(** *** The node *)
Notation Pn := (pair_alike node_alike).
Notation Rn := (res_alike may node_alike).
Lemma the_tile_alike n n' i t : node_alike n n' -> the_tile n i = Some t -> exists t', the_tile n' i = Some t' /\ tile_alike t t'.
Proof. intros H. unfold the_tile. destruct (i <? 0); [discriminate|]. destruct H. cbn [z_tiles]. now apply forall2_nth. Qed.
Lemma the_tile_none n n' i : node_alike n n' -> the_tile n i = None -> the_tile n' i = None.
Proof.
  intros H. unfold the_tile. destruct (i <? 0); [reflexivity|]. destruct H as [l l' b n y m f HL]. cbn [z_tiles]. rewrite !nth_error_None. now rewrite (forall2_length' _ _ _ HL).
Qed.
Lemma put_tile_alike n n' i t t' : node_alike n n' -> tile_alike t t' -> node_alike (put_tile n i t) (put_tile n' i t').
Proof. intros H HT. destruct H. constructor. now apply forall2_upd. Qed.
Lemma new_same t t' : tile_alike t t' -> is_new t = is_new t'.
Proof. intros H. unfold is_new. now destruct (phases_alike _ _ H). Qed.
Lemma on_tile_alike n n' i f f' : node_alike n n' -> (forall t t', tile_alike t t' -> Rt (f t) (f' t')) -> Rn (on_tile n i f) (on_tile n' i f').
Proof.
  intros H HF. unfold on_tile. destruct (the_tile n i) as [t|] eqn:E; [|exact I]. destruct (the_tile_alike _ _ _ _ H E) as (t' & -> & HT).
  rewrite (new_same _ _ HT). destruct (is_new t'); [exact I|]. eapply res_map; [now apply HF|]. intros a b HAB. now apply put_tile_alike.
Qed.
Lemma start_tile_alike n n' i now : node_alike n n' -> Rn (start_tile c1 n i now) (start_tile c2 n' i now).
Proof.
  intros H. unfold start_tile. destruct (the_tile n i) as [t|] eqn:E; [|exact I]. destruct (the_tile_alike _ _ _ _ H E) as (t' & -> & HT).
  replace (z_begin n') with (z_begin n) by (now destruct H). eapply res_map; [now apply tile_start_alike|]. intros a b HAB. now apply put_tile_alike.
Qed.
Lemma buffer_alike u u' s : u_alike u u' -> rows_alike (buffer_of u s) (buffer_of u' s).
Proof.
  intros H. unfold buffer_of. destruct H as [r q q' z z' b b' e st HQ HZ HB]. cbn [u_buffers]. generalize (Z.to_nat s). induction HB as [|x y b b' HX _ IH]; intros [|k]; cbn [nth]; auto; constructor.
Qed.
Lemma recv_put_alike s d n n' : node_alike n n' -> Rn (recv_put s d n) (recv_put s d n').
Proof.
  intros H. unfold recv_put. destruct (the_tile n s) as [t|] eqn:E; [|rewrite (the_tile_none _ _ _ H E); now split].
  destruct (the_tile_alike _ _ _ _ H E) as (t' & -> & HT). pose proof (rts_alike _ _ HT) as HU.
  destruct (senders_alike _ _ HU) as [| | | | |p p' b HP| | |]; try (now split). destruct (pk_same _ _ HP) as (_ & -> & HD).
  destruct (pk_dst p' =? d); [|now split]. cbn [negb]. cbv zeta.
  assert (Q : node_alike (put_tile n s (dt_rt t (rt_sender (x_rt t) (ZPut p b)))) (put_tile n' s (dt_rt t' (rt_sender (x_rt t') (ZPut p' b))))).
  { apply put_tile_alike; [exact H|]. apply rt_set; [exact HT|]. apply sender_set; [exact HU|now constructor]. }
  destruct (the_tile (put_tile n s _) d) as [r|] eqn:E2; [|exact I]. destruct (the_tile_alike _ _ _ _ Q E2) as (r' & -> & HR).
  rewrite (new_same _ _ HR). destruct (buffer_alike _ _ s (rts_alike _ _ HR)); [|now split]. destruct (is_new r'); [exact I|].
  split; [|reflexivity]. apply put_tile_alike; [exact Q|]. apply rt_set; [exact HR|]. apply buffer_set; [now apply rts_alike|]. constructor; [exact HD|constructor].
Qed.
Lemma recv_get_alike s d n n' : node_alike n n' -> Rn (recv_get s d n) (recv_get s d n').
Proof.
  intros H. unfold recv_get. destruct (the_tile n d) as [t|] eqn:E; [|rewrite (the_tile_none _ _ _ H E); now split].
  destruct (the_tile_alike _ _ _ _ H E) as (t' & -> & HT). pose proof (rts_alike _ _ HT) as HU.
  destruct (phases_alike _ _ HT) as [| | | | | | |sr g g' HG| | | | | | | | | | | |]; try (now split). destruct (sr =? s); [|now split]. cbn [negb].
  destruct (buffer_alike _ _ s HU) as [|x y b b' HX HB]; [now split|]. split; [|reflexivity]. apply put_tile_alike; [exact H|].
  apply phase_set; [|now constructor]. apply rt_set; [exact HT|]. now apply buffer_set.
Qed.
Lemma on_offer_alike i n n' : node_alike n n' -> Rn (on_offer c1 i n) (on_offer c2 i n').
Proof.
  intros H. unfold on_offer. rewrite (sm_net T). destruct (the_tile n i) as [t|] eqn:E; [|exact I]. destruct (the_tile_alike _ _ _ _ H E) as (t' & -> & HT).
  pose proof (rts_alike _ _ HT) as HU. destruct (senders_alike _ _ HU) as [| | | |p p' b HP| | | |]; try exact I. destruct (pk_same _ _ HP) as (-> & -> & HD).
  destruct (buffer_key _ _ _); [|exact I]. cbn [negb]. apply recv_put_alike, put_tile_alike; [exact H|]. apply rt_set; [exact HT|]. apply sender_set; [exact HU|now constructor].
Qed.
Lemma on_taken_alike i n n' : node_alike n n' -> Rn (on_taken i n) (on_taken i n').
Proof.
  intros H. unfold on_taken. destruct (the_tile n i) as [t|] eqn:E; [|exact I]. destruct (the_tile_alike _ _ _ _ H E) as (t' & -> & HT).
  destruct (senders_alike _ _ (rts_alike _ _ HT)) as [| | | | | |p p' b HP| |]; try exact I. destruct (pk_same _ _ HP) as (_ & -> & HD).
  eapply res_bind; [now apply recv_get_alike|]. intros m m' HM. eapply res_bind.
  - apply on_tile_alike; [exact HM|]. intros r r' HR. split; [|reflexivity]. apply rt_set; [exact HR|]. apply sender_set; [now apply rts_alike|now constructor].
  - intros q q' HQ. apply on_tile_alike; [exact HQ|]. intros r r' HR. cbv zeta. destruct (events_same _ _ (rts_alike _ _ HR)) as (_ & _ & ->). split; [|reflexivity].
    apply rt_set; [exact HR|]. now apply stat_set, rts_alike.
Qed.
Lemma on_read_alike i n n' : node_alike n n' -> Rn (on_read c1 i n) (on_read c2 i n').
Proof.
  intros H. unfold on_read. rewrite (sm_net T). destruct (the_tile n i) as [t|] eqn:E; [|exact I]. destruct (the_tile_alike _ _ _ _ H E) as (t' & -> & HT).
  rewrite (prog_same _ _ HT). destruct (phases_alike _ _ HT); try exact I. destruct (x_prog t') as [|[ad tg w v|ad sr w v|] rest]; try exact I.
  destruct (buffer_key _ _ _); [|exact I]. cbn [negb]. apply recv_get_alike, put_tile_alike; [exact H|]. apply phase_set; [exact HT|now constructor].
Qed.
Lemma on_popped_alike i n n' : node_alike n n' -> Rn (on_popped i n) (on_popped i n').
Proof.
  intros H. unfold on_popped. destruct (the_tile n i) as [t|] eqn:E; [|exact I]. destruct (the_tile_alike _ _ _ _ H E) as (t' & -> & HT).
  destruct (phases_alike _ _ HT); try exact I. eapply res_bind; [now apply recv_put_alike|]. intros m m' HM. apply on_tile_alike; [exact HM|]. intros q q' HQ.
  cbv zeta. destruct (events_same _ _ (rts_alike _ _ HQ)) as (_ & _ & ->). split; [|reflexivity]. apply phase_set; [|now constructor]. apply rt_set; [exact HQ|]. now apply stat_set, rts_alike.
Qed.
Lemma busy_same t t' : tile_alike t t' -> rt_busy (x_rt t) = rt_busy (x_rt t').
Proof.
  intros H. unfold rt_busy. destruct (events_same _ _ (rts_alike _ _ H)) as (_ & -> & _). unfold zlen. now rewrite (forall2_length' _ _ _ (queues_alike _ _ (rts_alike _ _ H))).
Qed.
Lemma on_monitor_alike now n n' : node_alike n n' -> Rn (on_monitor now n) (on_monitor now n').
Proof.
  intros H. unfold on_monitor. destruct H as [l l' b nx y m f HL]. cbn [z_monitor z_next z_tiles z_begin z_busy z_fin]. destruct m; cbn [negb]; [|split; [now constructor|reflexivity]].
  destruct (now =? nx); cbn [negb]; [|exact I]. split; [|reflexivity].
  replace (existsb (fun t => rt_busy (x_rt t)) l') with (existsb (fun t => rt_busy (x_rt t)) l); [now constructor|].
  clear - HL. induction HL as [|t t' l l' HT _ IH]; [reflexivity|]. cbn [existsb]. now rewrite IH, (busy_same _ _ HT).
Qed.
Lemma all_ended l l' : Forall2 tile_alike l l' -> forallb x_ended l = forallb x_ended l'.
Proof. induction 1 as [|t t' l l' HT _ IH]; [reflexivity|]. cbn [forallb]. now rewrite IH, (ended_same _ _ HT). Qed.
Lemma tile_end_alike i n n' : node_alike n n' -> Rn (tile_end i n) (tile_end i n').
Proof.
  intros H. unfold tile_end. eapply res_bind.
  - apply on_tile_alike; [exact H|]. intros t t' HT. pose proof (phases_alike _ _ HT) as HP. destruct HP eqn:E; try exact I. split; [|reflexivity]. destruct HT; econstructor; eauto.
  - intros m m' HM. split; [exact HM|]. destruct HM as [l l' b nx y m f HL]. cbn [z_tiles]. now rewrite (all_ended _ _ HL).
Qed.
Lemma ends_alike' n n' : node_alike n n' -> Rn (all_tiles n) (all_tiles n') /\ Rn (monitor_int n) (monitor_int n') /\ Rn (node_end n) (node_end n') /\ Rn (run_end n) (run_end n').
Proof.
  intros [l l' b nx y m f HL]. unfold all_tiles, monitor_int, node_end, run_end. cbn [z_fin z_tiles z_begin z_next z_busy]. rewrite (all_ended _ _ HL).
  repeat split; destruct f; try exact I; try destruct (forallb x_ended l'); try exact I; cbn; (split; [now constructor|reflexivity]).
Qed.
Lemma on_core2_alike n n' i k f f' : node_alike n n' -> (forall g d d' x y, ctl_alike g d d' -> core_alike g x y -> res_alike may (@grown g) (f d x) (f' d' y)) -> Rn (on_core2 n i k f) (on_core2 n' i k f').
Proof.
  intros H HF. apply on_tile_alike; [exact H|]. intros t t' HT. destruct (k <? 0); [exact I|]. destruct (tile_parts _ _ HT) as (g & HD & HL & _ & _ & HS).
  destruct (nth_error (x_cores t) (Z.to_nat k)) as [x|] eqn:E; [|exact I].
  destruct (forall2_nth _ _ _ _ _ HL E) as (y & -> & HC). eapply res_map; [exact (HF g _ _ _ _ HD HC)|]. intros p q HG. exact (HS k p q HG).
Qed.
Lemma on_core_alike n n' i k f f' : node_alike n n' -> (forall g x y, core_alike g x y -> res_alike may (core_alike g) (f x) (f' y)) -> Rn (on_core n i k f) (on_core n' i k f').
Proof.
  intros H HF. apply on_core2_alike; [exact H|]. intros g d d' x y HD HC. eapply res_map; [exact (HF g _ _ HC)|]. intros a b HAB. now apply grown_here.
Qed.
Lemma on_ctl_alike n n' i f f' : node_alike n n' -> (forall g d d', ctl_alike g d d' -> res_alike may (ctl_alike g) (f d) (f' d')) -> Rn (on_ctl n i f) (on_ctl n' i f').
Proof.
  intros H HF. apply on_tile_alike; [exact H|]. intros t t' HT. destruct (tile_parts _ _ HT) as (g & HD & _ & _ & HS & _). eapply res_map; [exact (HF g _ _ HD)|]. intros a b HAB. now apply HS.
Qed.
Lemma on_rt_alike n n' i f f' : node_alike n n' -> (forall d d', u_alike d d' -> Ru (f d) (f' d')) -> Rn (on_rt n i f) (on_rt n' i f').
Proof. intros H HF. apply on_tile_alike; [exact H|]. intros t t' HT. eapply res_map; [apply HF, rts_alike, HT|]. intros a b HAB. now apply rt_set. Qed.

Theorem fire_alike now e n n' : node_alike n n' -> Rn (fire P1 c1 now e n) (fire P2 c2 now e n').
Proof.
  intros H. destruct (ends_alike' _ _ H) as (E1 & E2 & E3 & E4). assert (B : z_begin n' = z_begin n) by now destruct H. destruct e; cbn [fire]; rewrite ?B; auto.
  - now apply on_monitor_alike.
  - now apply start_tile_alike.
  - apply on_core_alike; [exact H|]. intros. now apply core_start_alike.
  - apply on_core_alike; [exact H|]. intros. now apply stage_start_alike.
  - apply on_core_alike; [exact H|]. intros. now apply pipe_start_alike.
  - apply on_core_alike; [exact H|]. intros. now apply on_put_alike.
  - apply on_core2_alike; [exact H|]. intros. now apply on_got_alike.
  - apply on_core_alike; [exact H|]. intros. now apply on_time_alike.
  - apply on_core_alike; [exact H|]. intros. now apply load_new_alike.
  - apply on_core_alike; [exact H|]. intros. now apply load_time_alike.
  - apply on_core_alike; [exact H|]. intros. now apply memory_end_alike.
  - apply on_core_alike; [exact H|]. intros. now apply store_new_alike.
  - apply on_core2_alike; [exact H|]. intros. now apply store_time_alike.
  - apply on_core_alike; [exact H|]. intros. now apply memory_end_alike.
  - apply on_core_alike; [exact H|]. intros. now apply stage_done_alike.
  - apply on_core_alike; [exact H|]. intros. now apply pipe_done_alike.
  - destruct (k <? 0); apply on_tile_alike; auto; [intros; exact I|]. intros. now apply core_end_alike.
  - apply on_ctl_alike; [exact H|]. intros. now apply handler_start_alike.
  - apply on_ctl_alike; [exact H|]. intros. now apply res_go, req_get_alike.
  - apply on_ctl_alike; [exact H|]. intros. now apply on_req_alike.
  - apply on_ctl_alike; [exact H|]. intros. now apply handler_int_alike.
  - apply on_ctl_alike; [exact H|]. intros. now apply thread_start_alike.
  - apply on_ctl_alike; [exact H|]. intros. now apply on_grant_alike.
  - apply on_ctl_alike; [exact H|]. intros. now apply thread_end_alike.
  - apply on_ctl_alike; [exact H|]. intros. now apply res_go, bus_give_alike.
  - destruct (k =? -1); [apply on_tile_alike; auto; intros; now apply tile_done_alike|]. apply on_core2_alike; [exact H|]. intros g d d' x y HD HC.
    eapply res_map; [apply (load_done_alike (g := g)); [now apply values_alike|exact HC]|]. intros a b HAB. now apply grown_here.
  - apply on_rt_alike; [exact H|]. intros. now apply sender_start_alike.
  - apply on_rt_alike; [exact H|]. intros. now apply res_go, send_get_alike.
  - apply on_rt_alike; [exact H|]. intros. now apply on_send_alike.
  - apply on_rt_alike; [exact H|]. intros. now apply on_travel_alike.
  - now apply on_offer_alike.
  - now apply on_taken_alike.
  - apply on_rt_alike; [exact H|]. intros. now apply on_arrived_alike.
  - apply on_tile_alike; [exact H|]. intros. now apply on_sent_alike.
  - apply on_rt_alike; [exact H|]. intros. now apply sender_int_alike.
  - apply on_tile_alike; [exact H|]. intros. now apply on_op_alike.
  - apply on_tile_alike; [exact H|]. intros. now apply on_op_end_alike.
  - now apply tile_end_alike.
  - apply on_tile_alike; [exact H|]. intros. now apply on_add_alike.
  - apply on_tile_alike; [exact H|]. intros. now apply on_add_time_alike.
  - apply on_tile_alike; [exact H|]. intros. now apply on_added_alike.
  - now apply on_read_alike.
  - now apply on_popped_alike.
  - apply on_tile_alike; [exact H|]. intros. now apply on_read_end_alike.
  - apply on_tile_alike; [exact H|]. intros. now apply on_all_cores_alike.
  - apply on_tile_alike; [exact H|]. intros. now apply on_stop_alike.
  - apply on_tile_alike; [exact H|]. intros. now apply on_poll_alike.
  - apply on_tile_alike; [exact H|]. intros. now apply on_poll_time_alike.
  - apply on_tile_alike; [exact H|]. intros. now apply on_empty_alike.
  - apply on_tile_alike; [exact H|]. intros. now apply on_stopped_alike.
Qed.

(** *** Runs *)
Inductive des_alike : @des K1 M1 -> @des K2 M2 -> Prop := da t q n n' : node_alike n n' -> des_alike (MkDes t q n) (MkDes t q n').
Lemma step_alike s s' r : des_alike s s' -> des_step P1 c1 s = NStep r ->
  (exists r', des_step P2 c2 s' = NStep r' /\ des_alike r r') \/ (exists e, des_step P2 c2 s' = NRaise e /\ may e).
Proof.
  intros [t q n n' H]. unfold des_step. cbn [w_node w_queue]. replace (z_fin n') with (z_fin n) by (now destruct H).
  destruct (z_fin n); try discriminate; (destruct q as [|x q]; [discriminate|]); pose proof (fire_alike (e_time x) (e_ev x) _ _ H) as Q;
    (destruct (fire P1 c1 _ _ n) as [m l| |]; try discriminate); (destruct (fire P2 c2 _ _ n') as [m' l'|e|]; [|right; eauto|destruct Q]); destruct Q as [Q <-]; intros [= <-];
    left; eexists; (split; [reflexivity|]); now constructor.
Qed.
Lemma over_alike s s' : des_alike s s' -> des_step P1 c1 s = NOver -> des_step P2 c2 s' = NOver.
Proof.
  intros [t q n n' H]. unfold des_step. cbn [w_node w_queue]. replace (z_fin n') with (z_fin n) by (now destruct H).
  destruct (z_fin n); try reflexivity; (destruct q as [|x q]; [discriminate|]); destruct (fire P1 c1 _ _ n); discriminate.
Qed.
Inductive steps_to {K M} (P : machine K M) (c : sys_cfg) : @des K M -> @des K M -> Prop :=
| so_here s : steps_to P c s s
| so_next s r e : des_step P c s = NStep r -> steps_to P c r e -> steps_to P c s e.
Lemma run_steps {K M} (P : machine K M) c f : forall s, steps_to P c s (fst (des_run P c f s)).
Proof.
  induction f as [|f IH]; intros s; [constructor|]. cbn [des_run]. destruct (des_step P c s) as [r| | | |] eqn:E; try constructor. now apply (so_next _ _ _ r).
Qed.
Lemma steps_alike s e : steps_to P1 c1 s e -> forall s', des_alike s s' ->
  (exists e', steps_to P2 c2 s' e' /\ des_alike e e') \/ (exists e' x, steps_to P2 c2 s' e' /\ des_step P2 c2 e' = NRaise x /\ may x).
Proof.
  induction 1 as [s|s r e E _ IH]; intros s' H; [left; exists s'; split; [constructor|exact H]|]. destruct (step_alike _ _ _ H E) as [(r' & E' & HR)|(x & E' & M)].
  - destruct (IH r' HR) as [(e' & S & HE)|(e' & x & S & HE)]; [left; exists e'|right; exists e', x]; (split; [now apply (so_next _ _ _ r')|exact HE]).
  - right. exists s', x. repeat split; auto. constructor.
Qed.
End Shape.
