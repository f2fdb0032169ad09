(** Concrete executions of a node. *)
From Verif Require Import PyBase PyLemmas MemoryModel VfuModel FloatModel MvmuModel CoreModel CoreUse DramModel DramSpec DramProofs RouterModel RouterSpec
  SystemModel SystemSpec SystemBase SystemInv SystemDet SystemDeadlock SystemClaims.
From Coq Require Import ZifyBool ZifyNat.

(** ** A scheduler: the first enabled action of a list, else the clock advances *)
Definition tile_actions (cores : Z) (i : Z) : list sact :=
  map (SDram i) [AFinish; AGrant; AHandle] ++
  map SNet [NAdded i; NStore i; NCount i; NDone i; NPop i; NTravel i; NTake i; NPoll i; NStopped i] ++
  map (SCore i) (zrange cores) ++ [STile i].
Fixpoint first_enabled (capacity : Z) (c : sys_cfg) (t : Z) (l : list sact) (s : sys) : option (sact * sys) :=
  match l with
  | [] => None
  | a :: l' => match sstep_cap capacity c t a s with Some s' => Some (a, s') | None => first_enabled capacity c t l' s end
  end.
Fixpoint schedule (fuel : nat) (capacity : Z) (c : sys_cfg) (t : Z) (l : list sact) (s : sys) : list (Z * sact) * Z * sys :=
  match fuel with
  | O => ([], t, s)
  | S f => match first_enabled capacity c t l s with
           | Some (a, s') => let '(r, t', s'') := schedule f capacity c t l s' in ((t, a) :: r, t', s'')
           | None => schedule f capacity c (t + 1) l s
           end
  end.
Definition scheduled (x : list (Z * sact) * Z * sys) : list (Z * sact) := fst (fst x).

Definition three : sys_cfg := MkSysCfg (MkNetCfg 3 1 3 8 2) (pair_core 1 1) 1 8 2.
Definition acts3 : list sact := flat_map (tile_actions 1) [0; 1; 2].
Definition hol_run : list (Z * sact) := Eval vm_compute in scheduled (schedule 200 2 three 0 acts3 (sys_start three 0 hol_job)).

(** Two sends, a matching receive, and a receive of another width; one core on each tile. *)
Definition busy_core (value : Z) : core * list cop := (core_init (pair_core 1 1), [CSet 8 4 1; CSet 9 value 1; CStore 8 9 1 1; CLoad 10 8 1 1; CHlt]).
Definition copy_job : job :=
  MkJob (fun i => if i =? 0 then [TSend 0 1 2 2; TSend 1 1 2 1; THalt] else if i =? 1 then [TRecv 2 0 2 2; TRecv 0 0 3 1; THalt] else [THalt])
    (fun i => if i =? 0 then [busy_core 77] else []) [5; 6; 7; 8].
Definition copy_run : list (Z * sact) := Eval vm_compute in scheduled (schedule 200 1 three 0 acts3 (sys_start three 0 copy_job)).
Definition copy_end : sys := match srun 1 three copy_run (sys_start three 0 copy_job) with Some s => s | None => sys_start three 0 copy_job end.

(** Two cores storing to the same address. *)
Definition race_job : job := MkJob (fun _ => [THalt]) (fun i => if i =? 0 then [busy_core 1; busy_core 2] else []) [].
Definition race_run (order : list sact) : list (Z * sact) := scheduled (schedule 100 1 three 0 order (sys_start three 0 race_job)).
Definition race_one : list (Z * sact) := Eval vm_compute in race_run (map (SDram 0) [AFinish; AGrant; AHandle] ++ [SCore 0 0; SCore 0 1; STile 0; STile 1; STile 2] ++ map SNet [NPoll 0; NStopped 0; NPoll 1; NStopped 1; NPoll 2; NStopped 2]).
Definition race_two : list (Z * sact) := Eval vm_compute in race_run (map (SDram 0) [AFinish; AGrant; AHandle] ++ [SCore 0 1; SCore 0 0; STile 0; STile 1; STile 2] ++ map SNet [NPoll 0; NStopped 0; NPoll 1; NStopped 1; NPoll 2; NStopped 2]).
Definition race_end (l : list (Z * sact)) : sys := match srun 1 three l (sys_start three 0 race_job) with Some s => s | None => sys_start three 0 race_job end.

(** The same programs without halts; the core is never scheduled. *)
Definition open_job : job :=
  MkJob (fun i => if i =? 0 then [TSend 0 1 2 2; TSend 1 1 2 1] else if i =? 1 then [TRecv 2 0 2 2; TRecv 0 0 3 1] else [])
    (fun i => if i =? 0 then [busy_core 77] else []) [5; 6; 7; 8].
Definition open_run : list (Z * sact) :=
  Eval vm_compute in scheduled (schedule 200 1 three 0 (flat_map (tile_actions 0) [0; 1; 2]) (sys_start three 0 open_job)).
Definition open_end : sys := match srun 1 three open_run (sys_start three 0 open_job) with Some s => s | None => sys_start three 0 open_job end.

(** The copy on a node with other latencies. *)
Definition slow : sys_cfg := MkSysCfg (MkNetCfg 3 1 11 8 1) (pair_core 1 1) 1 8 5.
Definition slow_run : list (Z * sact) := Eval vm_compute in scheduled (schedule 300 1 slow 0 (rev acts3) (sys_start slow 0 copy_job)).
Definition slow_end : sys := match srun 1 slow slow_run (sys_start slow 0 copy_job) with Some s => s | None => sys_start slow 0 copy_job end.

Lemma srun_reach c j l : forall t s s', sreach c j t s -> sascending t l = true -> srun 1 c l s = Some s' -> exists t', sreach c j t' s'.
Proof.
  induction l as [|(t1 & a) l IH]; cbn; intros t s s' R A H.
  - injection H as <-. eauto.
  - destruct (sstep_cap 1 c t1 a s) as [s1|] eqn:E; [|discriminate]. apply andb_prop in A as (A1 & A2).
    eapply (IH t1 s1); eauto. eapply sr_step; eauto. lia.
Qed.

(** Addresses stored to by a history. *)
Definition stored_at (h : list entry) : list Z :=
  flat_map (fun e => match e with
                     | EPreload vals => zrange (zlen vals)
                     | EDone r _ _ _ => if is_read r then [] else map (fun o => q_start r + o) (zrange (q_length r))
                     end) h.
Lemma stores_stored h e a : In e h -> stores e a -> In a (stored_at h).
Proof.
  intros I S. apply in_flat_map. exists e. split; [auto|]. destruct e as [vals|r g f d]; cbn in S.
  - apply in_zrange. auto.
  - destruct S as (-> & S). unfold covers in S. apply in_map_iff. exists (a - q_start r). rewrite in_zrange. lia.
Qed.
Lemma nodup_twice {A} (l m : list A) a : NoDup (l ++ m) -> In a l -> In a m -> False.
Proof.
  induction l as [|y l IH]; cbn; [tauto|]. intros N [->|I] J; inversion_clear N as [|? ? N1 N2]; [|auto]. apply N1, in_app_iff. auto.
Qed.
Lemma nodup_once h : NoDup (stored_at h) -> written_once h.
Proof.
  intros N h1 e1 h2 e2 h3 a -> S1 S2. change (e1 :: h2 ++ e2 :: h3) with ([e1] ++ (h2 ++ e2 :: h3)) in N. unfold stored_at in N.
  rewrite !(flat_map_app _ h1), !(flat_map_app _ [e1]) in N. apply NoDup_app_r in N. apply (nodup_twice _ _ a N).
  - eapply (stores_stored [e1]); [now left|auto].
  - eapply (stores_stored (h2 ++ e2 :: h3)); [apply in_app_iff; right; now left|auto].
Qed.

Lemma node_of_three i : on_node three i -> i = 0 \/ i = 1 \/ i = 2.
Proof. unfold on_node. cbn. lia. Qed.
Ltac three_cases := let i := fresh "i" in let N := fresh "N" in intros i N; apply node_of_three in N as [ -> | [ -> | -> ] ]; vm_compute; auto.


Definition is_some {A} (o : option A) : bool := match o with Some _ => true | None => false end.
Lemma run_end c j l s : sascending 0 l = true -> is_some (srun 1 c l (sys_start c 0 j)) = true ->
  s = match srun 1 c l (sys_start c 0 j) with Some s => s | None => sys_start c 0 j end -> exists t, sreach c j t s.
Proof.
  intros A I ->. destruct (srun 1 c l (sys_start c 0 j)) as [s|] eqn:E; [|discriminate].
  eapply srun_reach; eauto. apply sr_start.
Qed.
Lemma copy_reach : exists t, sreach three copy_job t copy_end.
Proof. apply (run_end three copy_job copy_run); reflexivity. Qed.
Lemma slow_reach : exists t, sreach slow copy_job t slow_end.
Proof. apply (run_end slow copy_job slow_run); reflexivity. Qed.
Lemma open_reach : exists t, sreach three open_job t open_end.
Proof. apply (run_end three open_job open_run); reflexivity. Qed.
Lemma race_reach l : sascending 0 l = true -> is_some (srun 1 three l (sys_start three 0 race_job)) = true -> exists t, sreach three race_job t (race_end l).
Proof. intros A I. apply (run_end three race_job l); auto. Qed.

Lemma copy_completed : completed_run three copy_end /\ all_halt three copy_job.
Proof. split; [split; [reflexivity|]|]; three_cases. Qed.
Lemma slow_completed : completed_run slow slow_end.
Proof. split; [reflexivity|]. three_cases. Qed.
Lemma copy_once : forall i, on_node three i -> written_once (d_history (t_dram (s_tile copy_end i))).
Proof.
  intros i N. apply nodup_once. apply node_of_three in N as [ -> | [ -> | -> ] ]; vm_compute; repeat constructor; cbn; lia.
Qed.

Lemma hol_done : match srun 2 three hol_run (sys_start three 0 hol_job) with
  | Some s => s_crash s = None /\ t_prog (s_tile s 0) = [] /\ t_prog (s_tile s 1) = [] /\ t_prog (s_tile s 2) = []
  | None => False end.
Proof. vm_compute. auto. Qed.
Lemma head_of_line_blocking : exists c j,
    (forall capacity, 2 <= capacity -> exists l s,
       sascending 0 l = true /\ srun capacity c l (sys_start c 0 j) = Some s /\ completed_run c s) /\
    (forall t s, sreach c j t s -> ~ completed_run c s).
Proof.
  exists three, hol_job. split.
  - intros k K. pose proof hol_done as D. destruct (srun 2 three hol_run (sys_start three 0 hol_job)) as [s|] eqn:E; [|contradiction].
    exists hol_run, s. split; [reflexivity|]. split; [eapply srun_more; eauto|]. split; [tauto|].
    intros i N. apply node_of_three in N as [ -> | [ -> | -> ] ]; tauto.
  - intros t s R. apply (hol_never_completes three) with (t := t); auto; cbn; lia.
Qed.

Lemma completes_before_cores : exists c j t s i, 0 <= y_size c /\ sreach c j t s /\ completed_run c s /\ on_node c i /\
    exists p, In p (t_cores (s_tile s i)) /\ cp_phase p = PReady /\ cp_prog p <> [] /\ d_running (t_dram (s_tile s i)) = true.
Proof.
  destruct open_reach as (t & R). exists three, open_job, t, open_end, 0. split; [cbn; lia|]. split; [auto|].
  split; [split; [reflexivity|]; three_cases|]. split; [split; reflexivity || (cbn; lia)|].
  eexists. split; [vm_compute; left; reflexivity|]. vm_compute. repeat split; discriminate.
Qed.

Lemma three_completed s : s_crash s = None -> t_prog (s_tile s 0) = [] -> t_prog (s_tile s 1) = [] -> t_prog (s_tile s 2) = [] -> completed_run three s.
Proof. intros. split; [auto|]. intros i N. apply node_of_three in N as [ -> | [ -> | -> ] ]; auto. Qed.
Lemma races : exists c j t A t' B, 0 <= y_size c /\ usable_latencies c /\ all_halt c j /\
    sreach c j t A /\ completed_run c A /\ sreach c j t' B /\ completed_run c B /\
    cells (d_mem (t_dram (s_tile A 0))) <> cells (d_mem (t_dram (s_tile B 0))).
Proof.
  destruct (race_reach race_one) as (t & A); [reflexivity|reflexivity|]. destruct (race_reach race_two) as (t' & B); [reflexivity|reflexivity|].
  exists three, race_job, t, (race_end race_one), t', (race_end race_two).
  split; [cbn; lia|]. split; [unfold usable_latencies; cbn; lia|]. split; [intros i _; now left|].
  split; [auto|]. split; [apply three_completed; reflexivity|]. split; [auto|]. split; [apply three_completed; reflexivity|].
  vm_compute. discriminate.
Qed.

Lemma copy_two_ways :
  usable_latencies three /\ usable_latencies slow /\ same_shape three slow /\ all_halt three copy_job /\
  (exists t, sreach three copy_job t copy_end) /\ completed_run three copy_end /\
  (forall i, on_node three i -> written_once (d_history (t_dram (s_tile copy_end i)))) /\
  (exists t, sreach slow copy_job t slow_end) /\ completed_run slow slow_end /\ map snd copy_run <> map snd slow_run.
Proof.
  split; [unfold usable_latencies; cbn; lia|]. split; [unfold usable_latencies; cbn; lia|]. split; [repeat split|].
  split; [apply copy_completed|]. split; [exact copy_reach|]. split; [apply copy_completed|]. split; [exact copy_once|].
  split; [exact slow_reach|]. split; [exact slow_completed|]. vm_compute. discriminate.
Qed.
