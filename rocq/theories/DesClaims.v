(** The event simulation: the claims. *)
From Verif Require Import PyBase PyLemmas MemoryModel CoreModel DramModel RouterModel SystemModel SystemSpec NodeModel NodeSpec NodeClaims
  DesModel DesSpec DesRel DesCtl DesCore DesTile DesRefine DesQueue DesRun.

Section Claims.
Context (c : sys_cfg) (j : job) (t0 : Z).
Notation any := (fun _ : cop => True).

Lemma any_job : forall i, on_node c i -> Forall (fun kp => Forall any (snd kp)) (j_cores j i).
Proof. intros i _. apply Forall_forall. intros kp _. apply Forall_forall. auto. Qed.

Theorem sim_refines s : sim_reach c j t0 s -> exists t N, t <= w_now s /\ nd_reach c j t N /\ (agrees c t0 s N \/ crashed N).
Proof.
  intro H. destruct (run_related any c j t0 any_job s H) as [_ (t & N & Ht & HR & HS)]. exists t, N.
  split; [assumption|]. split; [assumption|]. destruct HS as [HS|HS]; [left|now right]. exact (rel_agrees any c j t0 any_job _ s N HS).
Qed.
Theorem sim_ends s : sim_reach c j t0 s -> returned c s -> exists t N, t <= w_now s /\ nd_reach c j t N /\ (ends_alike c t0 s N \/ crashed N).
Proof.
  intros H E. destruct (run_related any c j t0 any_job s H) as [T (t & N & Ht & HR & HS)]. exists t, N.
  split; [assumption|]. split; [assumption|]. destruct HS as [HS|HS]; [left|now right]. apply (rel_ends any c j t0 any_job _ s N HS).
  apply (ti_fin _ T). unfold returned, des_step in E. intro F. rewrite F in E.
  destruct (w_queue s) as [|x q]; [discriminate|]. destruct (fire _ _ _ _ _); discriminate.
Qed.
Theorem sim_raises s e : delays_ok c j -> sim_reach c j t0 s -> raised c s e -> exists t N, nd_reach c j t N /\ crashed N.
Proof.
  intros (D1 & D2 & D3) H E. apply (raise_related (delays_of c) c j t0 D3 s e H E). split; [assumption|]. split; [assumption|]. intros o Ho. exact Ho.
Qed.

(** Jobs of which no execution raises an exception. *)
Theorem sim_safe s : never_crashes c j -> sim_reach c j t0 s ->
  (exists t N, t <= w_now s /\ nd_reach c j t N /\ agrees c t0 s N) /\ (delays_ok c j -> forall e, ~ raised c s e).
Proof.
  intros S H. split.
  - destruct (sim_refines s H) as (t & N & Ht & HR & [A|A]); [now exists t, N|]. elim A. exact (S t N HR).
  - intros D e E. destruct (sim_raises s e D H E) as (t & N & HR & A). elim A. exact (S t N HR).
Qed.
Theorem sim_safe_ends s : never_crashes c j -> sim_reach c j t0 s -> returned c s ->
  exists t N, t <= w_now s /\ nd_reach c j t N /\ ends_alike c t0 s N.
Proof.
  intros S H E. destruct (sim_ends s H E) as (t & N & Ht & HR & [A|A]); [now exists t, N|]. elim A. exact (S t N HR).
Qed.

(** Time. *)
Theorem sim_time s s' : sim_reach c j t0 s -> des_step (real c) c s = NStep s' -> t0 <= w_now s <= w_now s'.
Proof.
  intros H E. assert (G : t0 <= w_now s /\ timely s).
  { clear E s'. induction H as [|s s' H [IH1 IH2] E]; [split; [unfold des_first, des_begin; cbn; lia|apply begin_timely]|].
    destruct (step_timely _ _ _ _ IH2 E) as [T L]. split; [lia|assumption]. }
  destruct G as [G T]. destruct (step_timely _ _ _ _ T E) as [_ L]. lia.
Qed.
End Claims.
