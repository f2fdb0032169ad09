(** Concrete executions of a node with reset. *)
From Verif Require Import PyBase PyLemmas ConfigModel MemoryModel VfuModel FloatModel MvmuModel MvmuExamples CoreModel CoreSpec CoreUse DramModel DramSpec RouterModel RouterSpec
  SystemModel SystemSpec SystemExamples NodeModel NodeSpec NodeReset NodeClaims.
From Coq Require Import ZifyBool ZifyNat.

(** A scheduler: the first enabled action of a list, else the monitor samples and the clock advances. *)
Fixpoint nschedule (fuel : nat) (c : sys_cfg) (t : Z) (l : list sact) (n : node) : list (Z * ndact) :=
  match fuel with
  | O => []
  | S f => match first_enabled buffer_capacity c t l (nd_sys n) with
           | Some (a, _) => match node_step c t (NdSys a) n with Some n' => (t, NdSys a) :: nschedule f c t l n' | None => [] end
           | None => match node_step c t NdMonitor n with Some n' => (t, NdMonitor) :: nschedule f c (t + 1) l n' | None => [] end
           end
  end.
Definition run_or_first (c : sys_cfg) (l : list (Z * ndact)) (n : node) : node := match nd_run c l n with Some n' => n' | None => n end.

(** The copy of SystemExamples, and a core with weights that multiplies. *)
Definition mvm_core : core := core_run (pair_core 1 1) (core_init (pair_core 1 1)) [KLoad 1 mixed_w].
Definition mvm_job : job := MkJob (j_prog copy_job) (fun i => if i =? 0 then [busy_core 77] else if i =? 2 then [(mvm_core, [CSet 9 5 1; CMvm [1]; CHlt])] else []) [5; 6; 7; 8].
Definition mvm_first : node := node_first three 0 mvm_job.
Definition mvm_run : list (Z * ndact) := Eval vm_compute in nschedule 100 three 0 acts3 mvm_first.
Definition mvm_end : node := run_or_first three mvm_run mvm_first.
Definition mvm_reset : node := snd (node_reset three mvm_end).
Definition mvm_again : node := run_or_first three mvm_run (node_again three 0 mvm_job mvm_reset).

(** Tiles without instructions; a core that loads what nobody stores. *)
Definition wait_job : job := MkJob (fun _ => []) (fun i => if i =? 0 then [(core_init (pair_core 1 1), [CLoad 8 9 1 1; CHlt])] else []) [].
Definition wait_run : list (Z * ndact) := [(0, NdSys (SCore 0 0)); (0, NdSys (SDram 0 AHandle))].
Definition wait_end : node := run_or_first three wait_run (node_first three 0 wait_job).
(** Tiles without instructions; a core that halts later. *)
Definition late_job : job := MkJob (fun _ => []) (fun i => if i =? 0 then [(core_init (pair_core 1 1), [CHlt])] else []) [].
Definition late_run : list (Z * ndact) := [(0, NdMonitor); (1, NdMonitor); (2, NdSys (SCore 0 0))].
Definition late_end : node := run_or_first three late_run (node_first three 0 late_job).
(** Only SRAM crossbars. *)
Definition digital : sys_cfg := MkSysCfg (MkNetCfg 3 1 3 8 2) (MkCoreCfg 1 sram3 8 (k_vfu (pair_core 1 1)) 1 2 1 1) 1 8 2.
Definition digital_job : job := MkJob (fun _ => [THalt]) (fun i => [(core_init (y_core digital), [CHlt])]) [].
Definition digital_run : list (Z * ndact) := Eval vm_compute in nschedule 80 digital 0 acts3 (node_first digital 0 digital_job).
Definition digital_end : node := run_or_first digital digital_run (node_first digital 0 digital_job).

Lemma nd_run_reach c j l : forall t n n', nd_reach c j t n -> nd_ascending t l = true -> nd_run c l n = Some n' -> exists t', nd_reach c j t' n'.
Proof.
  induction l as [|(t1 & a) l IH]; cbn; intros t n n' R A H.
  - injection H as <-. eauto.
  - destruct (node_step c t1 a n) as [n1|] eqn:E; [|discriminate]. apply andb_prop in A as (A1 & A2).
    eapply (IH t1 n1); eauto. eapply nd_step_; eauto. lia.
Qed.
Lemma run_reach c j l : nd_ascending 0 l = true -> is_some (nd_run c l (node_first c 0 j)) = true -> exists t, nd_reach c j t (run_or_first c l (node_first c 0 j)).
Proof.
  intros A H. unfold run_or_first. destruct (nd_run c l (node_first c 0 j)) as [n'|] eqn:E; [|discriminate H]. eapply (nd_run_reach c j l 0); eauto. apply nd_start_.
Qed.


Definition three_ids : list Z := [0; 1; 2].
Lemma on_three c i : w_tiles (y_net c) = 3 -> on_node c i -> In i three_ids.
Proof. unfold on_node, three_ids. intros -> H. assert (E : i = 0 \/ i = 1 \/ i = 2) by lia. cbn. intuition congruence. Qed.
Lemma all_three c (P : Z -> Prop) : w_tiles (y_net c) = 3 -> P 0 -> P 1 -> P 2 -> forall i, on_node c i -> P i.
Proof. intros W A B C i H. destruct (on_three c i W H) as [<-|[<-|[<-|[]]]]; assumption. Qed.

Lemma init_fresh n c : 0 <= n -> fresh_core c (core_init c).
Proof. intros _. split; [reflexivity|]. split; [reflexivity|]. apply Forall_forall. intros u H. apply repeat_spec in H. subst. repeat split. Qed.
Lemma mvm_core_fresh : fresh_core (pair_core 1 1) mvm_core.
Proof. split; [reflexivity|]. split; [reflexivity|]. repeat constructor; vm_compute; repeat split. Qed.
Lemma three_fresh j : (forall i, Forall (fun x => fresh_core (pair_core 1 1) (fst x)) (j_cores j i)) -> fresh_job three j.
Proof. intros H. split; [vm_compute; congruence|]. split; [vm_compute; congruence|]. intros i _. apply H. Qed.
Lemma three_rram j : units_have_rram three j. Proof. now left. Qed.

Lemma mvm_fresh : fresh_job three mvm_job.
Proof.
  apply three_fresh. intros i. cbn [j_cores mvm_job]. destruct (i =? 0); [repeat constructor; apply (init_fresh 0); lia|]. destruct (i =? 2); [|constructor].
  constructor; [exact mvm_core_fresh|constructor].
Qed.
Lemma mvm_halts : all_halt three mvm_job.
Proof. intros i H. destruct (on_three three i eq_refl H) as [<-|[<-|[<-|[]]]]; cbn; auto. Qed.
Lemma mvm_reached : exists t, nd_reach three mvm_job t mvm_end.
Proof. apply run_reach; vm_compute; reflexivity. Qed.
Lemma mvm_completed : completed_run three (nd_sys mvm_end).
Proof. split; [vm_compute; reflexivity|]. apply (all_three three (fun i => t_prog (s_tile (nd_sys mvm_end) i) = [])); vm_compute; reflexivity. Qed.
Lemma wait_fresh : fresh_job three wait_job.
Proof. apply three_fresh. intros i. cbn. destruct (i =? 0); repeat constructor; cbn. all: apply Forall_forall; intros u H; apply repeat_spec in H; subst; repeat split. Qed.
Lemma wait_reached : exists t, nd_reach three wait_job t wait_end.
Proof. apply run_reach; vm_compute; reflexivity. Qed.
Lemma late_reached : exists t, nd_reach three late_job t late_end.
Proof. apply run_reach; vm_compute; reflexivity. Qed.
Lemma digital_fresh : fresh_job digital digital_job.
Proof. split; [vm_compute; congruence|]. split; [vm_compute; congruence|]. intros i _. repeat constructor. Qed.
Lemma digital_reached : exists t, nd_reach digital digital_job t digital_end.
Proof. apply run_reach; vm_compute; reflexivity. Qed.

Lemma pair_with {A B} (x : A * B) a : fst x = a -> x = (a, snd x).
Proof. destruct x. cbn. congruence. Qed.
Lemma hd_in {A} (d : A) l : (0 <? zlen l) = true -> In (hd d l) l.
Proof. destruct l; [discriminate|]. now left. Qed.
Lemma nth_in {A} (d : A) l k : (k <? length l)%nat = true -> In (nth k l d) l.
Proof. intros H. apply nth_In. lia. Qed.
Lemma wait_reset_ok : fst (node_reset three wait_end) = Ok tt. Proof. vm_compute. reflexivity. Qed.
Lemma mvm_reset_ok : fst (node_reset three mvm_end) = Ok tt. Proof. vm_compute. reflexivity. Qed.

(** Counterexamples for C52. *)
Lemma reset_keeps_requests : exists c j t n n' i, 0 <= y_size c /\ fresh_job c j /\ nd_reach c j t n /\ completed_run c (nd_sys n) /\ node_reset c n = (Ok tt, n') /\
  on_node c i /\ d_running (t_dram (s_tile (nd_sys n') i)) = true /\ d_pending (t_dram (s_tile (nd_sys n') i)) <> [].
Proof.
  destruct wait_reached as (t & R). exists three, wait_job, t, wait_end, (snd (node_reset three wait_end)), 0.
  split; [vm_compute; congruence|]. split; [exact wait_fresh|]. split; [exact R|]. split.
  { split; [vm_compute; reflexivity|]. apply (all_three three (fun i => t_prog (s_tile (nd_sys wait_end) i) = [])); vm_compute; reflexivity. }
  split; [exact (pair_with (node_reset three wait_end) (Ok tt) wait_reset_ok)|].
  split; [vm_compute; split; congruence|]. split; vm_compute; [reflexivity|]. intros H. discriminate H.
Qed.
Lemma reset_keeps_counters : exists c j t n n' i p u, 0 <= y_size c /\ fresh_job c j /\ all_halt c j /\ nd_reach c j t n /\ completed_run c (nd_sys n) /\ node_reset c n = (Ok tt, n') /\
  on_node c i /\ In p (t_cores (s_tile (nd_sys n') i)) /\ In u (co_mvmus (cp_core p)) /\
  0 < sram_mac_operations (mv_stat u) /\ 0 < mux_sram_selections (mv_stat u) /\ 0 < nd_busy n' /\ 0 < nd_tile_cycles n' 0 /\ 0 < nd_core_cycles n' 0 0.
Proof.
  destruct mvm_reached as (t & R).
  exists three, mvm_job, t, mvm_end, mvm_reset, 2, (hd (MkCProc mvm_core [] PReady []) (t_cores (s_tile (nd_sys mvm_reset) 2))),
    (nth 1 (co_mvmus (cp_core (hd (MkCProc mvm_core [] PReady []) (t_cores (s_tile (nd_sys mvm_reset) 2))))) (mvmu_init mixed)).
  split; [vm_compute; congruence|]. split; [exact mvm_fresh|]. split; [exact mvm_halts|]. split; [exact R|]. split; [exact mvm_completed|].
  split; [unfold mvm_reset; exact (pair_with (node_reset three mvm_end) (Ok tt) mvm_reset_ok)|].
  split; [vm_compute; split; congruence|]. split; [apply hd_in; vm_compute; reflexivity|]. split; [apply nth_in; vm_compute; reflexivity|].
  repeat split; vm_compute; reflexivity.
Qed.
(** C53. *)
Lemma digital_raises : exists c j t n, 0 <= y_size c /\ fresh_job c j /\ all_halt c j /\ nd_reach c j t n /\ completed_run c (nd_sys n) /\ fst (node_reset c n) = Raise AttributeError.
Proof.
  destruct digital_reached as (t & R). exists digital, digital_job, t, digital_end. split; [vm_compute; congruence|]. split; [exact digital_fresh|]. split; [intros i _; now left|]. split; [exact R|]. split.
  { split; [vm_compute; reflexivity|]. apply (all_three digital (fun i => t_prog (s_tile (nd_sys digital_end) i) = [])); vm_compute; reflexivity. }
  vm_compute; reflexivity.
Qed.
(** C61. *)
Lemma late_core : exists c j t n i k, 0 <= y_size c /\ nd_reach c j t n /\ completed_run c (nd_sys n) /\ on_node c i /\ nd_tile_cycles n i < nd_core_cycles n i k.
Proof.
  destruct late_reached as (t & R). exists three, late_job, t, late_end, 0, 0. split; [vm_compute; congruence|]. split; [exact R|]. split.
  { split; [vm_compute; reflexivity|]. apply (all_three three (fun i => t_prog (s_tile (nd_sys late_end) i) = [])); vm_compute; reflexivity. }
  split; [vm_compute; split; congruence|]. vm_compute; reflexivity.
Qed.
