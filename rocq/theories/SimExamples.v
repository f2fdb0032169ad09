(** Concrete simulations. *)
From Verif Require Import PyBase PyLemmas ConfigModel MemoryModel VfuModel FloatModel MvmuModel MvmuExamples CoreModel CoreSpec CoreUse DramModel DramSpec RouterModel RouterSpec
  SystemModel SystemSpec SystemExamples NodeModel NodeSpec NodeExamples LoaderModel SimModel SimSpec SimProofs.
From Coq Require Import ZifyBool ZifyNat.

(** A scheduler: the first enabled action of a list, else the monitors of the nodes that are not done sample and the clock advances. *)
Definition clock_actions (c : sys_cfg) (x : nodes) : list (Z * ndact) := flat_map (fun m => if node_done c (x m) then [] else [(m, NdMonitor)]) (node_numbers c).
Fixpoint first_sim (c : sys_cfg) (t : Z) (l : list (Z * ndact)) (x : nodes) : option ((Z * ndact) * nodes) :=
  match l with
  | [] => None
  | a :: l' => match sim_step c t a x with Some x' => Some (a, x') | None => first_sim c t l' x end
  end.
Fixpoint sim_schedule (fuel : nat) (c : sys_cfg) (t : Z) (l : list (Z * ndact)) (x : nodes) : list (Z * (Z * ndact)) :=
  match fuel with
  | O => []
  | S f => match first_sim c t l x with
           | Some (a, x') => (t, a) :: sim_schedule f c t l x'
           | None => match clock_actions c x with
                     | [] => []
                     | q => match sim_run c (map (fun a => (t, a)) q) x with
                            | Some x' => map (fun a => (t, a)) q ++ sim_schedule f c (t + 1) l x'
                            | None => []
                            end
                     end
           end
  end.
Definition run_or_start (c : sys_cfg) (l : list (Z * (Z * ndact))) (x : nodes) : nodes := match sim_run c l x with Some x' => x' | None => x end.

(** Two nodes: the copy and multiplication of NodeExamples, and two programs that only halt, one after a core has stored. *)
Definition two : sys_cfg := MkSysCfg (MkNetCfg 3 2 3 8 2) (pair_core 1 1) 1 8 2.
Definition two_jobs (act : list Z) (m : Z) : job :=
  if m =? 0 then MkJob (j_prog mvm_job) (j_cores mvm_job) act
  else MkJob (fun i => [THalt]) (fun i => if i =? 1 then [busy_core 9] else []) [].
Definition acts_two : list (Z * ndact) := map (fun a => (0, NdSys a)) acts3 ++ map (fun a => (1, NdSys a)) acts3.
Definition two_run : list (Z * (Z * ndact)) := Eval vm_compute in sim_schedule 150 two 0 acts_two (sim_first two 0 (two_jobs [5; 6; 7; 8])).
Definition two_end : nodes := run_or_start two two_run (sim_first two 0 (two_jobs [5; 6; 7; 8])).
(** Another order, then a reset and a run with another activation. *)
Definition two_rev : list (Z * (Z * ndact)) := Eval vm_compute in sim_schedule 150 two 0 (rev acts_two) (sim_first two 0 (two_jobs [5; 6; 7; 8])).
Definition two_rev_end : nodes := run_or_start two two_rev (sim_first two 0 (two_jobs [5; 6; 7; 8])).
Definition two_reset : nodes := snd (sim_reset two two_end).
Definition two_more : list (Z * (Z * ndact)) := Eval vm_compute in sim_schedule 150 two 0 acts_two (sim_first two 0 (two_jobs [1; 2; 3; 4])).
Definition two_again : nodes := run_or_start two two_more (sim_again two 0 (two_jobs [1; 2; 3; 4]) two_reset).
(** The memories of node [m]. *)
Definition memories (x : nodes) (m : Z) : list (list Z) := map (fun i => cells (d_mem (t_dram (s_tile (nd_sys (x m)) i)))) [0; 1; 2].

Lemma sim_from c js l : in_order 0 l = true -> is_some (sim_run c l (sim_first c 0 js)) = true -> exists t, sim_reach c js 0 t (run_or_start c l (sim_first c 0 js)).
Proof.
  intros O S. unfold run_or_start. destruct (sim_run c l _) as [x|] eqn:R; [|discriminate S].
  destruct (sim_run_reach c js 0 l 0 _ x (sim_start_ _ _ _) O R) as (t & _ & RR). eauto.
Qed.
Lemma run_or_eq c l x : is_some (sim_run c l x) = true -> sim_run c l x = Some (run_or_start c l x).
Proof. unfold run_or_start. destruct (sim_run c l x); [reflexivity|discriminate]. Qed.
Lemma reset_ok c x : (match fst (sim_reset c x) with Ok _ => true | Raise _ => false end) = true -> sim_reset c x = (Ok tt, snd (sim_reset c x)).
Proof. destruct (sim_reset c x) as ([[]|e] & y); [reflexivity|discriminate]. Qed.

Lemma in_two_nodes m : in_sim two m -> m = 0 \/ m = 1.
Proof. unfold in_sim. cbn. lia. Qed.
Lemma two_reached : exists t, sim_reach two (two_jobs [5; 6; 7; 8]) 0 t two_end.
Proof. apply sim_from; vm_compute; reflexivity. Qed.
Lemma two_rev_reached : exists t, sim_reach two (two_jobs [5; 6; 7; 8]) 0 t two_rev_end.
Proof. apply sim_from; vm_compute; reflexivity. Qed.
Lemma two_done (x : nodes) : (forallb (fun m => forallb (fun i => is_nil (t_prog (s_tile (nd_sys (x m)) i))) [0; 1; 2]) [0; 1]) = true ->
  s_crash (nd_sys (x 0)) = None -> s_crash (nd_sys (x 1)) = None -> completed_sim two x.
Proof.
  cbn. intros H C0 C1 m I. rewrite !andb_true_iff in H. destruct H as ((H1 & H2 & H3 & _) & (H4 & H5 & H6 & _) & _).
  assert (NIL : forall A (l : list A), is_nil l = true -> l = []) by (intros A [|? ?]; [reflexivity|discriminate]).
  apply in_two_nodes in I as [->| ->]; (split; [assumption|]; intros i J; apply (on_three two i eq_refl) in J as [<-|[<-|[<-|[]]]]; now apply NIL).
Qed.
Lemma two_completed : completed_sim two two_end.
Proof. apply two_done; vm_compute; reflexivity. Qed.
Lemma two_rev_completed : completed_sim two two_rev_end.
Proof. apply two_done; vm_compute; reflexivity. Qed.
Lemma two_halts act m : in_sim two m -> all_halt two (two_jobs act m).
Proof. intros I i H. destruct (in_two_nodes m I) as [->| ->]; destruct (on_three two i eq_refl H) as [<-|[<-|[<-|[]]]]; cbn; auto. Qed.
Lemma two_fresh act m : in_sim two m -> fresh_job two (two_jobs act m).
Proof.
  intros I. destruct (in_two_nodes m I) as [->| ->].
  - destruct mvm_fresh as (A & B & C). split; [exact A|]. split; [exact B|]. intros i J. apply (C i J).
  - split; [vm_compute; congruence|]. split; [vm_compute; congruence|]. intros i J. cbn. destruct (i =? 1); [repeat constructor; apply (init_fresh 0); lia|constructor].
Qed.
Lemma two_programs act act' m : same_programs (two_jobs act m) (two_jobs act' m).
Proof. unfold two_jobs. destruct (m =? 0); split; reflexivity. Qed.
Lemma two_rram act m : units_have_rram two (two_jobs act m). Proof. now left. Qed.
Lemma two_batch : batch two two_jobs [[5; 6; 7; 8]; [1; 2; 3; 4]] two_again.
Proof.
  apply (ba_next two two_jobs [[5; 6; 7; 8]] two_end two_reset [1; 2; 3; 4] 0 two_more).
  - apply (ba_first two two_jobs [5; 6; 7; 8] 0 two_run); [vm_compute; reflexivity| |exact two_completed]. apply run_or_eq. vm_compute. reflexivity.
  - apply reset_ok. vm_compute. reflexivity.
  - vm_compute. reflexivity.
  - apply run_or_eq. vm_compute. reflexivity.
  - apply two_done; vm_compute; reflexivity.
Qed.

(** Node 1 raises an exception (a load far outside the memory, completed at once because the flags outside are not looked at). *)
Definition bad_jobs (m : Z) : job :=
  if m =? 0 then two_jobs [5; 6; 7; 8] 0 else MkJob (fun _ => [THalt]) (fun i => if i =? 0 then [(core_init (pair_core 1 1), [CSet 8 90 1; CLoad 9 8 1 1; CHlt])] else []) [].
Definition bad_run : list (Z * (Z * ndact)) := Eval vm_compute in sim_schedule 60 two 0 acts_two (sim_first two 0 bad_jobs).
Definition bad_end : nodes := run_or_start two bad_run (sim_first two 0 bad_jobs).

(** Only SRAM crossbars on three nodes: node 0 has no cores, node 1 has one in each tile, node 2 has one in tile 1 that stores. *)
Definition digital_three : sys_cfg := MkSysCfg (MkNetCfg 3 3 3 8 2) (y_core digital) 1 8 2.
Definition digital_jobs (m : Z) : job := if m =? 0 then MkJob (fun _ => [THalt]) (fun _ => []) [1] else if m =? 1 then digital_job else two_jobs [] 1.
Definition acts_three : list (Z * ndact) := acts_two ++ map (fun a => (2, NdSys a)) acts3.
Definition digital_three_run : list (Z * (Z * ndact)) := Eval vm_compute in sim_schedule 150 digital_three 0 acts_three (sim_first digital_three 0 digital_jobs).
Definition digital_three_end : nodes := run_or_start digital_three digital_three_run (sim_first digital_three 0 digital_jobs).

(** ** Without an activation *)
(** Core 0 of tile 0 stores 77 at address 4; core 1 loads it and stores it at address 5. *)
Definition dummy_cores : list (core * list cop) :=
  [(core_init (pair_core 1 1), [CSet 8 4 1; CSet 9 77 1; CStore 8 9 1 1; CHlt]);
   (core_init (pair_core 1 1), [CSet 8 4 1; CLoad 9 8 1 1; CSet 8 5 1; CStore 8 9 1 1; CHlt])].
Definition one : sys_cfg := MkSysCfg (MkNetCfg 1 1 3 8 2) (pair_core 1 1) 2 8 2.
Definition dummy_arch : arch := [[MkATile [THalt] dummy_cores]].
Definition dummy_jobs (act : option vector) : Z -> job := match sim_jobs one 0 dummy_arch act with Ok js => js | Raise _ => fun _ => MkJob (fun _ => []) (fun _ => []) [] end.
Definition dram_first (cores : list Z) : list (Z * ndact) :=
  map (fun a => (0, NdSys a)) (map (SDram 0) [AFinish; AGrant; AHandle] ++ map (SCore 0) cores ++ [STile 0] ++ map SNet [NPoll 0; NStopped 0]).
Definition dummy_one : list (Z * (Z * ndact)) := Eval vm_compute in sim_schedule 100 one 0 (dram_first [0; 1]) (sim_first one 0 (dummy_jobs None)).
Definition dummy_two : list (Z * (Z * ndact)) := Eval vm_compute in sim_schedule 100 one 0 (dram_first [1; 0]) (sim_first one 0 (dummy_jobs None)).
Definition empty_one : list (Z * (Z * ndact)) := Eval vm_compute in sim_schedule 100 one 0 (dram_first [1; 0]) (sim_first one 0 (dummy_jobs (Some (VInts [])))).
Definition dummy_end (l : list (Z * (Z * ndact))) (act : option vector) : nodes := run_or_start one l (sim_first one 0 (dummy_jobs act)).

Lemma dummy_reached l act : in_order 0 l = true -> is_some (sim_run one l (sim_first one 0 (dummy_jobs act))) = true -> exists t, sim_reach one (dummy_jobs act) 0 t (dummy_end l act).
Proof. apply sim_from. Qed.
Lemma one_done (x : nodes) : s_crash (nd_sys (x 0)) = None -> t_prog (s_tile (nd_sys (x 0)) 0) = [] -> completed_sim one x.
Proof.
  intros C P m I. assert (m = 0) by (unfold in_sim in I; cbn in I; lia). subst m. split; [exact C|]. intros i J. assert (i = 0) by (unfold on_node in J; cbn in J; lia). now subst i.
Qed.
Lemma dummy_races : exists c a js t A t' B, 0 <= y_size c /\ usable_latencies c /\ sim_jobs c 0 a None = Ok js /\ (forall m, in_sim c m -> all_halt c (js m)) /\
  sim_reach c js 0 t A /\ completed_sim c A /\ sim_reach c js 0 t' B /\ completed_sim c B /\
  cells (d_mem (t_dram (s_tile (nd_sys (A 0)) 0))) <> cells (d_mem (t_dram (s_tile (nd_sys (B 0)) 0))) /\
  (exists js0 t0 Z0, sim_jobs c 0 a (Some (VInts [])) = Ok js0 /\ sim_reach c js0 0 t0 Z0 /\ completed_sim c Z0 /\
     forall i, on_node c i -> written_once (d_history (t_dram (s_tile (nd_sys (Z0 0)) i)))).
Proof.
  destruct (dummy_reached dummy_one None) as (t & A); [vm_compute; reflexivity|vm_compute; reflexivity|].
  destruct (dummy_reached dummy_two None) as (t' & B); [vm_compute; reflexivity|vm_compute; reflexivity|].
  destruct (dummy_reached empty_one (Some (VInts []))) as (t0 & E); [vm_compute; reflexivity|vm_compute; reflexivity|].
  exists one, dummy_arch, (dummy_jobs None), t, (dummy_end dummy_one None), t', (dummy_end dummy_two None).
  split; [cbn; lia|]. split; [unfold usable_latencies; cbn; lia|]. split; [reflexivity|]. split.
  { intros m I i J. assert (m = 0) by (unfold in_sim in I; cbn in I; lia). assert (i = 0) by (unfold on_node in J; cbn in J; lia). subst. now left. }
  split; [exact A|]. split; [apply one_done; vm_compute; reflexivity|]. split; [exact B|]. split; [apply one_done; vm_compute; reflexivity|]. split.
  { intros Q. apply (f_equal (fun l => znth 0 l 5)) in Q. revert Q. vm_compute. discriminate. }
  exists (dummy_jobs (Some (VInts []))), t0, (dummy_end empty_one (Some (VInts []))). split; [reflexivity|]. split; [exact E|]. split; [apply one_done; vm_compute; reflexivity|].
  intros i J. assert (i = 0) by (unfold on_node in J; cbn in J; lia). subst. apply nodup_once. vm_compute. repeat constructor; cbn; lia.
Qed.
