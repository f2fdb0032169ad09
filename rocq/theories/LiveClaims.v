(** What follows for all executions of a job. *)
From Verif Require Import PyBase PyLemmas MemoryModel CoreModel CoreUse DramModel DramSpec DramProofs RouterModel RouterSpec SystemModel SystemSpec SystemBase
  SystemInv SystemDet SystemClaims SystemExamples LiveSpec LiveProofs LiveDet LiveBound LiveSingle LiveExamples.

Lemma completes_or_misses c c' j t A t' B : 0 <= y_size c -> usable_latencies c -> usable_latencies c' -> same_shape c c' -> all_halt c j ->
  sreach c j t A -> completed_run c A -> (forall i, on_node c i -> written_once (d_history (t_dram (s_tile A i)))) ->
  sreach c' j t' B -> exists n t2 B2, sworks c' t' B n t2 B2 /\ (completed_run c' B2 \/ missed_read c' B2).
Proof.
  intros SZ UL UL' SH HA RA CA WO RB. assert (SB : 0 <= y_size c') by (destruct SH as (_ & E & _); lia).
  destruct (settles _ _ _ _ SB RB) as (n & t2 & B2 & W & D). exists n, t2, B2. split; [exact W|].
  eapply wedged_or_missed; [exact SZ|exact UL|exact UL'|exact SH|exact HA|exact RA|exact CA|exact WO|eapply sworks_reach; eauto|exact D].
Qed.

Lemma same_readers c c' (j : job) : same_shape c c' -> (forall i, on_node c i -> readers j i <= 1) -> forall i, on_node c' i -> readers j i <= 1.
Proof. intros SH H i N. apply H. unfold on_node in *. destruct SH as (_ & _ & E & _). lia. Qed.

Lemma single_completes c c' j t A t' B : 0 <= y_size c -> usable_latencies c -> usable_latencies c' -> same_shape c c' -> all_halt c j ->
  (forall i, on_node c i -> readers j i <= 1) ->
  sreach c j t A -> completed_run c A -> (forall i, on_node c i -> written_once (d_history (t_dram (s_tile A i)))) ->
  sreach c' j t' B -> wedged c' t' B -> completed_run c' B.
Proof.
  intros SZ UL UL' SH HA RD RA CA WO RB W. assert (SB : 0 <= y_size c') by (destruct SH as (_ & E & _); lia).
  destruct (wedged_or_missed c c' j t A t' B) as [D|M]; auto. exfalso.
  refine (single_reader c' j t' B SB (same_readers _ _ _ SH RD) RB _ M).
  exact (proj1 (B_good _ _ _ _ _ SZ RA CA HA (written_once_all _ _ _ _ RA WO) SH UL UL' _ _ RB)).
Qed.
Lemma single_always c c' j t A t' B : 0 <= y_size c -> usable_latencies c -> usable_latencies c' -> same_shape c c' -> all_halt c j ->
  (forall i, on_node c i -> readers j i <= 1) ->
  sreach c j t A -> completed_run c A -> (forall i, on_node c i -> written_once (d_history (t_dram (s_tile A i)))) ->
  sreach c' j t' B -> exists n t2 B2, sworks c' t' B n t2 B2 /\ completed_run c' B2.
Proof.
  intros SZ UL UL' SH HA RD RA CA WO RB. assert (SB : 0 <= y_size c') by (destruct SH as (_ & E & _); lia).
  destruct (settles _ _ _ _ SB RB) as (n & t2 & B2 & W & D). exists n, t2, B2. split; [exact W|].
  eapply single_completes; [exact SZ|exact UL|exact UL'|exact SH|exact HA|exact RD|exact RA|exact CA|exact WO|eapply sworks_reach; eauto|exact D].
Qed.

(** ** Examples *)
(** A core stores a value, the tile sends it when it is there, and a core of the other tile loads it when it has arrived. *)
Definition relay_job : job :=
  MkJob (fun i => if i =? 0 then [TSend 4 1 1 1; THalt] else if i =? 1 then [TRecv 2 0 1 1; THalt] else [THalt])
    (fun i => if i =? 0 then [storer] else if i =? 1 then [(core_init (pair_core 1 1), [CSet 8 2 1; CLoad 10 8 1 1; CHlt])] else []) [].
Definition relay_run : list (Z * sact) := Eval vm_compute in scheduled (schedule 200 1 three 0 acts3 (sys_start three 0 relay_job)).
Definition relay_end : sys := match srun 1 three relay_run (sys_start three 0 relay_job) with Some s => s | None => sys_start three 0 relay_job end.
Lemma relay_case :
  (forall i, on_node three i -> readers relay_job i <= 1) /\ all_halt three relay_job /\ usable_latencies slow /\ same_shape three slow /\
  (exists t, sreach three relay_job t relay_end) /\ completed_run three relay_end /\
  (forall i, on_node three i -> written_once (d_history (t_dram (s_tile relay_end i)))) /\ missed_read three stuck.
Proof.
  split; [intros i N; apply node_of_three in N as [ -> | [ -> | -> ] ]; vm_compute; discriminate|].
  split; [intros i N; apply node_of_three in N as [ -> | [ -> | -> ] ]; cbn; auto|].
  split; [unfold usable_latencies; cbn; lia|]. split; [repeat split|].
  split; [apply (run_end three relay_job relay_run); vm_compute; reflexivity|]. split; [apply three_completed; vm_compute; reflexivity|].
  split; [|exact stuck_missed].
  intros i N. apply nodup_once. apply node_of_three in N as [ -> | [ -> | -> ] ]; vm_compute; repeat constructor; cbn; lia.
Qed.
Lemma relay_length : length relay_run = 52%nat /\ job_steps three relay_job = 86.
Proof. vm_compute. split; reflexivity. Qed.
