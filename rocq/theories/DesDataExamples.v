(** Programs whose timing does and does not depend on the data. *)
From Verif Require Import PyBase MemoryModel VfuModel MvmuModel MvmuExamples CoreModel CoreSpec CoreUse DramModel RouterModel SystemModel SystemSpec SystemExamples NodeModel NodeSpec NodeExamples
  DesModel DesSpec DesExamples DesDataSpec.
Open Scope Z_scope.

(** The first core loads an address and loads from there; the second one stores to cell 2 later on. *)
Definition pointer_job (act : list Z) : job :=
  MkJob (fun _ => [THalt]) (fun i => if i =? 0 then [
    (core_init (pair_core 1 1), [CSet 8 0 1; CLoad 9 8 1 1; CLoad 10 9 1 1; CHlt]);
    (core_init (pair_core 1 1), [CSet 8 2 1; CSet 9 7 1; CSet 10 7 1; CSet 11 7 1; CSet 10 7 1; CSet 11 7 1; CStore 8 9 1 1; CHlt])] else []) act.
(** A core divides two entries of the activation. *)
Definition ratio_job (act : list Z) : job :=
  MkJob (fun _ => [THalt]) (fun i => if i =? 0 then [
    (core_init (pair_core 1 1), [CSet 8 0 1; CLoad 9 8 1 2; CVfu Vdiv 11 9 (Some 10) 1; CStore 8 11 1 1; CHlt])] else []) act.

Lemma init_activity k : same_activity k k.
Proof. now constructor. Qed.
Lemma one_code c j j' : (forall i, j_prog j i = j_prog j' i) -> (forall i, j_cores j i = j_cores j' i) ->
  (forall i, on_node c i -> Forall (fun x => core_reached (y_core c) (fst x)) (j_cores j i)) -> zlen (j_activation j) = zlen (j_activation j') -> same_code c j j'.
Proof.
  intros P C R A. constructor; [intros; apply P| |exact A]. intros i N. rewrite <- C. specialize (R i N).
  induction R as [|x l H _ IH]; constructor; [|exact IH]. split; [reflexivity|]. split; [exact H|]. split; [exact H|apply init_activity].
Qed.
Lemma pointer_code act act' : zlen act = zlen act' -> same_code three (pointer_job act) (pointer_job act').
Proof.
  intros L. apply one_code; [reflexivity|reflexivity| |exact L]. intros i _. cbn [j_cores pointer_job]. destruct (i =? 0); repeat constructor; exists []; reflexivity.
Qed.
Lemma ratio_code act act' : zlen act = zlen act' -> same_code three (ratio_job act) (ratio_job act').
Proof.
  intros L. apply one_code; [reflexivity|reflexivity| |exact L]. intros i _. cbn [j_cores ratio_job]. destruct (i =? 0); repeat constructor; exists []; reflexivity.
Qed.
Lemma ratio_fixed act : programs_fixed three (ratio_job act).
Proof. intros i _. cbn [j_cores ratio_job]. destruct (i =? 0); repeat constructor. Qed.

(** Without fixed addresses. *)
Lemma pointer_refuted : exists c cfg ww j j', core_ok cfg ww (y_core c) /\ 0 <= y_size c /\ same_code c j j' /\ ~ divides c j /\
  exists s s', sim_reach c j 0 s /\ returned c s /\ sim_reach c j' 0 s' /\ returned c s' /\ w_now s <> w_now s'.
Proof.
  exists three, mixed_cfg, 4, (pointer_job [1; 5]), (pointer_job [2; 5]). split; [apply pair_ok|]. split; [cbn; lia|]. split; [now apply pointer_code|]. split.
  { intros (i & k & p & o & _ & H & I & D). cbn [j_cores pointer_job] in H. destruct (i =? 0); [|contradiction H].
    destruct H as [H|[H|[]]]; injection H as <- <-; cbn in I; repeat destruct I as [<-|I]; try discriminate D; contradiction I. }
  exists (sim_after three (pointer_job [1; 5]) 900), (sim_after three (pointer_job [2; 5]) 900).
  split; [apply after_reach|]. split; [vm_compute; reflexivity|]. split; [apply after_reach|]. split; [vm_compute; reflexivity|]. vm_compute. discriminate.
Qed.
(** With a division: one job completes, the other one raises. *)
Lemma ratio_refuted : exists c cfg ww j j', core_ok cfg ww (y_core c) /\ 0 <= y_size c /\ same_code c j j' /\ programs_fixed c j /\
  exists s s', sim_reach c j 0 s /\ returned c s /\ sim_reach c j' 0 s' /\ raised c s' ZeroDivisionError.
Proof.
  exists three, mixed_cfg, 4, (ratio_job [6; 3]), (ratio_job [6; 0]). split; [apply pair_ok|]. split; [cbn; lia|]. split; [now apply ratio_code|]. split; [apply ratio_fixed|].
  exists (sim_after three (ratio_job [6; 3]) 900), (sim_after three (ratio_job [6; 0]) 900).
  split; [apply after_reach|]. split; [vm_compute; reflexivity|]. split; [apply after_reach|]. vm_compute. reflexivity.
Qed.
