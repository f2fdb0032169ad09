(** Two nodes with the same programs and different activations. *)
From Verif Require Import PyBase MemoryModel CoreModel CoreSpec CoreUse DramModel RouterModel SystemModel SystemSpec SystemExamples NodeModel NodeSpec NodeExamples
  DesModel DesSpec DesExamples DesDataSpec DesDataExamples DesManyModel DesManySpec DesManyExamples DesDataManySpec.
From Verif Require SimExamples.
Open Scope Z_scope.

Lemma two_codes act act' : zlen act = zlen act' -> same_codes two (SimExamples.two_jobs act) (SimExamples.two_jobs act').
Proof.
  intros L m _. unfold SimExamples.two_jobs. destruct (m =? 0).
  - apply one_code; [reflexivity|reflexivity| |exact L]. intros i _. cbn [j_cores mvm_job]. destruct (i =? 0); [repeat constructor; exists []; reflexivity|].
    destruct (i =? 2); repeat constructor. exists [KLoad 1 MvmuExamples.mixed_w]. reflexivity.
  - apply one_code; [reflexivity|reflexivity| |reflexivity]. intros i _. cbn [j_cores]. destruct (i =? 1); repeat constructor. exists []. reflexivity.
Qed.
Lemma two_fixed act : all_fixed two (SimExamples.two_jobs act).
Proof.
  intros m _ i _. unfold SimExamples.two_jobs. destruct (m =? 0); cbn [j_cores mvm_job].
  - destruct (i =? 0); [repeat constructor|]. destruct (i =? 2); repeat constructor.
  - destruct (i =? 1); repeat constructor.
Qed.
Lemma two_plain act : ~ some_divides two (SimExamples.two_jobs act).
Proof.
  intros (m & _ & i & k & p & o & _ & H & I & Q). unfold SimExamples.two_jobs in H. destruct (m =? 0); cbn [j_cores mvm_job] in H.
  - destruct (i =? 0); [|destruct (i =? 2); [|contradiction H]]; destruct H as [H|[]]; injection H as <- <-; cbn in I; repeat destruct I as [<-|I]; try discriminate Q; contradiction I.
  - destruct (i =? 1); [|contradiction H]. destruct H as [H|[]]; injection H as <- <-; cbn in I; repeat destruct I as [<-|I]; try discriminate Q; contradiction I.
Qed.
