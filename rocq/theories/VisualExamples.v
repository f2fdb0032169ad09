(** Concrete summaries. *)
From Verif Require Import PyBase VisualModel VisualSpec.
From Coq Require Import String Permutation Sorted.
Open Scope Z_scope.

(** An argsort. *)
Fixpoint put_in (f : nat -> Z) (i : nat) (l : list nat) : list nat := match l with [] => [i] | j :: r => if f i <=? f j then i :: l else j :: put_in f i r end.
Definition sort_by (f : nat -> Z) (l : list nat) : list nat := fold_right (put_in f) [] l.
Definition an_argsort (l : list Z) : list nat := sort_by (fun i => nth i l 0) (seq 0 (List.length l)).
Lemma put_perm f i l : Permutation (put_in f i l) (i :: l).
Proof. induction l as [|j r IH]; [reflexivity|]. cbn [put_in]. destruct (f i <=? f j); [reflexivity|]. rewrite IH. apply perm_swap. Qed.
Lemma put_sorted f i l : StronglySorted Z.le (map f l) -> StronglySorted Z.le (map f (put_in f i l)).
Proof.
  induction l as [|j r IH]; intros H; [repeat constructor|]. cbn [put_in]. cbn [map] in H. inversion H as [|? ? SL FA]; subst. destruct (Z.leb_spec (f i) (f j)); cbn [map].
  - constructor; [exact H|]. constructor; [assumption|]. eapply Forall_impl; [|exact FA]. intros; cbn in *; lia.
  - constructor; [now apply IH|]. apply Forall_forall. intros y Y. apply in_map_iff in Y. destruct Y as (k & <- & K). apply (Permutation_in _ (put_perm f i r)) in K. destruct K as [<-|K]; [lia|].
    rewrite Forall_forall in FA. apply FA, in_map, K.
Qed.
Lemma an_argsort_sorts : sorts an_argsort.
Proof.
  intros l. unfold an_argsort, sort_by. generalize (seq 0 (List.length l)) as s. induction s as [|i s (IH & JH)]; [split; [reflexivity|constructor]|]. cbn [fold_right]. split.
  - rewrite put_perm. now constructor.
  - now apply put_sorted.
Qed.

Definition worked (n : Z) : option ostats := Some (MkO (Some [("load"%string, n); ("mvm"%string, 1)]) (Some (10 * n)) None None None None None).
Definition a_core (i n : Z) : comp := MkComp (Some "core"%string) (Some i) (worked n) None.
Definition a_tile (i n : Z) (l : list comp) : comp := MkComp (Some "tile"%string) (Some i) (worked n) (Some l).
Definition a_node (i n : Z) (l : list comp) : comp := MkComp (Some "node"%string) (Some i) (worked n) (Some l).
Definition a_tree : list comp := [a_node 0 40 [a_tile 2 11 [a_core 0 3; a_core 1 8]; a_tile 3 29 [a_core 0 20; a_core 1 9]]; a_node 1 6 [a_tile 2 6 [a_core 0 1; a_core 1 2; a_core 2 3]]].
(** Overall statistics with four types of operations. *)
Definition overall : ostats := MkO (Some [("set"%string, 7); ("load"%string, 5); ("mvm"%string, 2); ("alu"%string, 4)]) (Some 300) (Some 50) (Some 1) (Some 2) (Some 90) None.
Definition a_summary : sumdict := [("stats"%string, EStats overall); ("components"%string, EParts a_tree)].
(** The averages are drawn in a fixed order, whatever the order of the types. *)
Lemma label_refuted : exists d s l argsort out g, find_entry d "stats" = Some (EStats s) /\ find_entry d "components" = Some (EParts l) /\ sorts argsort /\
  summarize argsort d = (out, Some g, Ok tt) /\ o_load s = Some 50 /\ ~ In ("load"%string, 50) (f_averages g) /\ In ("set"%string, 50) (f_averages g).
Proof.
  exists a_summary, overall, a_tree, an_argsort. eexists _, _. split; [reflexivity|]. split; [reflexivity|]. split; [exact an_argsort_sorts|]. split; [vm_compute; reflexivity|]. split; [reflexivity|].
  split; [|left; reflexivity]. vm_compute. intros H. repeat destruct H as [H|H]; try discriminate H; exact H.
Qed.
