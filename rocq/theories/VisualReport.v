(** The names in the report of a run, and what the summary makes of them. *)
From Verif Require Import PyBase PyLemmas ConfigModel MemoryModel VfuModel MvmuModel CoreModel DramModel RouterModel SystemModel NodeModel StatsModel ReportModel VisualModel VisualSpec VisualProofs.
From Coq Require Import String.
Open Scope Z_scope.

Section Names.
Context {A : arith} (g : rcfg A).
Definition other (k : string) : Prop := k <> "stats"%string /\ k <> "components"%string.
Definition others {B} (d : list (string * B)) : Prop := Forall (fun kv => other (fst kv)) d.
Definition names (r : rep A) : Prop := forall h d h', r h = (Ok d, h') -> others d.
Lemma names_build l : others l -> names (build l).
Proof.
  induction 1 as [|(k, [s|]) l K _ IH]; intros h d h'; cbn [build]; [intros [= <- _]; constructor| |discriminate].
  destruct (new h s) as (r, h1). destruct (build l h1) as ([d1|e], h2) eqn:E; [|discriminate]. intros [= <- _]. constructor; [exact K|exact (IH _ _ _ E)].
Qed.
Lemma names_dmerge o : others o -> forall d (h : heap A) d' h', others d -> dmerge d h o = (d', h') -> others d'.
Proof.
  induction 1 as [|kv o K _ IH]; intros d h d' h' D; unfold dmerge; cbn [fold_left]; [intros [= <- _]; exact D|]. unfold merge_item at 2. destruct (dget d (fst kv)); [now apply IH|].
  apply IH. apply Forall_app. split; [exact D|]. apply Forall_cons; [exact K|constructor].
Qed.
Lemma names_merge l : Forall names l -> forall d, others d -> names (merge_all d l).
Proof.
  induction 1 as [|r l R _ IH]; intros d D h d' h'; cbn [merge_all]; [intros [= <- _]; exact D|]. destruct (r h) as ([o|e], h1) eqn:E; [|discriminate]. destruct (dmerge d h1 o) as (d1, h2) eqn:M.
  apply IH. exact (names_dmerge o (R _ _ _ E) _ _ _ _ D M).
Qed.
Lemma names_start r l : names r -> Forall names l -> names (start_merge r l).
Proof. intros R L h d h'. unfold start_merge. destruct (r h) as ([o|e], h1) eqn:E; [|discriminate]. apply names_merge; [exact L|exact (R _ _ _ E)]. Qed.
Lemma names_leak r n : names r -> names (with_leakage r n).
Proof. intros R h d h'. unfold with_leakage. destruct (r h) as ([o|e], h1) eqn:E; [|discriminate]. intros [= <- _]. exact (R _ _ _ E). Qed.
Lemma names_energy e r : names r -> names (add_router_energy e r).
Proof.
  intros R h d h'. unfold add_router_energy. destruct (r h) as ([o|x], h1) eqn:E; [|discriminate]. destruct e; [|discriminate]. destruct (dget o _); [|discriminate]. intros [= <- _]. exact (R _ _ _ E).
Qed.
Ltac given := apply names_build; repeat (constructor; [split; discriminate|]); constructor.
Lemma names_mvmu u : names (mvmu_report g u).
Proof.
  apply names_merge; [|constructor]. apply Forall_app. split; [destruct (have_rram _); cbn [map]; repeat (apply Forall_cons; [given|]); constructor|].
  apply Forall_app. split; [destruct (have_sram _); cbn [map]; repeat (apply Forall_cons; [given|]); constructor|]. cbn [map]. repeat (apply Forall_cons; [given|]). constructor.
Qed.
Lemma names_core k ops n : names (core_report g k ops n).
Proof.
  apply names_leak, names_start; [given|]. apply Forall_cons; [given|]. apply Forall_cons; [given|]. apply Forall_map, Forall_forall. intros. apply names_mvmu.
Qed.
Lemma names_tile id d r ops n cores : Forall names cores -> names (tile_report g id d r ops n cores).
Proof.
  intros C. unfold tile_report. destruct ((id =? 0) || (id =? 1)); [given|]. apply names_start; [|exact C]. apply names_leak, names_start; [given|]. repeat (apply Forall_cons; [given|]). constructor.
Qed.
Lemma names_node j n : names (node_report g j n).
Proof.
  apply names_energy, names_start; [apply names_leak, names_merge; [|constructor]; apply Forall_cons; [given|constructor]|]. apply Forall_map, Forall_forall. intros i _. apply names_tile.
  apply Forall_map, Forall_forall. intros x _. apply names_core.
Qed.
Lemma names_sim l : names (sim_report g l).
Proof. apply names_merge; [|constructor]. apply Forall_map, Forall_forall. intros x _. apply names_node. Qed.
End Names.
Lemma not_there {B} (d : list (string * B)) : others d -> find_entry (as_entries d) "stats" = None /\ find_entry (as_entries d) "components" = None.
Proof.
  induction 1 as [|(k, v) d (K & L) _ (IH & JH)]; [split; reflexivity|]. cbn [as_entries map find_entry fst] in *. cbn [fst] in K, L. apply String.eqb_neq in K, L. rewrite K, L. auto.
Qed.
Theorem report_blank (A : arith) (g : rcfg A) l h d h' argsort : sim_report g l h = (Ok d, h') ->
  summarize argsort (as_entries d) = (LResults :: (match d with [] => [] | _ => [LOps 0 0; LTime 0 0] end), None, Ok tt).
Proof.
  intros H. destruct (not_there d (names_sim g l h d h' H)) as (S & P). destruct d as [|x d]; [reflexivity|]. unfold summarize, the_parts. cbn [as_entries map] in *. rewrite S, P. reflexivity.
Qed.
