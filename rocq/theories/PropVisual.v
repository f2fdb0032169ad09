(** Property C100: the summary of results. *)
From Verif Require Import PyBase SystemModel SystemExamples NodeModel NodeExamples StatsModel ReportModel ReportSpec ReportExamples VisualModel VisualSpec VisualProofs VisualReport VisualExamples.
From Coq Require Import String.
Open Scope Z_scope.

(** ** C100: the summary of results *)
(** Given statistics of the form it expects, it prints every component once, below the one it belongs to, with its own operations and time;
    it draws the operations by type and the completion times, and the nodes, tiles and cores, or ten of them of which none left out has more operations. *)
Theorem C100_shows : forall argsort s l d out f, find_entry d "stats" = Some (EStats s) -> find_entry d "components" = Some (EParts l) -> empty_stats s = false -> l <> [] ->
  summarize argsort d = (out, f, Ok tt) -> sorts argsort ->
  exists g vs ws, f = Some g /\ tour (fun n => (n <= 3)%nat) l vs /\ busiest (map row_of vs) (f_rows g) /\ tour (fun _ => True) l ws /\
    out = [LResults; LOps 0 (counted s); LTime 0 (time_of s); LComponents] ++ flat_map lines_of ws /\ f_counts g = counts_of s /\ f_timeline g = o_done s.
Proof. exact summary_shows. Qed.
Print Assumptions C100_shows.
Example C100_case : sorts an_argsort /\
  let '(out, f, r) := summarize an_argsort a_summary in
  (List.length out, firstn 7 out, r, match f with Some g => f_rows g | None => [] end) =
  (40%nat, [LResults; LOps 0 18; LTime 0 300; LComponents; LName 0 (Some "node"%string) (Some 0); LOps 1 41; LTime 1 400], Ok tt,
   [([Some 0; Some 2; Some 0], 4); ([Some 1; Some 2; Some 2], 4); ([Some 1], 7); ([Some 1; Some 2], 7); ([Some 0; Some 2; Some 1], 9); ([Some 0; Some 3; Some 1], 10);
    ([Some 0; Some 2], 12); ([Some 0; Some 3; Some 0], 21); ([Some 0; Some 3], 30); ([Some 0], 41)]).
Proof. split; [exact an_argsort_sorts|]. vm_compute. reflexivity. Qed.
(** The average times drawn are those of load, set, alu and mvm, in this order, under the names of the types of operations, or of the only one. *)
Theorem C100_averages : forall argsort s l d out g, find_entry d "stats" = Some (EStats s) -> find_entry d "components" = Some (EParts l) -> summarize argsort d = (out, Some g, Ok tt) ->
  let z (t : option Z) := match t with Some n => n | None => 0 end in
  match map fst (counts_of s) with
  | [a] => f_averages g = [(a, z (o_load s)); (a, z (o_set s)); (a, z (o_alu s)); (a, z (o_mvm s))]
  | [a; b; c; e] => f_averages g = [(a, z (o_load s)); (b, z (o_set s)); (c, z (o_alu s)); (e, z (o_mvm s))]
  | _ => False
  end.
Proof. exact summary_averages. Qed.
Print Assumptions C100_averages.
Example C100_case_averages : match summarize an_argsort a_summary with (_, Some g, Ok tt) => f_averages g | _ => [] end = [("set"%string, 50); ("load"%string, 1); ("mvm"%string, 2); ("alu"%string, 90)].
Proof. vm_compute. reflexivity. Qed.
(** Without overall statistics, or without components, it prints the totals and draws nothing. *)
Theorem C100_quiet : forall argsort s d, find_entry d "stats" = Some (EStats s) -> empty_stats s = true \/ find_entry d "components" = None \/ find_entry d "components" = Some (EParts []) ->
  summarize argsort d = ([LResults; LOps 0 (counted s); LTime 0 (time_of s)], None, Ok tt).
Proof. exact summary_quiet. Qed.
Print Assumptions C100_quiet.
Example C100_case_quiet : let s := MkO (Some [("load"%string, 3); ("alu"%string, 4)]) (Some 20) None None None None None in
  map (fun d => fst (fst (summarize an_argsort d))) [[("stats"%string, EStats s)]; [("stats"%string, EStats no_stats); ("components"%string, EParts a_tree)]] =
  [[LResults; LOps 0 7; LTime 0 20]; [LResults; LOps 0 0; LTime 0 0]].
Proof. vm_compute. reflexivity. Qed.
(** If the entry stats is no dictionary, as a Stats object, it raises before it prints any number. *)
Theorem C100_object : forall argsort d e, find_entry d "stats" = Some e -> (forall s, e <> EStats s) -> summarize argsort d = ([LResults], None, Raise AttributeError).
Proof. exact summary_object. Qed.
Print Assumptions C100_object.
Example C100_case_object : summarize an_argsort [("components"%string, EParts a_tree); ("stats"%string, EObject)] = ([LResults], None, Raise AttributeError).
Proof. vm_compute. reflexivity. Qed.
(** It raises unless there are one or four types of operations. *)
Theorem C100_raises : forall argsort s l d, find_entry d "stats" = Some (EStats s) -> find_entry d "components" = Some (EParts l) -> empty_stats s = false -> l <> [] ->
  let types := List.length (match o_counts s with Some x => x | None => [] end) in
  snd (summarize argsort d) = if (types =? 1)%nat || (types =? 4)%nat then Ok tt else Raise ValueError.
Proof. exact summary_raises. Qed.
Print Assumptions C100_raises.
Example C100_case_raises : let s n := MkO (Some (map (fun t => (t, 1)) (firstn n ["load"; "set"; "alu"; "mvm"; "hlt"]%string))) None None None None None None in
  map (fun n => snd (summarize an_argsort [("stats"%string, EStats (s n)); ("components"%string, EParts a_tree)])) [0; 1; 2; 4; 5]%nat =
  [Raise ValueError; Ok tt; Raise ValueError; Ok tt; Raise ValueError].
Proof. vm_compute. reflexivity. Qed.
(** With four types, an average may be drawn under the name of another type. *)
Theorem C100_label_refuted : exists d s l argsort out g, find_entry d "stats" = Some (EStats s) /\ find_entry d "components" = Some (EParts l) /\ sorts argsort /\
  summarize argsort d = (out, Some g, Ok tt) /\ o_load s = Some 50 /\ ~ In ("load"%string, 50) (f_averages g) /\ In ("set"%string, 50) (f_averages g).
Proof. exact label_refuted. Qed.
Print Assumptions C100_label_refuted.
(** Given what RAMwich.get_stats returns, whatever was simulated, it prints zeros and draws nothing. *)
Theorem C100_report_refuted : forall (A : arith) (g : rcfg A) nodes h d h' argsort, sim_report g nodes h = (Ok d, h') ->
  summarize argsort (as_entries d) = (LResults :: (match d with [] => [] | _ => [LOps 0 0; LTime 0 0] end), None, Ok tt).
Proof. exact report_blank. Qed.
Print Assumptions C100_report_refuted.
Example C100_case_report : match sim_report (sampled three) [(mvm_job, mvm_end)] [] with
  | (Ok d, h) => (firstn 4 (map (fun e => (fst e, s_count (snd e))) (skipn 18 (entries h d))), summarize an_argsort (as_entries d)) = ([("RRAM Xbar"%string, 12); ("DAC"%string, 6); ("ADC"%string, 12); ("Sample and Hold"%string, 24)], ([LResults; LOps 0 0; LTime 0 0], None, Ok tt))
  | _ => False end.
Proof. vm_compute. reflexivity. Qed.
