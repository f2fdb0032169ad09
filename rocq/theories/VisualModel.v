(** utils/visualize.py: the summary of a simulation.  Both calls of it (ramwich.py:206, run.py:24) are commented out.
    What is drawn is represented by its data; colours, titles, layout, the file and window are not. *)
From Verif Require Import PyBase.
From Coq Require Import String.
Open Scope Z_scope.

(** A dictionary of statistics, as the functions expect it: its entries op_counts, total_execution_time, avg_load_time, avg_set_time,
    avg_alu_time, avg_mvm_time and completion_times, which may be missing.  Other entries and entries of other types are not represented. *)
Record ostats := MkO { o_counts : option (list (string * Z)); o_time : option Z; o_load : option Z; o_set : option Z; o_alu : option Z; o_mvm : option Z; o_done : option (list Z) }.
Definition no_stats : ostats := MkO None None None None None None None.
(** A node, tile or core: its entries component_type, component_id, stats and components, which may be missing. *)
Inductive comp := MkComp (c_type : option string) (c_id : option Z) (c_stats : option ostats) (c_parts : option (list comp)).
Definition ctype (x : comp) : option string := let 'MkComp t _ _ _ := x in t.
Definition cid (x : comp) : option Z := let 'MkComp _ i _ _ := x in i.
Definition cstats (x : comp) : ostats := let 'MkComp _ _ s _ := x in match s with Some s => s | None => no_stats end.
Definition cparts (x : comp) : list comp := let 'MkComp _ _ _ p := x in match p with Some l => l | None => [] end.
(** The argument of summarize_results: a dict.  Its values are Stats objects (as in a StatsDict), or what the functions expect. *)
Inductive entry := EObject | EStats (s : ostats) | EParts (l : list comp).
Definition sumdict : Type := list (string * entry).
Fixpoint find_entry (d : sumdict) (k : string) : option entry :=
  match d with [] => None | (x, v) :: r => if String.eqb x k then Some v else find_entry r k end.

(** sum(stats.get("op_counts", {}).values()): visualize.py:23, 69, 76, 83, 129. *)
Definition op_total (s : ostats) : Z := match o_counts s with Some l => zsum (map snd l) | None => 0 end.
(** stats.get("total_execution_time", 0): visualize.py:24, 130. *)
Definition or_zero (x : option Z) : Z := match x with Some z => z | None => 0 end.
(** not overall_stats: visualize.py:35. *)
Definition empty_stats (s : ostats) : bool :=
  match s with MkO None None None None None None None => true | _ => false end.

(** What is printed; the indent is in units of two blanks.  str.capitalize is not represented. *)
Inductive line := LResults | LOps (indent : nat) (n : Z) | LTime (indent : nat) (n : Z) | LComponents | LName (indent : nat) (t : option string) (i : option Z).
(** What is drawn: operation counts, average times, operations per component (labelled by the ids on the way to it), timeline. *)
Record figure := MkFigure { f_counts : list (string * Z); f_averages : list (string * Z); f_rows : list (list (option Z) * Z); f_timeline : option (list Z) }.

(** axs.bar(op_types, avg_times): visualize.py:51-59; matplotlib broadcasts the two against each other. *)
Definition averages (names : list string) (times : list Z) : res (list (string * Z)) :=
  match names with
  | [a] => Ok (map (fun t => (a, t)) times)
  | _ => if (List.length names =? List.length times)%nat then Ok (combine names times) else Raise ValueError
  end.
Definition avg_times (s : ostats) : list Z := [or_zero (o_load s); or_zero (o_set s); or_zero (o_alu s); or_zero (o_mvm s)].

(** The rows of nodes, tiles and cores: visualize.py:63-85. *)
Definition core_row (n t : option Z) (x : comp) : list (option Z) * Z := ([n; t; cid x], op_total (cstats x)).
Definition tile_rows (n : option Z) (x : comp) : list (list (option Z) * Z) := ([n; cid x], op_total (cstats x)) :: map (core_row n (cid x)) (cparts x).
Definition node_rows (x : comp) : list (list (option Z) * Z) := ([cid x], op_total (cstats x)) :: flat_map (tile_rows (cid x)) (cparts x).
Definition all_rows (l : list comp) : list (list (option Z) * Z) := flat_map node_rows l.
(** The ten largest: visualize.py:88-91.  [argsort] is numpy's. *)
Definition top_rows (argsort : list Z -> list nat) (rows : list (list (option Z) * Z)) : list (list (option Z) * Z) :=
  if (10 <? List.length rows)%nat
  then let order := argsort (map snd rows) in map (fun i => nth i rows ([], 0)) (skipn (List.length order - 10) order)
  else rows.

(** _print_hierarchical_stats: visualize.py:120-133. *)
Fixpoint print_comp (indent : nat) (x : comp) : list line :=
  let 'MkComp t i s p := x in
  let st := match s with Some s => s | None => no_stats end in
  LName indent t i :: LOps (indent + 1) (op_total st) :: LTime (indent + 1) (or_zero (o_time st)) ::
  match p with
  | Some l => (fix go (l : list comp) := match l with [] => [] | y :: r => print_comp (indent + 1) y ++ go r end) l
  | None => []
  end.
Definition print_all (l : list comp) : list line := flat_map (print_comp 0) l.

(** visualize_results: visualize.py:30-117, with the two entries of its argument; [parts] is None for an object that is no list
    of components: the loop of line 67 then raises AttributeError. *)
Definition visualize (argsort : list Z -> list nat) (s : ostats) (parts : option (list comp)) : list line * option figure * res unit :=
  if empty_stats s || match parts with Some [] => true | _ => false end then ([], None, Ok tt)
  else
    let counts := match o_counts s with Some x => x | None => [] end in
    match averages (map fst counts) (avg_times s), parts with
    | Raise e, _ => ([], None, Raise e)
    | Ok _, None => ([], None, Raise AttributeError)
    | Ok a, Some l => (LComponents :: print_all l, Some (MkFigure counts a (top_rows argsort (all_rows l)) (o_done s)), Ok tt)
    end.
(** simulator_stats.get("components", []): visualize.py:21, 33; an empty dict counts as no components. *)
Definition the_parts (d : sumdict) : option (list comp) :=
  match find_entry d "components" with
  | Some (EParts l) => Some l
  | Some (EStats c) => if empty_stats c then Some [] else None
  | Some EObject => None
  | None => Some []
  end.
(** summarize_results: visualize.py:10-27. *)
Definition summarize (argsort : list Z -> list nat) (d : sumdict) : list line * option figure * res unit :=
  match d with
  | [] => ([LResults], None, Ok tt)
  | _ =>
    match find_entry d "stats" with
    | Some EObject | Some (EParts _) => ([LResults], None, Raise AttributeError)
    | r =>
      let s := match r with Some (EStats s) => s | _ => no_stats end in
      let '(out, f, x) := visualize argsort s (the_parts d) in
      (LResults :: LOps 0 (op_total s) :: LTime 0 (or_zero (o_time s)) :: out, f, x)
    end
  end.
