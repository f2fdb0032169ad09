(** Independent specification of the summary: where components are, which are the busiest. *)
From Verif Require Import PyBase VisualModel.
From Coq Require Import String Permutation Sorted.
Open Scope Z_scope.

(** The component [x] is reached from the list [l] by the positions [p]; [ids] are the ids on the way. *)
Inductive place : list comp -> list nat -> list (option Z) -> comp -> Prop :=
| place_here l k x : nth_error l k = Some x -> place l [k] [cid x] x
| place_in l k y p ids x : nth_error l k = Some y -> place (cparts y) p ids x -> place l (k :: p) (cid y :: ids) x.
(** A component comes before its parts, and before those to its right. *)
Inductive before : list nat -> list nat -> Prop :=
| before_nil a q : before [] (a :: q)
| before_lt a b p q : (a < b)%nat -> before (a :: p) (b :: q)
| before_eq a p q : before p q -> before (a :: p) (a :: q).
Notation visit := (list nat * list (option Z) * comp)%type.
(** [vs] are all components of [l] at the depths [ok], each once, in that order. *)
Definition tour (ok : nat -> Prop) (l : list comp) (vs : list visit) : Prop :=
  (forall p ids x, In (p, ids, x) vs <-> place l p ids x /\ ok (List.length p)) /\ StronglySorted before (map (fun v => fst (fst v)) vs).
(** The operations and the time of some statistics, and the operations of a component. *)
Definition counts_of (s : ostats) : list (string * Z) := match o_counts s with Some l => l | None => [] end.
Definition counted (s : ostats) : Z := fold_right (fun y n => snd y + n) 0 (counts_of s).
Definition time_of (s : ostats) : Z := match o_time s with Some t => t | None => 0 end.
Definition operations (x : comp) : Z := counted (cstats x).
Definition row_of (v : visit) : list (option Z) * Z := (snd (fst v), operations (snd v)).
Definition lines_of (v : visit) : list line :=
  let d := List.length (fst (fst v)) in
  [LName (d - 1) (ctype (snd v)) (cid (snd v)); LOps d (operations (snd v)); LTime d (time_of (cstats (snd v)))].
(** [shown] are all rows, or ten of them, and none left out has more operations than one of them. *)
Definition busiest (rows shown : list (list (option Z) * Z)) : Prop :=
  exists rest, Permutation rows (shown ++ rest) /\ (rest = [] \/ List.length shown = 10%nat) /\ forall a b, In a shown -> In b rest -> snd b <= snd a.
(** numpy's argsort: a permutation of the positions, in order of the values. *)
Definition sorts (argsort : list Z -> list nat) : Prop :=
  forall l, Permutation (argsort l) (seq 0 (List.length l)) /\ StronglySorted Z.le (map (fun i => nth i l 0) (argsort l)).
(** The names of the dictionary of a report, all with Stats objects. *)
Definition as_entries {B} (d : list (string * B)) : sumdict := map (fun kv => (fst kv, EObject)) d.
