(** stats.py: statistics objects and dictionaries. *)
From Verif Require Import PyBase.
From Coq Require Import String.

(** The numbers of energies and areas.  The code uses float64; the theorems are about exact rationals,
    and where rounding matters about float64. *)
Record arith := Arith {
  num : Type; nadd : num -> num -> num; nmul : num -> num -> num; ndiv : num -> num -> num; nint : Z -> num }.

(** Stats: stats.py:6-10. *)
Record stats (A : arith) := MkStats { s_count : Z; s_dyn : num A; s_leak : num A; s_area : num A }.
Arguments MkStats {A}. Arguments s_count {A}. Arguments s_dyn {A}. Arguments s_leak {A}. Arguments s_area {A}.

Section Stats.
Context {A : arith}.

(** Stats(): stats.py:7-10. *)
Definition stats0 : stats A := MkStats 0 (nint A 0) (nint A 0) (nint A 0).

(** Stats.merge: stats.py:12-18, as a function of the two objects' fields. *)
Definition smerge (a b : stats A) : stats A :=
  MkStats (s_count a + s_count b) (nadd A (s_dyn a) (s_dyn b)) (nadd A (s_leak a) (s_leak b)) (nadd A (s_area a) (s_area b)).

(** Stats objects are mutable and shared: a heap of objects, and references to them. *)
Definition heap : Type := list (stats A).
Definition deref (h : heap) (r : nat) : stats A := nth r h stats0.
Definition new (h : heap) (s : stats A) : nat * heap := (List.length h, h ++ [s]).

(** StatsDict: stats.py:21; a dict keeps the order in which keys were inserted. *)
Definition sdict : Type := list (string * nat).
Fixpoint dget (d : sdict) (k : string) : option nat :=
  match d with
  | [] => None
  | (x, r) :: rest => if String.eqb x k then Some r else dget rest k
  end.

(** The loop body of StatsDict.merge: stats.py:27-30. *)
Definition merge_item (acc : sdict * heap) (kv : string * nat) : sdict * heap :=
  let '(d, h) := acc in
  match dget d (fst kv) with
  | Some r => (d, upd h r (smerge (deref h r) (deref h (snd kv))))
  | None => (d ++ [kv], h)
  end.
(** StatsDict.merge: stats.py:24-31. *)
Definition dmerge (d : sdict) (h : heap) (other : sdict) : sdict * heap := fold_left merge_item other (d, h).

(** StatsDict.update_leakage_energy: stats.py:33-37. *)
Definition leak_item (cycles : Z) (h : heap) (kv : string * nat) : heap :=
  let s := deref h (snd kv) in
  upd h (snd kv) (MkStats (s_count s) (s_dyn s) (nmul A (s_leak s) (nint A cycles)) (s_area s)).
Definition update_leakage (h : heap) (d : sdict) (cycles : Z) : heap := fold_left (leak_item cycles) d h.

(** StatsDict.summary: stats.py:39-44. *)
Definition summary (h : heap) (d : sdict) : stats A :=
  fold_left (fun acc kv => smerge acc (deref h (snd kv))) d stats0.

(** A dict display or the assignments of a get_stats method: one new object per entry. *)
Fixpoint fresh_dict (h : heap) (l : list (string * stats A)) : sdict * heap :=
  match l with
  | [] => ([], h)
  | (k, s) :: rest => let '(r, h1) := new h s in let '(d, h2) := fresh_dict h1 rest in ((k, r) :: d, h2)
  end.
End Stats.
Arguments heap : clear implicits.
