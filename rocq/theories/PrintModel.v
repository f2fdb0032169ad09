(** StatsDict.print: stats.py:46-53. *)
From Verif Require Import PyBase StatsModel.
From Coq Require Import String.
Open Scope Z_scope.

(** 10**-12, a float: the one nearest to it. *)
Definition pico {A : arith} : num A := ndiv A (nint A 1) (nint A (10 ^ 12)).
(** What is printed: total dynamic and leakage energy in J, total area in mm^2 (lines 49-51), the entries (lines 52-53).  The text is not represented. *)
Record printout (A : arith) := MkPrint { pr_dyn : num A; pr_leak : num A; pr_area : num A; pr_lines : list (string * stats A) }.
Arguments MkPrint {A}. Arguments pr_dyn {A}. Arguments pr_leak {A}. Arguments pr_area {A}. Arguments pr_lines {A}.
Definition print_stats {A : arith} (h : heap A) (d : sdict) : printout A :=
  MkPrint (nmul A (s_dyn (summary h d)) pico) (nmul A (s_leak (summary h d)) pico) (s_area (summary h d)) (map (fun kv => (fst kv, deref h (snd kv))) d).
