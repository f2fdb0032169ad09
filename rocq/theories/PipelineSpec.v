(** Independent specification of a core's pipeline. *)
From Verif Require Import PyBase PipelineModel.

Section Spec.
Context {op : Type} (hlt : op -> bool).

(** Executions: [preach] allows every order and every delay, [treach] lets time pass only when no
    step can be made (simpy processes all events of a time before the time advances). *)
Inductive preach (c : plat) (prog : list op) : pipe op -> Prop :=
| pr_init : preach c prog (pipe_init prog)
| pr_step a p p' : preach c prog p -> pstep hlt c a p = Some p' -> preach c prog p'.

Inductive treach (c : plat) (prog : list op) : pipe op -> Prop :=
| tr_init : treach c prog (pipe_init prog)
| tr_step a p p' : treach c prog p -> pstep hlt c a p = Some p' ->
    (a = PTick -> forall b, b <> PTick -> pstep hlt c b p = None) -> treach c prog p'.

(** Executions with the number of steps other than the passing of time. *)
Inductive psteps (c : plat) (prog : list op) : nat -> pipe op -> Prop :=
| ps_init : psteps c prog 0 (pipe_init prog)
| ps_step n a p p' : psteps c prog n p -> pstep hlt c a p = Some p' -> a <> PTick -> psteps c prog (S n) p'
| ps_tick n p p' : psteps c prog n p -> pstep hlt c PTick p = Some p' -> psteps c prog n p'.

(** Some time later, nothing else changed. *)
Definition later (n : Z) (p : pipe op) : pipe op :=
  MkPipe (p_now p + n) (p_in p) (p_f p) (p_b1 p) (p_d p) (p_b2 p) (p_e p) (p_active p)
    (p_started p) (p_finished p) (t_fput p) (t_dget p) (t_dput p) (t_eget p) (t_edone p).

(** The instructions up to and including the first hlt. *)
Fixpoint upto_hlt (prog : list op) : list op :=
  match prog with
  | [] => []
  | x :: l => if hlt x then [x] else x :: upto_hlt l
  end.

(** Three stages with one-entry buffers: when instruction i leaves the fetch stage, enters and
    leaves the decode stage, enters and leaves the execute stage. *)
Record row := MkRow { r_fput : Z; r_dget : Z; r_dput : Z; r_eget : Z; r_edone : Z }.
Definition next_row (lf ld x : Z) (r : row) : row :=
  let fput := Z.max (r_fput r + lf) (r_dget r) in
  let dget := Z.max fput (r_dput r) in
  let dput := Z.max (dget + ld) (r_eget r) in
  let eget := Z.max dput (r_edone r) in
  MkRow fput dget dput eget (eget + x).
Fixpoint rows (c : plat) (i : nat) (r : row) (n : nat) : list row :=
  match n with
  | O => []
  | S k => let r' := next_row (l_fetch c) (l_decode c) (l_exec c i) r in r' :: rows c (S i) r' k
  end.
Definition schedule (c : plat) (prog : list op) : list row :=
  rows c 0 (MkRow 0 0 0 0 0) (length (upto_hlt prog)).

(** Total execution time of the first n instructions. *)
Definition exec_sum (c : plat) (n : nat) : Z := zsum (map (l_exec c) (seq 0 n)).

Definition prefix {A} (a b : list A) : Prop := exists k, a = firstn k b.
End Spec.

(** For examples: perform the first enabled step of a list, else let time pass; [fuel] rounds. *)
Fixpoint run_greedy {op} (hlt : op -> bool) (c : plat) (acts : list pact) (fuel : nat) (p : pipe op) : pipe op :=
  match fuel with
  | O => p
  | S k => match flat_map (fun a => match pstep hlt c a p with Some p' => [p'] | None => [] end) acts with
           | p' :: _ => run_greedy hlt c acts k p'
           | [] => match p_active p with
                   | Some _ => p
                   | None => match pstep hlt c PTick p with Some p' => run_greedy hlt c acts k p' | None => p end
                   end
           end
  end.
