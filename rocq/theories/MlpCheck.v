(** The two runs of the example. *)
From Verif Require Import PyBase SymMachine MlpRun.
Lemma mlp_runs : holds_in mlp_done (brun mlp_geo mlp_schedule mlp_start) = true.
Proof. vm_compute. reflexivity. Qed.
Lemma mlp_hangs : holds_in mlp_stuck (brun mlp_geo hang_schedule mlp_start) = true.
Proof. vm_compute. reflexivity. Qed.
