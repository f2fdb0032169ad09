(** Independent specification: how many events a simulation processes. *)
From Verif Require Import PyBase CoreModel DramModel RouterModel SystemModel DesModel DesSpec.

(** The next event is neither one of the monitor nor one of the polling of a send queue. *)
Definition works (s : sim) : Z :=
  match w_queue s with
  | x :: _ => match e_ev x with VMonitor | VPoll _ | VPollTime _ => 0 | _ => 1 end
  | [] => 0
  end.
(** The number of such events among the next [n]. *)
Fixpoint events_of_work (c : sys_cfg) (n : nat) (s : sim) : Z :=
  match n with
  | O => 0
  | S n => match des_step (real c) c s with NStep s' => works s + events_of_work c n s' | _ => 0 end
  end.
Definition sum_of {A} (f : A -> Z) (l : list A) : Z := zsum (map f l).
(** An instruction of a tile: a constant, and for each packet sent or received. *)
Definition op_events (o : top) : Z :=
  match o with
  | TSend _ _ _ vec => 11 + 10 * Z.max 0 vec
  | TRecv _ _ _ vec => 11 + 3 * Z.max 0 vec
  | THalt => 8
  end.
(** 23 for each instruction of a core; constants for each core, tile and node. *)
Definition tile_events (j : job) (i : Z) : Z :=
  5 + sum_of (fun kp => 7 + 23 * zlen (snd kp)) (j_cores j i) + sum_of op_events (j_prog j i).
Definition all_events (c : sys_cfg) (j : job) : Z := 4 + sum_of (tile_events j) (zrange (w_tiles (y_net c))).
