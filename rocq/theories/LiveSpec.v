(** Independent specification of progress and completion of a node. *)
From Verif Require Import PyBase MemoryModel CoreModel DramModel DramSpec RouterModel RouterSpec SystemModel SystemSpec.

(** A poll of a router that still has packets: it only waits for the next poll. *)
Definition idle_poll (s : sys) (a : sact) : Prop := exists i, a = SNet (NPoll i) /\ r_queue (n_router (s_net s) i) <> [].
(** From time [t] on nothing else can happen. *)
Definition wedged (c : sys_cfg) (t : Z) (s : sys) : Prop := forall t' a s', t <= t' -> sstep c t' a s = Some s' -> idle_poll s a.

(** A read (of a proper range of addresses) that waits although all its data is valid. *)
Definition missed_read (c : sys_cfg) (s : sys) : Prop :=
  exists i r, on_node c i /\ In r (d_pending (t_dram (s_tile s i))) /\ proper r /\ forall a, covers r a -> znth false (d_valid (t_dram (s_tile s i))) a = true.

(** Executions from a state on, with the number of their steps other than such polls. *)
Inductive sworks (c : sys_cfg) (t : Z) (s : sys) : Z -> Z -> sys -> Prop :=
| sw_refl : sworks c t s 0 t s
| sw_step n t1 s1 a t2 s2 : sworks c t s n t1 s1 -> t1 <= t2 -> sstep c t2 a s1 = Some s2 -> ~ idle_poll s1 a -> sworks c t s (n + 1) t2 s2
| sw_poll n t1 s1 a t2 s2 : sworks c t s n t1 s1 -> t1 <= t2 -> sstep c t2 a s1 = Some s2 -> idle_poll s1 a -> sworks c t s n t2 s2.
(** A bound for this number that can be read off the programs. *)
Definition op_steps (o : top) : Z :=
  match o with TSend _ _ _ v => 7 + 7 * Z.max 0 v | TRecv _ _ _ v => 7 + 3 * Z.max 0 v | THalt => 4 end.
Definition job_steps (c : sys_cfg) (j : job) : Z :=
  1 + over_tiles (y_net c) (fun i => 7 * zsum (map (fun x => zlen (snd x)) (j_cores j i)) + zsum (map op_steps (j_prog j i))).

(** The processes of a tile that read its memory: cores with a load instruction, and the program if it has a send instruction. *)
Definition loads (l : list cop) : bool := existsb (fun o => match o with CLoad _ _ _ _ => true | _ => false end) l.
Definition sends (l : list top) : bool := existsb (fun o => match o with TSend _ _ _ _ => true | _ => false end) l.
Definition readers (j : job) (i : Z) : Z := zlen (filter (fun x => loads (snd x)) (j_cores j i)) + (if sends (j_prog j i) then 1 else 0).
