(** Independent specification of a node running tile programs. *)
From Verif Require Import PyBase MemoryModel CoreModel DramModel DramSpec RouterModel RouterSpec SystemModel.

(** Everything that can happen: any enabled action at any later time. *)
Inductive sreach (c : sys_cfg) (j : job) : Z -> sys -> Prop :=
| sr_start t : sreach c j t (sys_start c t j)
| sr_step t t' a s s' : sreach c j t s -> t <= t' -> sstep c t' a s = Some s' -> sreach c j t' s'.

Definition on_node (c : sys_cfg) (i : Z) : Prop := 0 <= i < w_tiles (y_net c).

(** All programs are completed without an exception. *)
Definition completed_run (c : sys_cfg) (s : sys) : Prop :=
  s_crash s = None /\ forall i, on_node c i -> t_prog (s_tile s i) = [].
(** Every tile program contains a halt instruction. *)
Definition all_halt (c : sys_cfg) (j : job) : Prop := forall i, on_node c i -> In THalt (j_prog j i).

(** Every memory cell was stored to at most once (by the activation, a store or a receive). *)
Definition written_once (h : list entry) : Prop :=
  forall h1 e1 h2 e2 h3 a, h = h1 ++ e1 :: h2 ++ e2 :: h3 -> stores e1 a -> ~ stores e2 a.

(** Two configurations that differ in latencies only. *)
Definition same_shape (c c' : sys_cfg) : Prop :=
  y_core c = y_core c' /\ y_size c = y_size c' /\ w_tiles (y_net c) = w_tiles (y_net c') /\ w_nodes (y_net c) = w_nodes (y_net c').
Definition usable_latencies (c : sys_cfg) : Prop :=
  0 < y_lat c /\ 0 <= w_intra_lat (y_net c) /\ 0 <= w_inter_lat (y_net c) /\ 0 <= w_data_lat (y_net c).

(** For examples: run a list of actions. *)
Fixpoint srun (capacity : Z) (c : sys_cfg) (l : list (Z * sact)) (s : sys) : option sys :=
  match l with
  | [] => Some s
  | (t, a) :: l' => match sstep_cap capacity c t a s with Some s' => srun capacity c l' s' | None => None end
  end.
Fixpoint sascending (t : Z) (l : list (Z * sact)) : bool :=
  match l with [] => true | (t', _) :: l' => (t <=? t') && sascending t' l' end.

(** The blocks a program sent: address, shape and data; the blocks its receives took in; and the
    numbers of packets sent to and taken from a tile. *)
Definition sent_blocks (l : list tevent) : list (Z * Z * Z * list Z) :=
  flat_map (fun e => match e with EvSend a _ w v data => [(a, w, v, data)] | _ => [] end) l.
Definition received_blocks (l : list tevent) : list (Z * list (list Z)) :=
  flat_map (fun e => match e with EvRecv a _ _ _ rows => [(a, rows)] | _ => [] end) l.
Definition packets_sent_to (k : Z) (l : list tevent) : Z :=
  zsum (map (fun e => match e with EvSend _ tg _ v _ => if tg =? k then v else 0 | _ => 0 end) l).
Definition packets_taken_from (k : Z) (l : list tevent) : Z :=
  zsum (map (fun e => match e with EvRecv _ src _ _ rows | EvMismatch _ src _ _ rows => if src =? k then zlen rows else 0 | _ => 0 end) l).
(** The packets the receives for tile [k] took, in order. *)
Definition taken_packets (k : Z) (l : list tevent) : list (list Z) :=
  flat_map (fun e => match e with EvRecv _ src _ _ rows | EvMismatch _ src _ _ rows => if src =? k then rows else [] | _ => [] end) l.

(** The memory requests of the tile's program (number -1) that were completed, in this order. *)
Definition program_writes (h : list entry) : list (Z * list (list Z)) :=
  flat_map (fun e => match e with
                     | EDone r _ _ _ => if q_core r =? -1 then match q_kind r with RWrite rows => [(q_start r, rows)] | _ => [] end else []
                     | _ => [] end) h.
Definition program_reads (h : list entry) : list (Z * Z * Z * list Z) :=
  flat_map (fun e => match e with
                     | EDone r _ _ data => if q_core r =? -1 then match q_kind r with RRead w v => [(q_start r, w, v, data)] | _ => [] end else []
                     | _ => [] end) h.

(** The instruction an event belongs to. *)
Definition instruction_of (e : tevent) : top :=
  match e with
  | EvSend a tg w v _ => TSend a tg w v
  | EvRecv a src w v _ | EvMismatch a src w v _ => TRecv a src w v
  | EvHalt => THalt
  end.
(** The instructions without an event: all that is left, but for the one being executed if its event has happened. *)
Definition instructions_left (t : tile) : list top :=
  match t_phase t with PSending _ | PRecvWrite _ => tl (t_prog t) | _ => t_prog t end.
(** All packets of a program's sends, in order. *)
Definition packets_of (i : Z) (l : list tevent) : list packet :=
  flat_map (fun e => match e with EvSend _ tg w v data => map (fun r => MkPacket i tg (block data (r * w) w)) (zrange v) | _ => [] end) l.
