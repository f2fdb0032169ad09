(** Independent specification of the routers of a node. *)
From Verif Require Import PyBase RouterModel.

(** Everything that can happen: any enabled action at any later time. *)
Inductive nreach (c : net_cfg) : Z -> net -> Prop :=
| nr_init t : nreach c t net_init
| nr_step t t' a s s' : nreach c t s -> t <= t' -> nstep c t' a s = Some s' -> nreach c t' s'.

(** The packets for tile [j], and those from tile [i], as sequences of data. *)
Definition for_tile (j : Z) (l : list packet) : list (list Z) :=
  map pk_data (filter (fun p => pk_dst p =? j) l).
Definition from_tile (i : Z) (l : list (Z * list Z)) : list (list Z) :=
  map snd (filter (fun x => fst x =? i) l).

(** Handed out by the buffer but not yet returned to the tile. *)
Definition in_hand (r : router) : list (Z * list Z) :=
  match r_client r with KGot src d => [(src, d)] | _ => [] end.

(** Taken from the queue but not yet stored in the buffer of the receiver. *)
Definition in_flight (r : router) : list packet :=
  match r_sender r with STravel p _ _ | SOffer p _ => [p] | _ => [] end.
(** Stored, but not yet counted by the receiver; not yet counted by the sender. *)
Definition just_stored (r : router) : list packet :=
  match r_sender r with SStored p _ => [p] | _ => [] end.
Definition being_sent (r : router) : list packet :=
  match r_sender r with SIdle => [] | STravel p _ _ | SOffer p _ | SStored p _ | SArrived p _ => [p] end.
Definition being_added (r : router) : Z := match r_client r with KAdding _ => 1 | _ => 0 end.

(** Sum over the tiles of a node. *)
Definition over_tiles (c : net_cfg) (f : Z -> Z) : Z := zsum (map f (zrange (w_tiles c))).

(** Steps of the routers themselves other than polling; the tiles' calls and polls do not count. *)
Definition router_work (a : nact) : bool :=
  match a with
  | NSubmit _ _ _ | NRead _ _ | NHalt _ | NPoll _ => false
  | _ => true
  end.
Definition tile_call (a : nact) : bool :=
  match a with NSubmit _ _ _ | NRead _ _ | NHalt _ => true | _ => false end.
(** Later states without new calls of the tiles, with the number of steps other than polls. *)
Inductive nwork (c : net_cfg) : Z -> net -> nat -> Z -> net -> Prop :=
| nw_refl t s : nwork c t s 0 t s
| nw_step t s n t1 s1 t2 s2 a : nwork c t s n t1 s1 -> t1 <= t2 -> tile_call a = false ->
    nstep c t2 a s1 = Some s2 -> nwork c t s (if router_work a then S n else n) t2 s2.

(** For examples: run a list of actions. *)
Fixpoint nrun (c : net_cfg) (l : list (Z * nact)) (s : net) : option net :=
  match l with
  | [] => Some s
  | (t, a) :: l' => match nstep c t a s with Some s' => nrun c l' s' | None => None end
  end.
Fixpoint nascending (t : Z) (l : list (Z * nact)) : bool :=
  match l with [] => true | (t', _) :: l' => (t <=? t') && nascending t' l' end.
