(** Independent specification of the times of packets. *)
From Verif Require Import PyBase RouterModel RouterSpec.

(** How many of the actions [f] of an execution happened until time [t]. *)
Definition until (f : nact -> bool) (t : Z) (l : list (Z * nact)) : Z := zlen (filter (fun x => f (snd x) && (fst x <=? t)) l).
(** The calls of add_send_packet by tile [i], their returns, and the packets of tile [i] that reached their receive buffers. *)
Definition call_of (i : Z) (a : nact) : bool := match a with NSubmit k _ _ => k =? i | _ => false end.
Definition return_of (i : Z) (a : nact) : bool := match a with NAdded k => k =? i | _ => false end.
Definition arrival_of (i : Z) (a : nact) : bool := match a with NStore k => k =? i | _ => false end.
(** Packets of tile [i] that leave its queue, and the ends of their journeys. *)
Definition take_of (i : Z) (a : nact) : bool := match a with NTake k => k =? i | _ => false end.
Definition travel_of (i : Z) (a : nact) : bool := match a with NTravel k => k =? i | _ => false end.
(** Time passes only when the routers can do nothing (simpy processes all events of a time before the time advances); the calls of the
    tiles come at any time. *)
Fixpoint urgent (c : net_cfg) (t0 : Z) (l : list (Z * nact)) (s : net) : Prop :=
  match l with
  | [] => True
  | (t, a) :: l' => (forall t' b, t0 <= t' < t -> tile_call b = false -> nstep c t' b s = None) /\
      match nstep c t a s with Some s' => urgent c t l' s' | None => False end
  end.
(** The time of the last action of [l] (or [t0]). *)
Fixpoint end_of (t0 : Z) (l : list (Z * nact)) : Z := match l with [] => t0 | (t, _) :: l' => end_of t l' end.
