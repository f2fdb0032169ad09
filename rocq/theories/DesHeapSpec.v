(** Independent specification of the order of events (DesModel): simpy's queue as a heap with numbered items. *)
From Coq Require Import Permutation.
From Verif Require Import PyBase CoreModel DramModel RouterModel SystemModel DesModel.

(** simpy/core.py, Environment.schedule: heappush(self._queue, (self._now + delay, priority, next(self._eid), event)); the
    priorities are URGENT = 0 and NORMAL = 1 (simpy/events.py).  What a heap is does not matter for the order in which
    items are popped: the items are a list in any order, and the least one, as tuples are compared, is popped. *)
Definition item := (Z * Z * Z * ev)%type.
Definition it_time (x : item) : Z := fst (fst (fst x)).
Definition it_prio (x : item) : Z := snd (fst (fst x)).
Definition it_eid (x : item) : Z := snd (fst x).
Definition it_ev (x : item) : ev := snd x.
Definition less (x y : item) : Prop :=
  it_time x < it_time y \/ it_time x = it_time y /\ (it_prio x < it_prio y \/ it_prio x = it_prio y /\ it_eid x < it_eid y).
Definition prio_number (p : prio) : Z := match p with Urgent => 0 | Normal => 1 end.
(** The items of events scheduled one after the other, the first with number [eid]. *)
Fixpoint pushed (now eid : Z) (new : sched) : list item :=
  match new with
  | [] => []
  | (d, p, e) :: r => (now + d, prio_number p, eid, e) :: pushed now (eid + 1) r
  end.

Record heap_sim := MkHeapSim { h_now : Z; h_items : list item; h_eid : Z; h_node : dnode core cells_valid }.
(** Environment.step: the least item is popped, and the events scheduled by the processes it resumes are pushed. *)
Inductive heap_step (c : sys_cfg) : heap_sim -> heap_sim -> Prop :=
| heap_pops s x rest n new items : z_fin (h_node s) <> FEnd -> Permutation (h_items s) (x :: rest) -> (forall y, In y rest -> less x y) ->
    fire (real c) c (it_time x) (it_ev x) (h_node s) = DGo n new -> Permutation items (pushed (it_time x) (h_eid s) new ++ rest) ->
    heap_step c s (MkHeapSim (it_time x) items (h_eid s + zlen new) n).
(** The node starts its monitor and then its tiles (node.py:35-42). *)
Inductive heap_reach (c : sys_cfg) (j : job) (t0 : Z) : heap_sim -> Prop :=
| heap_first eid items tiles :
    tiles = map (fun i => tile_new (cells_new c (j_activation j) i) (j_cores j i) (j_prog j i)) (zrange (w_tiles (y_net c))) ->
    Permutation items (pushed t0 eid (start VMonitor :: map (fun i => start (VTile i)) (zrange (w_tiles (y_net c)))
                                      ++ (if w_tiles (y_net c) <=? 0 then [soon VAllTiles] else []))) ->
    heap_reach c j t0 (MkHeapSim t0 items (eid + 1 + Z.max 0 (w_tiles (y_net c)) + (if w_tiles (y_net c) <=? 0 then 1 else 0))
                                 (MkDNode tiles t0 t0 0 true FRunning))
| heap_next s s' : heap_reach c j t0 s -> heap_step c s s' -> heap_reach c j t0 s'.
(** The same time, node and queue. *)
Definition tagless (x : item) : Z * Z * ev := (it_time x, it_prio x, it_ev x).
Definition alike (h : heap_sim) (s : des (K := core) (M := cells_valid)) : Prop :=
  h_now h = w_now s /\ h_node h = w_node s /\ Permutation (map tagless (h_items h)) (map (fun x => (e_time x, prio_number (e_prio x), e_ev x)) (w_queue s)).
