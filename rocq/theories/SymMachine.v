(** A machine that executes programs on symbolic values, as a proof tool: it follows one schedule of a node in large steps, and knows
    of each value only how it is computed.  SymCore, SymTile and SymNet prove that the node can do the same with integers. *)
From Verif Require Import PyBase VfuModel MvmuModel CoreModel DramModel DramSpec RouterModel SystemModel.
From Coq Require Import ZifyBool.
Open Scope Z_scope.

(** A number, cell [i] of the input, output [j] of unit [u] of core [k] of tile [t], a sum, a rectified value, or anything. *)
Inductive sv := VC (z : Z) | VIn (i : Z) | VU (t k u j : Z) | VAdd (a b : sv) | VRelu (a : sv) | VX.
Fixpoint sv_eqb (a b : sv) : bool :=
  match a, b with
  | VC x, VC y | VIn x, VIn y => x =? y
  | VU t k u j, VU t' k' u' j' => (t =? t') && (k =? k') && (u =? u') && (j =? j')
  | VAdd x y, VAdd x' y' => sv_eqb x x' && sv_eqb y y'
  | VRelu x, VRelu y => sv_eqb x y
  | _, _ => false
  end.
Fixpoint svs_eqb (a b : list sv) : bool :=
  match a, b with
  | [], [] => true
  | x :: a', y :: b' => sv_eqb x y && svs_eqb a' b'
  | _, _ => false
  end.

(** Sizes: of a unit, number of units, of the cache; of the part of the memories that is used; tiles and nodes.  [g_in t k u] are the
    inputs with which the unit is to be used. *)
Record geo := MkGeo { g_n : Z; g_m : Z; g_q : Z; g_l : Z; g_t : Z; g_nodes : Z; g_in : Z -> Z -> Z -> option (list sv) }.

Inductive scph := SReady | SWait (id a : Z) | SHalted.
Record score := MkSCore { sc_regs : list sv; sc_prog : list cop; sc_ph : scph }.
Inductive stph := SNext | SSendRead (id : Z) | SSending (rows : list (list sv)) | SRecv (got : list (list sv)).
(** Queue and waiting reads with the time of submission erased; [st_cnt] counts the requests; [st_cl] is the source the router is
    reading from. *)
Record stile := MkSTile {
  st_mem : list (option sv); st_queue : list req; st_pend : list req; st_cnt : Z; st_cores : list score;
  st_prog : list top; st_ph : stph; st_cl : option Z; st_run : bool }.

Section Machine.
Context (g : geo).
Let n := g_n g.
Let m := g_m g.
Let regs_total := 2 * (m * n) + g_q g.

Definition in_cache (s l : Z) : bool := (2 * (m * n) <=? s) && (s + l <=? regs_total).
Definition sreadable (s l : Z) : bool := (0 <? l) && (in_cache s l || (m * n <=? s) && (s + l <=? 2 * (m * n)) && (s mod n + l <=? n)).
Definition swritable (s l : Z) : bool := (0 <? l) && (in_cache s l || (0 <=? s) && (s + l <=? m * n) && (s mod n + l <=? n)).

Definition guard {A} (b : bool) (x : option A) : option A := if b then x else None.
Notation "'do' a <- e ; f" := (match e with Some a => f | None => None end) (at level 200, a pattern, e at level 100, f at level 200).

(** The registers after an instruction that does not use the memory. *)
Definition slocal (i k : Z) (r : list sv) (o : cop) : option (list sv) :=
  match o with
  | CSet d imm v => guard (swritable d v && int32b imm) (Some (blit r d (repeat (VC imm) (Z.to_nat v))))
  | CCopy d s v => guard (swritable d v && sreadable s v) (Some (blit r d (block r s v)))
  | CVfu Vadd d s1 (Some s2) v =>
      guard (swritable d v && sreadable s1 v && sreadable s2 v) (Some (blit r d (zipwith VAdd (block r s1 v) (block r s2 v))))
  | CVfu Vrelu d s None v => guard (swritable d v && sreadable s v) (Some (blit r d (map VRelu (block r s v))))
  | CMvm [u] =>
      do ins <- g_in g i k u;
      guard ((0 <=? u) && (u <? m) && svs_eqb (block r (u * n) n) ins)
        (Some (blit (blit r (m * n + u * n) (map (VU i k u) (zrange n))) (u * n) (repeat VX (Z.to_nat n))))
  | _ => None
  end.
Definition reg_address (r : list sv) (s : Z) : option Z :=
  guard (sreadable s 1) match znth VX r s with VC a => Some a | _ => None end.

Definition core_of (t : stile) (k : Z) : option score := guard (0 <=? k) (nth_error (st_cores t) (Z.to_nat k)).
Definition with_core (t : stile) (k : Z) (s : score) : stile :=
  MkSTile (st_mem t) (st_queue t) (st_pend t) (st_cnt t) (upd (st_cores t) (Z.to_nat k) s) (st_prog t) (st_ph t) (st_cl t) (st_run t).
Definition with_phase (t : stile) (p : list top) (ph : stph) (cl : option Z) (run : bool) : stile :=
  MkSTile (st_mem t) (st_queue t) (st_pend t) (st_cnt t) (st_cores t) p ph cl run.
Definition with_queue (t : stile) (q p : list req) (cnt : Z) : stile :=
  MkSTile (st_mem t) q p cnt (st_cores t) (st_prog t) (st_ph t) (st_cl t) (st_run t).

(** A local instruction or hlt. *)
Definition m_local (i k : Z) (t : stile) : option stile :=
  do s <- core_of t k;
  match sc_ph s, sc_prog s with
  | SReady, CHlt :: _ => Some (with_core t k (MkSCore (sc_regs s) (sc_prog s) SHalted))
  | SReady, o :: rest => do r <- slocal i k (sc_regs s) o; Some (with_core t k (MkSCore r rest SReady))
  | _, _ => None
  end.

(** A proper range of the used part of the memory. *)
Definition inside (a l : Z) : bool := (0 <=? a) && (0 <? l) && (a + l <=? g_l g).
Definition is_some {A} (x : option A) : bool := match x with Some _ => true | None => false end.
Definition sready (mem : list (option sv)) (r : req) : bool := forallb is_some (block mem (q_start r) (q_length r)).
Definition contents (l : list (option sv)) : list sv := map (fun x => match x with Some v => v | None => VX end) l.

(** A load or a send submits its read. *)
Definition submit_read (t : stile) (core a w v : Z) : option stile :=
  guard (inside a (w * v) && (0 <=? w) && (0 <=? v) && st_run t)
    (Some (with_queue t (st_queue t ++ [MkReq (st_cnt t) core a 0 (RRead w v)]) (st_pend t) (st_cnt t + 1))).
Definition m_issue (k : Z) (t : stile) : option stile :=
  do s <- core_of t k;
  match sc_ph s, sc_prog s with
  | SReady, CLoad d r w v :: _ =>
      do a <- reg_address (sc_regs s) r;
      do t' <- submit_read t k a w v;
      Some (with_core t' k (MkSCore (sc_regs s) (sc_prog s) (SWait (st_cnt t) a)))
  | _, _ => None
  end.
Definition m_send (t : stile) : option stile :=
  match st_ph t, st_prog t with
  | SNext, TSend a _ w v :: _ =>
      do t' <- submit_read t (-1) a w v;
      Some (with_phase t' (st_prog t) (SSendRead (st_cnt t)) (st_cl t) (st_run t))
  | _, _ => None
  end.

(** The data of a read arrives. *)
Definition deliver (t : stile) (r : req) (data : list sv) : option stile :=
  if q_core r =? -1 then
    match st_ph t, st_prog t with
    | SSendRead id, TSend _ _ w v :: _ =>
        guard ((id =? q_id r) && (0 <=? w) && (0 <=? v) && (w * v =? q_length r))
          (Some (with_phase t (st_prog t) (SSending (map (fun i => block data (i * w) w) (zrange v))) (st_cl t) (st_run t)))
    | _, _ => None
    end
  else
    do s <- core_of t (q_core r);
    match sc_ph s, sc_prog s with
    | SWait id _, CLoad d _ _ _ :: rest =>
        guard ((id =? q_id r) && swritable d (q_length r)) (Some (with_core t (q_core r) (MkSCore (blit (sc_regs s) d data) rest SReady)))
    | _, _ => None
    end.
(** The controller takes a request from its queue. *)
Definition m_serve (t : stile) : option stile :=
  match st_queue t with
  | r :: rest =>
      guard (inside (q_start r) (q_length r) && is_read r && (0 <=? q_batches r) && st_run t)
        (if sready (st_mem t) r
         then deliver (with_queue t rest (st_pend t) (st_cnt t)) r (contents (block (st_mem t) (q_start r) (q_length r)))
         else Some (with_queue t rest (st_pend t ++ [r]) (st_cnt t)))
  | [] => None
  end.

(** A write to cells that are not valid, with all that it releases. *)
Definition put (t : stile) (a : Z) (data : list sv) : option stile :=
  let l := zlen data in
  let mem := blit (st_mem t) a (map Some data) in
  guard (inside a l && st_run t && forallb (fun x => negb (is_some x)) (block (st_mem t) a l)
         && forallb (fun r => inside (q_start r) (q_length r)) (st_pend t) && match st_queue t with [] => true | _ => false end)
    (let '(kept, released) := skip_release (sready mem) (st_pend t) in
     Some (MkSTile mem released kept (st_cnt t + 1) (st_cores t) (st_prog t) (st_ph t) (st_cl t) (st_run t))).
Definition m_store (k : Z) (t : stile) : option stile :=
  do s <- core_of t k;
  match sc_ph s, sc_prog s with
  | SReady, CStore d r w v :: rest =>
      do a <- reg_address (sc_regs s) d;
      guard (sreadable r (w * v) && (0 <=? w) && (0 <=? v))
        (do t' <- put t a (block (sc_regs s) r (w * v)); Some (with_core t' k (MkSCore (sc_regs s) rest SReady)))
  | _, _ => None
  end.

(** The tile's program. *)
Definition m_send_end (t : stile) : option stile :=
  match st_ph t, st_prog t, st_cl t with
  | SSending [], TSend _ _ _ _ :: rest, None => Some (with_phase t rest SNext None (st_run t))
  | _, _, _ => None
  end.
Definition m_receive (t : stile) : option stile :=
  match st_ph t, st_prog t with
  | SNext, TRecv _ _ w v :: _ => guard ((0 <=? w) && (0 <=? v)) (Some (with_phase t (st_prog t) (SRecv []) (st_cl t) (st_run t)))
  | _, _ => None
  end.
Definition m_ask (i : Z) (t : stile) : option stile :=
  match st_ph t, st_prog t, st_cl t with
  | SRecv got, TRecv _ src _ v :: _, None =>
      guard ((zlen got <? v) && (0 <=? src) && (src <? g_nodes g * g_t g) && negb (src =? i))
        (Some (with_phase t (st_prog t) (SRecv got) (Some src) (st_run t)))
  | _, _, _ => None
  end.
Definition m_write (t : stile) : option stile :=
  match st_ph t, st_prog t, st_cl t with
  | SRecv got, TRecv a _ _ v :: rest, None =>
      guard (v <=? zlen got) (do t' <- put t a (concat got); Some (with_phase t' rest SNext None (st_run t)))
  | _, _, _ => None
  end.
Definition halted_core (s : score) : bool := match sc_ph s with SHalted => true | _ => false end.
Definition m_halt (t : stile) : option stile :=
  match st_ph t, st_prog t, st_cl t, st_pend t with
  | SNext, THalt :: rest, None, [] => guard (forallb halted_core (st_cores t) && st_run t) (Some (with_phase t rest SNext None false))
  | _, _, _, _ => None
  end.
(** One packet from tile [i] to tile [j]. *)
Definition m_row (i j : Z) (s r : stile) : option (stile * stile) :=
  match st_ph s, st_prog s, st_cl s, st_ph r, st_prog r, st_cl r with
  | SSending (row :: rest), TSend _ tg _ _ :: _, None, SRecv got, TRecv _ src w _ :: _, Some from =>
      guard ((tg =? j) && (src =? i) && (from =? i) && (zlen row =? w) && st_run s && (0 <=? i) && (i <? g_nodes g * g_t g) && negb (i =? j))
        (Some (with_phase s (st_prog s) (SSending rest) None true, with_phase r (st_prog r) (SRecv (got ++ [row])) None (st_run r)))
  | _, _, _, _, _, _ => None
  end.

Inductive macro :=
| MLocal (i k : Z) | MIssue (i k : Z) | MStore (i k : Z) | MServe (i : Z) | MSend (i : Z) | MSendEnd (i : Z)
| MReceive (i : Z) | MAsk (i : Z) | MWrite (i : Z) | MHalt (i : Z) | MRow (i j : Z).
Definition ssys := list stile.
Definition tile_no (s : ssys) (i : Z) : option stile := guard ((0 <=? i) && (i <? g_t g)) (nth_error s (Z.to_nat i)).
Definition on (s : ssys) (i : Z) (f : stile -> option stile) : option ssys :=
  do t <- tile_no s i; do t' <- f t; Some (upd s (Z.to_nat i) t').
Definition mstep (a : macro) (s : ssys) : option ssys :=
  match a with
  | MLocal i k => on s i (m_local i k)
  | MIssue i k => on s i (m_issue k)
  | MStore i k => on s i (m_store k)
  | MServe i => on s i m_serve
  | MSend i => on s i m_send
  | MSendEnd i => on s i m_send_end
  | MReceive i => on s i m_receive
  | MAsk i => on s i (m_ask i)
  | MWrite i => on s i m_write
  | MHalt i => on s i m_halt
  | MRow i j =>
      do t <- tile_no s i; do r <- tile_no s j; do x <- m_row i j t r;
      Some (upd (upd s (Z.to_nat i) (fst x)) (Z.to_nat j) (snd x))
  end.
Fixpoint mrun (l : list macro) (s : ssys) : option ssys :=
  match l with [] => Some s | a :: rest => do s' <- mstep a s; mrun rest s' end.

(** Larger steps, to write schedules with. *)
Inductive big := BCore (i k : Z) | BXfer (i : Z) | BSend (i : Z) | BHalt (i : Z) | BWaitRecv (i : Z).
(** Serve all requests in the queue. *)
Fixpoint serves (l : list req) (i : Z) : list macro := match l with [] => [] | _ :: r => MServe i :: serves r i end.
Definition flush (i : Z) (s : ssys) : option ssys := do t <- tile_no s i; mrun (serves (st_queue t) i) s.
Fixpoint rows_on (rows : list (list sv)) (i j : Z) : list macro :=
  match rows with [] => [] | _ :: r => MAsk j :: MRow i j :: rows_on r i j end.
Definition bstep (b : big) (s : ssys) : option ssys :=
  match b with
  | BCore i k =>
      do t <- tile_no s i; do c <- core_of t k;
      match sc_prog c with
      | CLoad _ _ _ _ :: _ => do s1 <- mstep (MIssue i k) s; mstep (MServe i) s1
      | CStore _ _ _ _ :: _ => do s1 <- mstep (MStore i k) s; flush i s1
      | _ => mstep (MLocal i k) s
      end
  | BSend i => do s1 <- mstep (MSend i) s; mstep (MServe i) s1
  | BXfer i =>
      do t <- tile_no s i;
      do s1 <- match st_ph t with SNext => do s1 <- mstep (MSend i) s; mstep (MServe i) s1 | _ => Some s end;
      do t1 <- tile_no s1 i;
      match st_ph t1, st_prog t1 with
      | SSending rows, TSend _ j _ _ :: _ =>
          do s2 <- mstep (MReceive j) s1;
          do s3 <- mrun (rows_on rows i j) s2;
          do s4 <- mstep (MSendEnd i) s3;
          do s5 <- mstep (MWrite j) s4;
          flush j s5
      | _, _ => None
      end
  | BHalt i => mstep (MHalt i) s
  | BWaitRecv i => do s1 <- mstep (MReceive i) s; mstep (MAsk i) s1
  end.
Fixpoint brun (l : list (big * Z)) (s : ssys) : option ssys :=
  match l with
  | [] => Some s
  | (b, k) :: rest => do s' <- Nat.iter (Z.to_nat k) (fun x => do s <- x; bstep b s) (Some s); brun rest s'
  end.
End Machine.
