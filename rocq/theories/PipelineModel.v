(** pipeline.py and Core.run (core.py:125-155): fetch, decode and execute stages connected by
    one-entry buffers.

    A transition system: an action is one step of one stage process, or the passing of one time
    unit.  What is used of simpy: a Store of capacity 1 holds at most one item and delivers items in
    order, items put while it is full are stored in the order of the calls when it gets free, an
    event triggered at a time is processed at that time.  Simplification: putting an item and the
    buffer's handing it out are separate steps which both take no time; times are integers. *)
From Verif Require Import PyBase.

Section Pipeline.
Variable op : Type.
Variable hlt : op -> bool.

(** Stage.run, pipeline.py:28-46: waiting at line 33, 35 (since when), 38 (since when), or left the loop. *)
Inductive stage := SGet | SWork (x : op) (since : Z) | SPut (x : op) (since : Z) | SDone.

(** Latencies: visitor.py:73-94 for fetch and decode; [l_exec i] is the time the i-th executed
    instruction takes (for load and store it depends on the memory controller; the value of the
    event returned by the visitors of visitor.py:144-257 does not matter here). *)
Record plat := MkLat { l_fetch : Z; l_decode : Z; l_exec : nat -> Z }.

(** The stages, the instructions not yet taken by the fetch stage (pipeline.py:88-90: put in the
    first buffer or waiting to be stored in it), the two other buffers, the end of the core's
    process (pipeline.py:92-99, core.py:150-152).  The last five lists record when instructions
    left the fetch stage, entered and left the decode stage, entered and left the execute stage;
    [p_started], [p_finished] which ones were executed. *)
Record pipe := MkPipe {
  p_now : Z;
  p_in : list op;
  p_f : stage; p_b1 : option op; p_d : stage; p_b2 : option op; p_e : stage;
  p_active : option Z;
  p_started : list op; p_finished : list op;
  t_fput : list Z; t_dget : list Z; t_dput : list Z; t_eget : list Z; t_edone : list Z }.

(** Core.run, core.py:125-148: the time is counted from the start of the core. *)
Definition pipe_init (prog : list op) : pipe :=
  MkPipe 0 prog SGet None SGet None SGet None [] [] [] [] [] [] [].

Inductive pact := PFGet | PFWork | PFPut | PDGet | PDWork | PDPut | PEGet | PEWork | PComplete | PTick.

Definition after (x : op) : stage := if hlt x then SDone else SGet.

Definition pstep (c : plat) (a : pact) (p : pipe) : option pipe :=
  let now := p_now p in
  match a with
  (* pipeline.py:33 and 35 (fetch: visitor.py:80-81) *)
  | PFGet => match p_f p, p_in p with
             | SGet, x :: rest => Some (MkPipe now rest (SWork x now) (p_b1 p) (p_d p) (p_b2 p) (p_e p) (p_active p)
                 (p_started p) (p_finished p) (t_fput p) (t_dget p) (t_dput p) (t_eget p) (t_edone p))
             | _, _ => None end
  | PFWork => match p_f p with
             | SWork x t => if now <? t + l_fetch c then None
                 else Some (MkPipe now (p_in p) (SPut x now) (p_b1 p) (p_d p) (p_b2 p) (p_e p) (p_active p)
                 (p_started p) (p_finished p) (t_fput p) (t_dget p) (t_dput p) (t_eget p) (t_edone p))
             | _ => None end
  (* pipeline.py:37-46 *)
  | PFPut => match p_f p, p_b1 p with
             | SPut x _, None => Some (MkPipe now (p_in p) (after x) (Some x) (p_d p) (p_b2 p) (p_e p) (p_active p)
                 (p_started p) (p_finished p) (t_fput p ++ [now]) (t_dget p) (t_dput p) (t_eget p) (t_edone p))
             | _, _ => None end
  (* pipeline.py:33 and 35 (decode: visitor.py:91-92) *)
  | PDGet => match p_d p, p_b1 p with
             | SGet, Some x => Some (MkPipe now (p_in p) (p_f p) None (SWork x now) (p_b2 p) (p_e p) (p_active p)
                 (p_started p) (p_finished p) (t_fput p) (t_dget p ++ [now]) (t_dput p) (t_eget p) (t_edone p))
             | _, _ => None end
  | PDWork => match p_d p with
             | SWork x t => if now <? t + l_decode c then None
                 else Some (MkPipe now (p_in p) (p_f p) (p_b1 p) (SPut x now) (p_b2 p) (p_e p) (p_active p)
                 (p_started p) (p_finished p) (t_fput p) (t_dget p) (t_dput p) (t_eget p) (t_edone p))
             | _ => None end
  | PDPut => match p_d p, p_b2 p with
             | SPut x _, None => Some (MkPipe now (p_in p) (p_f p) (p_b1 p) (after x) (Some x) (p_e p) (p_active p)
                 (p_started p) (p_finished p) (t_fput p) (t_dget p) (t_dput p ++ [now]) (t_eget p) (t_edone p))
             | _, _ => None end
  (* pipeline.py:33 and 35: the visitor executes the instruction *)
  | PEGet => match p_e p, p_b2 p with
             | SGet, Some x => Some (MkPipe now (p_in p) (p_f p) (p_b1 p) (p_d p) None (SWork x now) (p_active p)
                 (p_started p ++ [x]) (p_finished p) (t_fput p) (t_dget p) (t_dput p) (t_eget p ++ [now]) (t_edone p))
             | _, _ => None end
  (* the event returned by the visitor has happened; no output buffer: pipeline.py:37-46 *)
  | PEWork => match p_e p with
             | SWork x t => if now <? t + l_exec c (length (p_finished p)) then None
                 else Some (MkPipe now (p_in p) (p_f p) (p_b1 p) (p_d p) (p_b2 p) (after x) (p_active p)
                 (p_started p) (p_finished p ++ [x]) (t_fput p) (t_dget p) (t_dput p) (t_eget p) (t_edone p ++ [now]))
             | _ => None end
  (* pipeline.py:92-99 and core.py:150-152 *)
  | PComplete => match p_f p, p_d p, p_e p, p_active p with
             | SDone, SDone, SDone, None => Some (MkPipe now (p_in p) (p_f p) (p_b1 p) (p_d p) (p_b2 p) (p_e p) (Some now)
                 (p_started p) (p_finished p) (t_fput p) (t_dget p) (t_dput p) (t_eget p) (t_edone p))
             | _, _, _, _ => None end
  | PTick => Some (MkPipe (now + 1) (p_in p) (p_f p) (p_b1 p) (p_d p) (p_b2 p) (p_e p) (p_active p)
                 (p_started p) (p_finished p) (t_fput p) (t_dget p) (t_dput p) (t_eget p) (t_edone p))
  end.
End Pipeline.

Arguments SGet {op}. Arguments SWork {op}. Arguments SPut {op}. Arguments SDone {op}.
Arguments MkPipe {op}. Arguments pipe_init {op}. Arguments pstep {op}. Arguments after {op}.
Arguments p_now {op}. Arguments p_in {op}. Arguments p_f {op}. Arguments p_b1 {op}. Arguments p_d {op}.
Arguments p_b2 {op}. Arguments p_e {op}. Arguments p_active {op}. Arguments p_started {op}. Arguments p_finished {op}.
Arguments t_fput {op}. Arguments t_dget {op}. Arguments t_dput {op}. Arguments t_eget {op}. Arguments t_edone {op}.
