(** Independent specification of a block memory: what a history of accesses means, stated without
    the model's cells or counters.  Histories are lists, oldest access first. *)
From Verif Require Import PyBase MemoryModel.

(** One access of a client: a write, a read or a reset.  Accesses that raise are part of the
    history too (the client catches the exception and goes on). *)
Inductive macc :=
| MW (start : Z) (vals : list Z) (batch : Z)
| MR (start len batch : Z)
| MZ.

(** The access lies inside a memory of the given size. *)
Definition accepted (size : Z) (a : macc) : bool :=
  match a with
  | MW s vs _ => (0 <=? s) && (s + zlen vs <=? size)
  | MR s n _ => (0 <=? s) && (s + n <=? size) && (0 <? n)
  | MZ => true
  end.

(** The integer most recently stored at address [a], looking at the history newest first. *)
Fixpoint last_stored (size : Z) (newest_first : list macc) (a : Z) : Z :=
  match newest_first with
  | [] => 0
  | MZ :: _ => 0
  | MW s vs b :: older =>
      if accepted size (MW s vs b) && (s <=? a) && (a <? s + zlen vs)
      then znth 0 vs (a - s) else last_stored size older a
  | MR _ _ _ :: older => last_stored size older a
  end.

(** [v] is the 32-bit two's complement reading of [z]. *)
Definition is_int32_of (v z : Z) : Prop := int32 v /\ (v - z) mod 4294967296 = 0.

(** The part of a history after the last reset. *)
Fixpoint since_reset (h : list macc) : list macc :=
  match h with
  | [] => []
  | MZ :: t => since_reset t
  | a :: t => if existsb (fun x => match x with MZ => true | _ => false end) t
              then since_reset t else a :: t
  end.

(** Totals over the accepted accesses of one kind. *)
Definition sum_over (size : Z) (f : macc -> Z) (h : list macc) : Z :=
  zsum (map f (filter (accepted size) h)).
Definition batch_of_read (a : macc) := match a with MR _ _ b => b | _ => 0 end.
Definition batch_of_write (a : macc) := match a with MW _ _ b => b | _ => 0 end.
Definition cells_of_read (a : macc) := match a with MR _ n _ => n | _ => 0 end.
Definition cells_of_write (a : macc) := match a with MW _ vs _ => zlen vs | _ => 0 end.

(** The client: performs the accesses one after the other on the modelled memory. *)
Definition mem_step (m : memory) (a : macc) : memory :=
  match a with
  | MW s vs b => snd (mem_write m s vs b)
  | MR s n b => snd (mem_read m s n b)
  | MZ => mem_reset m
  end.
Definition mem_run (m : memory) (h : list macc) : memory := fold_left mem_step h m.
