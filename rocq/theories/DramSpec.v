(** Independent specification of the memory controller. *)
From Verif Require Import PyBase MemoryModel MemorySpec DramModel.

(** Everything that can happen in one session: the controller is created and started, then any
    enabled action happens at any later time. *)
Inductive dreach (lat size : Z) : Z -> dram -> Prop :=
| reach_init t : dreach lat size t (dc_run t (dram_init size))
| reach_step t t' a d d' : dreach lat size t d -> t <= t' -> dstep lat t' a d = Some d' -> dreach lat size t' d'.

(** The addresses of a request. *)
Definition covers (r : req) (a : Z) : Prop := q_start r <= a < q_start r + q_length r.
Definition coversb (r : req) (a : Z) : bool := (q_start r <=? a) && (a <? q_start r + q_length r).
Definition in_range (size : Z) (r : req) : Prop := 0 <= q_start r /\ q_start r + q_length r <= size.

(** One memory, written by preloads and completed writes: the integer last stored at [a]. *)
Fixpoint last_written (newest_first : list entry) (a : Z) : option Z :=
  match newest_first with
  | [] => None
  | EPreload vals :: older =>
      if (0 <=? a) && (a <? zlen vals) then Some (znth 0 vals a) else last_written older a
  | EDone r _ _ _ :: older =>
      match q_kind r with
      | RWrite data => if coversb r a then Some (znth 0 (concat data) (a - q_start r)) else last_written older a
      | RRead _ _ => last_written older a
      end
  end.

(** The completed requests of a history. *)
Definition completed (h : list entry) : list req :=
  flat_map (fun e => match e with EDone r _ _ _ => [r] | EPreload _ => [] end) h.

(** Sums over requests and completions. *)
Definition batches (f : req -> bool) (l : list req) : Z := zsum (map q_batches (filter f l)).
Definition waits (h : list entry) : list Z :=
  flat_map (fun e => match e with EDone r _ f _ => [f - q_time r] | EPreload _ => [] end) h.

(** The request never had to wait for validity. *)
Definition never_waited (d : dram) (r : req) : bool := negb (existsb (Z.eqb (q_id r)) (d_waited d)).

(** All addresses of the request inside the memory are valid. *)
Definition all_valid (valid : list bool) (r : req) : Prop :=
  forall a, covers r a -> 0 <= a < zlen valid -> znth false valid a = true.

(** Addresses and lengths are not negative. *)
Definition proper (r : req) : Prop := 0 <= q_start r /\ 0 <= q_length r.

(** Release of waiting reads by a list iterator: an element after a released one is skipped. *)
Fixpoint skip_release {A} (f : A -> bool) (l : list A) : list A * list A :=  (* kept, released *)
  match l with
  | [] => ([], [])
  | x :: t =>
      if f x then match t with
                  | [] => ([], [x])
                  | y :: t' => let '(k, r) := skip_release f t' in (y :: k, x :: r)
                  end
      else let '(k, r) := skip_release f t in (x :: k, r)
  end.

(** Elements of the first list occur in the second, in the same order. *)
Inductive sublist {A} : list A -> list A -> Prop :=
| sub_nil : sublist [] []
| sub_keep x a b : sublist a b -> sublist (x :: a) (x :: b)
| sub_drop x a b : sublist a b -> sublist a (x :: b).

(** Later states, reached by actions satisfying [ok]. *)
Inductive dcont (ok : dact -> Prop) (lat : Z) : Z -> dram -> Z -> dram -> Prop :=
| cont_refl t d : dcont ok lat t d t d
| cont_step t d t1 d1 t2 d2 a : dcont ok lat t d t1 d1 -> t1 <= t2 -> ok a -> dstep lat t2 a d1 = Some d2 ->
    dcont ok lat t d t2 d2.

Definition no_write (a : dact) : Prop := match a with ASubmit _ _ (RWrite _) => False | _ => True end.

(** Steps of the controller itself, and how many of them were made. *)
Definition internal (a : dact) : Prop := match a with AHandle | AGrant | AFinish => True | _ => False end.
Inductive dinternal (lat : Z) : Z -> dram -> nat -> Z -> dram -> Prop :=
| int_refl t d : dinternal lat t d 0 t d
| int_step t d n t1 d1 t2 d2 a : dinternal lat t d n t1 d1 -> t1 <= t2 -> internal a -> dstep lat t2 a d1 = Some d2 ->
    dinternal lat t d (S n) t2 d2.

(** Number of completed writes. *)
Definition writes_done (h : list entry) : Z := zlen (filter (fun r => negb (is_read r)) (completed h)).

(** The entry stored something at address [a]. *)
Definition stores (e : entry) (a : Z) : Prop :=
  match e with
  | EPreload vals => 0 <= a < zlen vals
  | EDone r _ _ _ => is_read r = false /\ covers r a
  end.

(** A concrete run, for examples. *)
Fixpoint drun (lat : Z) (l : list (Z * dact)) (d : dram) : option dram :=
  match l with
  | [] => Some d
  | (t, a) :: l' => match dstep lat t a d with Some d' => drun lat l' d' | None => None end
  end.
Fixpoint ascending (t : Z) (l : list (Z * dact)) : bool :=
  match l with [] => true | (t', _) :: l' => (t <=? t') && ascending t' l' end.

(** The time of the first stop. *)
Fixpoint first_stop (l : list (Z * dact)) : option Z :=
  match l with [] => None | (t, AStop) :: _ => Some t | _ :: l' => first_stop l' end.
