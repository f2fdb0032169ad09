(** Independent specification of a core: where a register address leads, what a client sees. *)
From Verif Require Import PyBase ConfigModel MemoryModel MemorySpec VfuModel FloatModel MvmuModel MvmuSpec CoreModel.

(** The registers: inputs and outputs of the matrix units and the cache. *)
Inductive place := PIn (unit offset : Z) | POut (unit offset : Z) | PCache (offset : Z).

(** Layout of the address space: the input registers of all units, then their output registers,
    then the cache. *)
Definition place_of (c : core_cfg) (a : Z) : option place :=
  let n := c_size (k_mv c) in
  let m := k_mvmus c in
  if a <? 0 then None
  else if a <? m * n then Some (PIn (a / n) (a mod n))
  else if a <? 2 * (m * n) then Some (POut ((a - m * n) / n) ((a - m * n) mod n))
  else if a <? 2 * (m * n) + k_cache c then Some (PCache (a - 2 * (m * n)))
  else None.

(** The raw contents of a register. *)
Definition content (k : core) (p : place) : Z :=
  match p with
  | PIn u o => match nth_error (co_mvmus k) (Z.to_nat u) with Some x => znth 0 (inputs x) o | None => 0 end
  | POut u o => match nth_error (co_mvmus k) (Z.to_nat u) with Some x => znth 0 (outputs x) o | None => 0 end
  | PCache o => znth 0 (cells (co_cache k)) o
  end.

(** The block of [len] addresses from [s] lies in the cache, in the inputs or in the outputs of one
    unit. *)
Definition all_cache (c : core_cfg) (s len : Z) : Prop :=
  forall i, 0 <= i < len -> exists o, place_of c (s + i) = Some (PCache o).
Definition one_input (c : core_cfg) (s len : Z) : Prop :=
  exists u, forall i, 0 <= i < len -> exists o, place_of c (s + i) = Some (PIn u o).
Definition one_output (c : core_cfg) (s len : Z) : Prop :=
  exists u, forall i, 0 <= i < len -> exists o, place_of c (s + i) = Some (POut u o).

(** What a read shows of a register. *)
Definition visible (c : core_cfg) (k : core) (p : place) : Z :=
  match p with POut _ _ => content k p / 2 ^ c_weight_frac (k_mv c) | _ => content k p end.

(** Usable geometries. *)
Record core_ok (cfg : list bitcfg) (ww : Z) (c : core_cfg) : Prop := {
  core_ok_mv : mvmu_ok cfg ww (k_mv c);
  core_ok_mvmus : 1 <= k_mvmus c;
  core_ok_cache : 0 <= k_cache c }.

(** Same weights, counters of the vector unit and number of units. *)
Definition same_rest (k k' : core) : Prop :=
  co_vfu k = co_vfu k' /\ Forall2 same_cells (co_mvmus k) (co_mvmus k').

(** The calls the instructions of a core make on its parts; [core_run] is a client that goes on
    after an exception. *)
Inductive kop :=
| KWrite (start : Z) (data : list Z)
| KRead (start len : Z)
| KMvm (xbar : list Z)
| KVec (op : vop) (a : list Z) (b : option (list Z))
| KLoad (unit : Z) (w : list (list f64))
| KReset.

Definition core_step (c : core_cfg) (k : core) (o : kop) : core :=
  match o with
  | KWrite s d => snd (write_to_register c k s d)
  | KRead s l => snd (read_from_register c k s l)
  | KMvm xs => snd (exec_mvm c k xs)
  | KVec op a b => set_vfu k (snd (vfu_calculate (k_vfu c) (co_vfu k) op a b))
  | KLoad i w => match get_mvmu k i with
                 | Ok u => set_mvmu k i (snd (load_weights (k_mv c) u w))
                 | Raise _ => k
                 end
  | KReset => snd (core_reset c k)
  end.
Definition core_run (c : core_cfg) (k : core) (ops : list kop) : core := fold_left (core_step c) ops k.
Definition core_reached (c : core_cfg) (k : core) : Prop := exists ops, k = core_run c (core_init c) ops.

(** The integer most recently written to cache cell [o], looking at a history newest first: only
    writes that lie entirely in the cache count. *)
Fixpoint last_cached (c : core_cfg) (newest_first : list kop) (o : Z) : Z :=
  let first := 2 * (k_mvmus c * c_size (k_mv c)) in
  match newest_first with
  | [] => 0
  | KReset :: _ => 0
  | KWrite s d :: older =>
      if (first <=? s) && (s + zlen d <=? first + k_cache c) && (s <=? first + o) && (first + o <? s + zlen d)
      then znth 0 d (first + o - s) else last_cached c older o
  | _ :: older => last_cached c older o
  end.

(** Executing instructions one after the other, stopping at an exception. *)
Fixpoint exec_all (c : core_cfg) (k : core) (prog : list cop) : res unit * core :=
  match prog with
  | [] => (Ok tt, k)
  | o :: rest => match exec_local c k o with
                 | (Raise e, k1) => (Raise e, k1)
                 | (Ok _, k1) => exec_all c k1 rest
                 end
  end.

(** A fully connected layer on unit i: input vector at cache cell [a], result at cache cell [b]. *)
Definition layer_program (c : core_cfg) (i a b : Z) : list cop :=
  let n := c_size (k_mv c) in
  let outputs_from := k_mvmus c * n in
  let cache_from := 2 * outputs_from in
  [CCopy (i * n) (cache_from + a) n; CMvm [i]; CVfu Vrelu (cache_from + b) (outputs_from + i * n) None n].

(** t = ceil (v / n). *)
Definition is_ceil (t v n : Z) : Prop := (t - 1) * n < v <= t * n.

(** Where instructions can read and write. *)
Definition readable (c : core_cfg) (s len : Z) : Prop := all_cache c s len \/ one_output c s len.
Definition writable (c : core_cfg) (s len : Z) : Prop := all_cache c s len \/ one_input c s len.

(** From [k] to [k'], the registers from [s] on receive the data, no other register and no weight changes. *)
Definition stored (c : core_cfg) (k k' : core) (s len : Z) (good : Z -> Z -> Prop) : Prop :=
  (forall i p, 0 <= i < len -> place_of c (s + i) = Some p -> good i (content k' p)) /\
  (forall a p, a < s \/ s + len <= a -> place_of c a = Some p -> content k' p = content k p) /\
  Forall2 same_cells (co_mvmus k) (co_mvmus k').
