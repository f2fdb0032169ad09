(** core.py (register space) and visitor.py (what an instruction does and how long it takes).
    The pipeline is in PipelineModel, the memory controller in DramModel. *)
From Verif Require Import PyBase MemoryModel VfuModel FloatModel MvmuModel.

(** What a core reads from the configuration: core.py:23-42, visitor.py:76-127.
    Simplification: latencies are integers (a common time unit). *)
Record core_cfg := MkCoreCfg {
  k_mvmus : Z;                 (* num_mvmus_per_core *)
  k_mv : mvmu_cfg;
  k_cache : Z;                 (* core_config.dataMem_size *)
  k_vfu : vfu_cfg;
  k_fetch_lat : Z;             (* core_config.instrnMem_lat *)
  k_data_lat : Z;              (* core_config.dataMem_lat *)
  k_alu_lat : Z; k_alus : Z    (* alu_lat, num_alu_per_vfu *) }.

(** core.py:34-36 *)
Definition outreg_start (c : core_cfg) : Z := c_size (k_mv c) * k_mvmus c.
Definition cache_start (c : core_cfg) : Z := outreg_start c * 2.
Definition total_registers (c : core_cfg) : Z := cache_start c + k_cache c.

(** Core: core.py:23-48. *)
Record core := MkCore { co_cache : memory; co_vfu : vstats; co_mvmus : list mvmu }.
Definition core_init (c : core_cfg) : core :=
  MkCore (mem_init (k_cache c)) vstats0 (repeat (mvmu_init (k_mv c)) (Z.to_nat (k_mvmus c))).

Definition set_cache (k : core) (m : memory) : core := MkCore m (co_vfu k) (co_mvmus k).
Definition set_vfu (k : core) (v : vstats) : core := MkCore (co_cache k) v (co_mvmus k).
Definition set_mvmu (k : core) (i : Z) (u : mvmu) : core :=
  MkCore (co_cache k) (co_vfu k) (upd (co_mvmus k) (Z.to_nat i) u).

(** Core.get_mvmu: core.py:53-60. *)
Definition get_mvmu (k : core) (i : Z) : res mvmu :=
  if (i <? 0) || (zlen (co_mvmus k) <=? i) then Raise IndexError
  else match nth_error (co_mvmus k) (Z.to_nat i) with Some u => Ok u | None => Raise IndexError end.

(** Core._overlaps_output_registers: core.py:62-69. *)
Definition overlaps_output (c : core_cfg) (start end_ : Z) : bool :=
  ((outreg_start c <=? start) && (start <? cache_start c))
  || ((outreg_start c <? end_) && (end_ <=? cache_start c))
  || ((start <=? outreg_start c) && (cache_start c <=? end_)).

(** Core._get_mvmu_id_from_address: core.py:71-79. *)
Definition mvmu_id_of (c : core_cfg) (start end_ : Z) : res Z :=
  let i := start / c_size (k_mv c) in
  let i_end := (end_ - 1) / c_size (k_mv c) in
  if negb (i =? i_end) then Raise IndexError else Ok (i mod k_mvmus c).

(** Core.write_to_register: core.py:81-103. *)
Definition write_to_register (c : core_cfg) (k : core) (start : Z) (data : list Z) : res unit * core :=
  let end_ := start + zlen data in
  if (start <? 0) || (total_registers c <? end_) then (Raise IndexError, k)
  else if overlaps_output c start end_ then (Raise IndexError, k)
  else if cache_start c <=? start then
    let '(r, m) := mem_write (co_cache k) (start - cache_start c) data 1 in (r, set_cache k m)
  else
    match mvmu_id_of c start end_ with
    | Raise e => (Raise e, k)
    | Ok i => match nth_error (co_mvmus k) (Z.to_nat i) with
              | None => (Raise IndexError, k)
              | Some u =>
                  let '(r, u') := write_to_inreg u (start mod c_size (k_mv c)) data in (r, set_mvmu k i u')
              end
    end.

(** Core.read_from_register: core.py:105-125. *)
Definition read_from_register (c : core_cfg) (k : core) (start length : Z) : res (list Z) * core :=
  let end_ := start + length in
  if (start <? 0) || (total_registers c <? end_) then (Raise IndexError, k)
  else if start <? outreg_start c then (Raise IndexError, k)
  else if cache_start c <=? start then
    let '(r, m) := mem_read (co_cache k) (start - cache_start c) length 1 in (r, set_cache k m)
  else
    match mvmu_id_of c start end_ with
    | Raise e => (Raise e, k)
    | Ok i => match nth_error (co_mvmus k) (Z.to_nat i) with
              | None => (Raise IndexError, k)
              | Some u =>
                  let '(r, u') := read_from_outreg (k_mv c) u (start mod c_size (k_mv c)) length in
                  (r, set_mvmu k i u')
              end
    end.

(** Core instructions: ops.py:28-97 (node, tile and core numbers are used only by the loader,
    is_address and the VFU immediate are ignored by the visitors). *)
Inductive cop :=
| CLoad (dest read width vec : Z)
| CStore (dest read width vec : Z)
| CSet (dest imm vec : Z)
| CCopy (dest read vec : Z)
| CMvm (xbar : list Z)
| CVfu (op : vop) (dest read1 : Z) (read2 : option Z) (vec : Z)
| CHlt.

Definition is_hlt (o : cop) : bool := match o with CHlt => true | _ => false end.
Definition is_memory_op (o : cop) : bool := match o with CLoad _ _ _ _ | CStore _ _ _ _ => true | _ => false end.

(** CoreExecutionVisitor.visit_set: visitor.py:215-220.  np.full of an integer is an int64 array;
    simplification: the immediate is an int64. *)
Definition exec_set (c : core_cfg) (k : core) (dest imm vec : Z) : res unit * core :=
  if vec <? 0 then (Raise ValueError, k)
  else write_to_register c k dest (repeat imm (Z.to_nat vec)).

(** CoreExecutionVisitor.visit_copy: visitor.py:225-227. *)
Definition exec_copy (c : core_cfg) (k : core) (dest read vec : Z) : res unit * core :=
  match read_from_register c k read vec with
  | (Raise e, k1) => (Raise e, k1)
  | (Ok v, k1) => write_to_register c k1 dest v
  end.

(** CoreExecutionVisitor.visit_vfu: visitor.py:233-240. *)
Definition exec_vfu (c : core_cfg) (k : core) (op : vop) (dest read1 : Z) (read2 : option Z) (vec : Z)
  : res unit * core :=
  match read_from_register c k read1 vec with
  | (Raise e, k1) => (Raise e, k1)
  | (Ok a, k1) =>
      let calc (b : option (list Z)) (k2 : core) : res unit * core :=
        match vfu_calculate (k_vfu c) (co_vfu k2) op a b with
        | (Raise e, s) => (Raise e, set_vfu k2 s)
        | (Ok r, s) => write_to_register c (set_vfu k2 s) dest r
        end in
      match read2 with
      | None => calc None k1
      | Some r2 => match read_from_register c k1 r2 vec with
                   | (Raise e, k2) => (Raise e, k2)
                   | (Ok b, k2) => calc (Some b) k2
                   end
      end
  end.

(** CoreExecutionVisitor.visit_mvm: visitor.py:246-248. *)
Fixpoint exec_mvm (c : core_cfg) (k : core) (xbar : list Z) : res unit * core :=
  match xbar with
  | [] => (Ok tt, k)
  | i :: rest => match get_mvmu k i with
                 | Raise e => (Raise e, k)
                 | Ok u => exec_mvm c (set_mvmu k i (execute_mvm (k_mv c) u)) rest
                 end
  end.

(** The instructions that do not use the memory controller: visitor.py:215-257. *)
Definition exec_local (c : core_cfg) (k : core) (o : cop) : res unit * core :=
  match o with
  | CSet dest imm vec => exec_set c k dest imm vec
  | CCopy dest read vec => exec_copy c k dest read vec
  | CMvm xbar => exec_mvm c k xbar
  | CVfu op dest read1 read2 vec => exec_vfu c k op dest read1 read2 vec
  | _ => (Ok tt, k)
  end.

(** First part of visit_load: visitor.py:150-151, the memory address of a load. *)
Definition load_address (c : core_cfg) (k : core) (read : Z) : res Z * core :=
  match read_from_register c k read 1 with
  | (Raise e, k1) => (Raise e, k1)
  | (Ok v, k1) => (match v with a :: _ => Ok a | [] => Raise IndexError end, k1)
  end.

(** Last part of visit_load: visitor.py:172, when the data has arrived. *)
Definition load_finish (c : core_cfg) (k : core) (dest : Z) (data : list Z) : res unit * core :=
  write_to_register c k dest data.

(** First part of visit_store: visitor.py:188-193.  Simplification: a negative width or vec raises
    (numpy gives some of them a meaning). *)
Definition store_request (c : core_cfg) (k : core) (dest read width vec : Z) : res (Z * list Z) * core :=
  match read_from_register c k dest 1 with
  | (Raise e, k1) => (Raise e, k1)
  | (Ok [], k1) => (Raise IndexError, k1)
  | (Ok (a :: _), k1) =>
      match read_from_register c k1 read (width * vec) with
      | (Raise e, k2) => (Raise e, k2)
      | (Ok v, k2) => if (width <? 0) || (vec <? 0) then (Raise ValueError, k2) else (Ok (a, v), k2)
      end
  end.

(** CoreExecutionTimingVisitor: visitor.py:90-135; load and store have no fixed time. *)
Definition exec_time (c : core_cfg) (o : cop) : res Z :=
  match o with
  | CLoad _ _ _ _ | CStore _ _ _ _ => Raise NotImplementedError
  | CSet _ _ _ | CCopy _ _ _ => Ok (k_data_lat c)
  | CVfu _ _ _ _ vec => Ok (k_alu_lat c * (vec + k_alus c - 1) / k_alus c)
  | CMvm _ => Ok (c_adc_lat (k_mv c) * ((c_act_width (k_mv c) + c_dac_res (k_mv c) - 1) / c_dac_res (k_mv c) + 2))
  | CHlt => Ok 1
  end.

(** Core.reset: core.py:159-164; an exception in a unit ends it. *)
Fixpoint reset_mvmus (c : mvmu_cfg) (us : list mvmu) : res unit * list mvmu :=
  match us with
  | [] => (Ok tt, [])
  | u :: rest => match mvmu_reset c u with
                 | (Raise e, u') => (Raise e, u' :: rest)
                 | (Ok _, u') => let '(r, rest') := reset_mvmus c rest in (r, u' :: rest')
                 end
  end.
Definition core_reset (c : core_cfg) (k : core) : res unit * core :=
  let '(r, us) := reset_mvmus (k_mv c) (co_mvmus k) in
  (r, MkCore (mem_reset (co_cache k)) (vfu_reset (co_vfu k)) us).
