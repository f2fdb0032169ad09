(** What the loaders are to do. *)
From Verif Require Import PyBase ConfigModel MemoryModel VfuModel FloatModel MvmuModel CoreModel DramModel RouterModel SystemModel LoaderModel.
From Flocq Require Import IEEE754.BinarySingleNaN Core.Raux.
From Coq Require Import Reals Ascii String.
Open Scope Z_scope.

(** ** Places *)
(** The number [i] stands for position [p] of a list of [len] elements: Python counts negative numbers from the end. *)
Definition names (len i p : Z) : bool := (i =? p) || (i =? p - len).
Definition sized (c : sys_cfg) : Prop := 0 <= w_nodes (y_net c) /\ 0 <= w_tiles (y_net c) /\ 0 <= y_cores c /\ 0 <= k_mvmus (y_core c).
Definition tile_at (a : arch) (n t : Z) : atile := znth (MkATile [] []) (znth [] a n) t.
Definition core_at (c : sys_cfg) (a : arch) (n t k : Z) : core * list cop := znth (core_init (y_core c), []) (at_cores (tile_at a n t)) k.
Definition unit_at (c : sys_cfg) (a : arch) (n t k m : Z) : mvmu := znth (mvmu_init (k_mv (y_core c))) (co_mvmus (fst (core_at c a n t k))) m.
Definition is_tile (c : sys_cfg) (n t : Z) : Prop := 0 <= n < w_nodes (y_net c) /\ 0 <= t < w_tiles (y_net c).
Definition is_core (c : sys_cfg) (n t k : Z) : Prop := is_tile c n t /\ 0 <= k < y_cores c.
Definition is_unit (c : sys_cfg) (n t k m : Z) : Prop := is_core c n t k /\ 0 <= m < k_mvmus (y_core c).
(** The architecture has the parts that the configuration asks for. *)
Definition complete (c : sys_cfg) (a : arch) : Prop :=
  zlen a = w_nodes (y_net c) /\
  (forall n, 0 <= n < w_nodes (y_net c) -> zlen (znth [] a n) = w_tiles (y_net c)) /\
  (forall n t, is_tile c n t -> zlen (at_cores (tile_at a n t)) = y_cores c) /\
  (forall n t k, is_core c n t k -> zlen (co_mvmus (fst (core_at c a n t k))) = k_mvmus (y_core c)).

(** ** Operations *)
(** The numbers in an operation stand for something. *)
Definition reaches (len i : Z) : Prop := - len <= i < len.
Definition placed (c : sys_cfg) (o : op) : Prop :=
  reaches (w_nodes (y_net c)) (o_node o) /\ reaches (w_tiles (y_net c)) (o_tile o) /\
  match o_instr o with ICore k _ => reaches (y_cores c) k | ITile _ => True end.
(** The valid operations of a file, in order. *)
Definition valid_ops (x : lax) (data : list json) : list op := flat_map (fun j => match parse x j with Some o => [o] | None => [] end) data.
(** Those for one tile, and those for one core. *)
Definition for_tile (c : sys_cfg) (n t : Z) (ops : list op) : list top :=
  flat_map (fun o => match o_instr o with
                     | ITile i => if names (w_nodes (y_net c)) (o_node o) n && names (w_tiles (y_net c)) (o_tile o) t then [i] else []
                     | ICore _ _ => []
                     end) ops.
Definition for_core (c : sys_cfg) (n t k : Z) (ops : list op) : list cop :=
  flat_map (fun o => match o_instr o with
                     | ICore k' i => if names (w_nodes (y_net c)) (o_node o) n && names (w_tiles (y_net c)) (o_tile o) t && names (y_cores c) k' k then [i] else []
                     | ITile _ => []
                     end) ops.
(** [b] is [a] with the operations appended to the programs that they are for, and nothing else changed. *)
Definition with_ops (c : sys_cfg) (a : arch) (ops : list op) (b : arch) : Prop :=
  complete c b /\
  (forall n t, is_tile c n t -> at_prog (tile_at b n t) = (at_prog (tile_at a n t) ++ for_tile c n t ops)%list) /\
  (forall n t k, is_core c n t k ->
     fst (core_at c b n t k) = fst (core_at c a n t k) /\
     snd (core_at c b n t k) = (snd (core_at c a n t k) ++ for_core c n t k ops)%list).

(** ** JSON text of an operation *)
(** What is known of pydantic's conversions. *)
Definition reasonable (x : lax) : Prop :=
  (forall z, as_int x (JInt z) = Some z) /\ (forall b, as_bool x (JBool b) = Some b) /\
  (forall l o, pick x l = Some o -> In o l) /\ (forall l, l <> [] -> pick x l <> None).
Definition vop_name (v : vop) : string :=
  match v with
  | Vand => "and" | Vor => "or" | Vnot => "not" | Vadd => "add" | Vsub => "sub" | Vmul => "mul" | Vdiv => "div" | Vmin => "min" | Vmax => "max"
  | Vsig => "sig" | Vtanh => "tanh" | Vrelu => "relu"
  end%string.
Definition fields_of (i : instr) : list (string * json) :=
  match i with
  | ICore k o =>
      ("core", JInt k) ::
      match o with
      | CLoad d r w v => [("type", JStr "load"); ("dest", JInt d); ("read", JInt r); ("width", JInt w); ("vec", JInt v)]
      | CStore d r w v => [("type", JStr "store"); ("dest", JInt d); ("read", JInt r); ("width", JInt w); ("vec", JInt v)]
      | CSet d i v => [("type", JStr "set"); ("dest", JInt d); ("imm", JInt i); ("vec", JInt v)]
      | CCopy d r v => [("type", JStr "copy"); ("dest", JInt d); ("read", JInt r); ("vec", JInt v)]
      | CMvm xs => [("type", JStr "mvm"); ("xbar", JList (map JInt xs))]
      | CVfu f d r r2 v =>
          [("type", JStr "vfu"); ("opcode", JStr (vop_name f)); ("dest", JInt d); ("read_1", JInt r); ("vec", JInt v)]
      | CHlt => [("type", JStr "hlt")]
      end
  | ITile (TSend a t w v) => [("type", JStr "send"); ("mem_addr", JInt a); ("target_tile", JInt t); ("width", JInt w); ("vec", JInt v)]
  | ITile (TRecv a s w v) => [("type", JStr "receive"); ("mem_addr", JInt a); ("source_tile", JInt s); ("width", JInt w); ("vec", JInt v)]
  | ITile THalt => [("type", JStr "halt")]
  end%string.
Definition has_field (l : list (string * json)) (kv : string * json) : Prop := field l (fst kv) = Some (snd kv).
(** The object, which may have more fields, describes the operation. *)
Definition describes (l : list (string * json)) (o : op) : Prop :=
  (has_field l ("node"%string, JInt (o_node o)) \/ field l "node" = None /\ o_node o = 0) /\
  has_field l ("tile"%string, JInt (o_tile o)) /\
  Forall (has_field l) (fields_of (o_instr o)) /\
  match o_instr o with
  | ICore _ (CSet _ _ _) => exists b, has_field l ("is_address"%string, JBool b)
  | ICore _ (CVfu _ _ _ r2 _) =>
      match r2 with
      | Some z => has_field l ("read_2"%string, JInt z)
      | None => field l "read_2" = None \/ has_field l ("read_2"%string, JNull)
      end /\
      (field l "imm" = None \/ has_field l ("imm"%string, JNull) \/ exists z, has_field l ("imm"%string, JInt z))
  | _ => True
  end%string.
(** Fields that an object with this type must have. *)
Definition required (t : string) : list string :=
  match t with
  | "load" | "store" => ["tile"; "core"; "dest"; "read"; "width"; "vec"]
  | "set" => ["tile"; "core"; "dest"; "imm"; "vec"; "is_address"]
  | "copy" => ["tile"; "core"; "dest"; "read"; "vec"]
  | "mvm" => ["tile"; "core"; "xbar"]
  | "vfu" => ["tile"; "core"; "opcode"; "dest"; "read_1"; "vec"]
  | "hlt" => ["tile"; "core"]
  | "send" => ["tile"; "mem_addr"; "target_tile"; "width"; "vec"]
  | "receive" => ["tile"; "mem_addr"; "source_tile"; "width"; "vec"]
  | _ => ["tile"]
  end%string.

(** ** Weights *)
(** A decimal number, most significant digit first, leading zeros allowed. *)
Definition numeral (ds : list Z) : Prop := ds <> [] /\ Forall (fun d => 0 <= d <= 9) ds.
Definition number (ds : list Z) : Z := fold_left (fun a d => 10 * a + d) ds 0.
Fixpoint text (ds : list Z) : string :=
  match ds with [] => ""%string | d :: rest => String (ascii_of_nat (Z.to_nat (48 + d))) (text rest) end.
(** [key] names a unit. *)
Definition key_for (key : string) (n t k m : Z) : Prop :=
  exists dn dt dk dm, numeral dn /\ numeral dt /\ numeral dk /\ numeral dm /\
    number dn = n /\ number dt = t /\ number dk = k /\ number dm = m /\
    let s := ("node" ++ text dn ++ "_tile" ++ text dt ++ "_core" ++ text dk ++ "_mvmu" ++ text dm)%string in
    key = s \/ key = (s ++ String (ascii_of_nat 10) "")%string.
(** The arrays for one unit, in the order of the file. *)
Inductive arrays_for (n t k m : Z) : list (string * list (list f64)) -> list (list (list f64)) -> Prop :=
| AFNil : arrays_for n t k m [] []
| AFTake key w rest ws : key_for key n t k m -> arrays_for n t k m rest ws -> arrays_for n t k m ((key, w) :: rest) (w :: ws)
| AFSkip key w rest ws : ~ key_for key n t k m -> arrays_for n t k m rest ws -> arrays_for n t k m ((key, w) :: rest) ws.
(** The unit after loading arrays one after another; arrays that cannot be loaded have no effect. *)
Definition loaded (c : mvmu_cfg) (ws : list (list (list f64))) (u : mvmu) : mvmu := fold_left (fun u w => snd (load_weights c u w)) ws u.
(** [b] is [a] but for the weights. *)
Definition with_weights (c : sys_cfg) (a : arch) (file : list (string * list (list f64))) (b : arch) : Prop :=
  complete c b /\
  (forall n t, is_tile c n t -> at_prog (tile_at b n t) = at_prog (tile_at a n t)) /\
  (forall n t k, is_core c n t k ->
     snd (core_at c b n t k) = snd (core_at c a n t k) /\
     co_cache (fst (core_at c b n t k)) = co_cache (fst (core_at c a n t k)) /\
     co_vfu (fst (core_at c b n t k)) = co_vfu (fst (core_at c a n t k))) /\
  (forall n t k m ws, is_unit c n t k m -> arrays_for n t k m file ws ->
     unit_at c b n t k m = loaded (k_mv (y_core c)) ws (unit_at c a n t k m)).

(** ** Activations *)
(** The numbers of a vector; whether the scaled numbers fit into 32 bits. *)
Definition reals_of (v : vector) : list R := match v with VFloats l => map B2R l | VInts l => map IZR l end.
Definition all_finite (v : vector) : Prop := match v with VFloats l => Forall (fun x => is_finite x = true) l | VInts _ => True end.
Definition fits (frac : Z) (v : vector) : Prop :=
  all_finite v /\ Forall (fun r => (- IZR (2 ^ 31) - 1 < r * IZR (2 ^ frac) < IZR (2 ^ 31))%R) (reals_of v).
(** [d'] is [d] with the numbers, scaled and cut to integers, in the first cells; these cells are valid; nothing else has changed
    (the history, which the code does not have, records the event). *)
Definition activation_loaded (frac : Z) (v : vector) (d d' : dram) : Prop :=
  (forall i, 0 <= i < vlen v -> znth 0 (cells (d_mem d')) i = Ztrunc (znth 0%R (reals_of v) i * IZR (2 ^ frac))) /\
  (forall i, vlen v <= i -> znth 0 (cells (d_mem d')) i = znth 0 (cells (d_mem d)) i) /\
  (forall i, 0 <= i < vlen v -> znth false (d_valid d') i = true) /\
  (forall i, vlen v <= i -> znth false (d_valid d') i = znth false (d_valid d) i) /\
  zlen (cells (d_mem d')) = zlen (cells (d_mem d)) /\ zlen (d_valid d') = zlen (d_valid d) /\
  exists h, d' = MkDram (MkMem (msize (d_mem d)) (cells (d_mem d')) (mstat (d_mem d))) (d_valid d') (d_running d) (d_queue d) (d_pending d) (d_bus d)
                   (d_granted d) (d_stat d) (d_start_time d) (d_crash d) (d_submitted d) h (d_waited d) (d_failed d).

(** The fields that matter. *)
Definition known_fields : list string :=
  ["type"; "node"; "tile"; "core"; "dest"; "read"; "width"; "vec"; "imm"; "is_address"; "xbar"; "opcode"; "read_1"; "read_2"; "mem_addr";
   "target_tile"; "source_tile"]%string.
