(** ramwich.py: construction of the architecture and loading of operations, weights and activations; ops.py. *)
From Verif Require Import PyBase ConfigModel MemoryModel VfuModel FloatModel MvmuModel CoreModel DramModel RouterModel SystemModel.
From Flocq Require Import IEEE754.BinarySingleNaN.
From Coq Require Import Ascii String.
Open Scope Z_scope.

(** ** Parsing of operations *)
(** What json.load returns (an object is a dict: no key twice): ramwich.py:66. *)
Inductive json := JNull | JBool (b : bool) | JInt (z : Z) | JFloat (x : f64) | JStr (s : string) | JList (l : list json) | JObj (l : list (string * json)).
Fixpoint field (l : list (string * json)) (k : string) : option json :=
  match l with
  | [] => None
  | (x, v) :: rest => if String.eqb x k then Some v else field rest k
  end.

(** ops.py:7-19: an operation names its node and tile; core operations also a core. *)
Inductive instr := ICore (core : Z) (o : cop) | ITile (o : top).
Record op := MkOp { o_node : Z; o_tile : Z; o_instr : instr }.

(** Not modelled: pydantic's conversions of a JSON value to int and to bool (for instance of 3.0 or "3"), and which class pydantic
    takes if several match an operation without a type.  Theorems hold for all choices. *)
Record lax := MkLax { as_int : json -> option Z; as_bool : json -> option bool; pick : list op -> option op }.

Section Parse.
Local Open Scope string_scope.
Local Open Scope Z_scope.
Context (x : lax).
Definition need_int (l : list (string * json)) (k : string) : option Z := match field l k with Some v => as_int x v | None => None end.
Definition need_bool (l : list (string * json)) (k : string) : option bool := match field l k with Some v => as_bool x v | None => None end.
(** Optional[int] = None *)
Definition opt_int (l : list (string * json)) (k : string) : option (option Z) :=
  match field l k with None | Some JNull => Some None | Some v => match as_int x v with Some z => Some (Some z) | None => None end end.
(** list[int] *)
Fixpoint all_ints (l : list json) : option (list Z) :=
  match l with
  | [] => Some []
  | v :: rest => match as_int x v, all_ints rest with Some z, Some zs => Some (z :: zs) | _, _ => None end
  end.
Definition need_ints (l : list (string * json)) (k : string) : option (list Z) := match field l k with Some (JList v) => all_ints v | _ => None end.

(** VFUOpType: ops.py:77. *)
Definition vop_names : list (string * vop) :=
  [("and", Vand); ("or", Vor); ("not", Vnot); ("add", Vadd); ("sub", Vsub); ("mul", Vmul); ("div", Vdiv); ("min", Vmin); ("max", Vmax);
   ("sig", Vsig); ("tanh", Vtanh); ("relu", Vrelu)]%string.
Fixpoint vop_of (s : string) (l : list (string * vop)) : option vop :=
  match l with [] => None | (n, v) :: rest => if String.eqb n s then Some v else vop_of s rest end.
Definition need_vop (l : list (string * json)) : option vop :=
  match field l "opcode" with Some (JStr s) => vop_of s vop_names | _ => None end.

Notation "'do' a <- e ; f" := (match e with Some a => f | None => None end) (at level 200, a pattern, e at level 100, f at level 200).

(** The classes of ops.py:26-126, without their type field; the fields imm of vfu and is_address of set are only validated.  None stands
    for pydantic's ValidationError. *)
Definition parse_body (t : string) (l : list (string * json)) : option instr :=
  let n := need_int l in
  if String.eqb t "load" then do c <- n "core"; do d <- n "dest"; do r <- n "read"; do w <- n "width"; do v <- n "vec"; Some (ICore c (CLoad d r w v))
  else if String.eqb t "store" then do c <- n "core"; do d <- n "dest"; do r <- n "read"; do w <- n "width"; do v <- n "vec"; Some (ICore c (CStore d r w v))
  else if String.eqb t "set" then do c <- n "core"; do d <- n "dest"; do i <- n "imm"; do v <- n "vec"; do _ <- need_bool l "is_address"; Some (ICore c (CSet d i v))
  else if String.eqb t "copy" then do c <- n "core"; do d <- n "dest"; do r <- n "read"; do v <- n "vec"; Some (ICore c (CCopy d r v))
  else if String.eqb t "mvm" then do c <- n "core"; do xs <- need_ints l "xbar"; Some (ICore c (CMvm xs))
  else if String.eqb t "vfu" then
    do c <- n "core"; do o <- need_vop l; do d <- n "dest"; do r <- n "read_1"; do r2 <- opt_int l "read_2"; do _ <- opt_int l "imm"; do v <- n "vec";
    Some (ICore c (CVfu o d r r2 v))
  else if String.eqb t "hlt" then do c <- n "core"; Some (ICore c CHlt)
  else if String.eqb t "send" then do a <- n "mem_addr"; do t <- n "target_tile"; do w <- n "width"; do v <- n "vec"; Some (ITile (TSend a t w v))
  else if String.eqb t "receive" then do a <- n "mem_addr"; do s <- n "source_tile"; do w <- n "width"; do v <- n "vec"; Some (ITile (TRecv a s w v))
  else if String.eqb t "halt" then Some (ITile THalt)
  else None.
Definition parse_as (l : list (string * json)) (t : string) : option op :=
  do n <- match field l "node" with None => Some 0 | Some v => as_int x v end;
  do i <- need_int l "tile";
  do b <- parse_body t l; Some (MkOp n i b).
Definition op_types : list string := ["load"; "store"; "set"; "copy"; "mvm"; "vfu"; "hlt"; "send"; "receive"; "halt"]%string.

(** Operation.model_validate({"op": op_data}).op: ramwich.py:75-76, ops.py:131-140.  The type is a Literal with a default: if it is missing,
    every class is tried. *)
Definition parse (j : json) : option op :=
  match j with
  | JObj l =>
      match field l "type" with
      | Some (JStr t) => parse_as l t
      | Some _ => None
      | None => pick x (flat_map (fun t => match parse_as l t with Some o => [o] | None => [] end) op_types)
      end
  | _ => None
  end.
End Parse.

(** ** The architecture *)
(** The parts of Node, Tile and Core that the loaders change: tile.py:26 and 34, core.py:28. *)
Record atile := MkATile { at_prog : list top; at_cores : list (core * list cop) }.
Definition arch : Type := list (list atile).
(** RAMwich._build_architecture, Node.__init__, Tile.__init__: ramwich.py:45-53, node.py:20, tile.py:34. *)
Definition build_architecture (c : sys_cfg) : arch :=
  repeat (repeat (MkATile [] (repeat (core_init (y_core c), []) (Z.to_nat (y_cores c)))) (Z.to_nat (w_tiles (y_net c)))) (Z.to_nat (w_nodes (y_net c))).

(** A change of the element list[i], for a method that looks it up by list[i]: ramwich.py:55-56, node.py:27-29, tile.py:43-45. *)
Definition py_modify {A} (l : list A) (i : Z) (f : A -> res A) : res (list A) :=
  match pyindex l i with
  | Raise e => Raise e
  | Ok a => match f a with
            | Raise e => Raise e
            | Ok b => Ok (upd l (Z.to_nat (if i <? 0 then i + zlen l else i)) b)
            end
  end.

(** One operation: ramwich.py:78-89. *)
Definition load_op (a : arch) (o : op) : res arch :=
  py_modify a (o_node o) (fun node => py_modify node (o_tile o) (fun t =>
    match o_instr o with
    | ITile x => Ok (MkATile (at_prog t ++ [x]) (at_cores t))
    | ICore k x => match py_modify (at_cores t) k (fun c => Ok (fst c, snd c ++ [x])) with
                   | Ok cs => Ok (MkATile (at_prog t) cs)
                   | Raise e => Raise e
                   end
    end)).
(** RAMwich.load_operations: ramwich.py:71-92, for an existing JSON file with a list of operations.  A ValueError (pydantic's
    ValidationError is one) skips the operation, an IndexError ends loading. *)
Fixpoint load_operations (x : lax) (a : arch) (data : list json) : res unit * arch :=
  match data with
  | [] => (Ok tt, a)
  | j :: rest =>
      match parse x j with
      | None => load_operations x a rest
      | Some o => match load_op a o with
                  | Ok a' => load_operations x a' rest
                  | Raise ValueError => load_operations x a rest
                  | Raise e => (Raise e, a)
                  end
      end
  end.

(** ** Weights *)
Fixpoint strip (p s : string) : option string :=
  match p, s with
  | EmptyString, _ => Some s
  | String a p', String b s' => if Ascii.eqb a b then strip p' s' else None
  | String _ _, EmptyString => None
  end.
Definition digit_of (a : ascii) : option Z :=
  let n := Z.of_nat (nat_of_ascii a) in if (48 <=? n) && (n <=? 57) then Some (n - 48) else None.
(** int(match.group(i)) of a group of digits, and what follows it. *)
Fixpoint digits (acc : option Z) (s : string) : option (Z * string) :=
  match s with
  | EmptyString => match acc with Some z => Some (z, s) | None => None end
  | String a rest =>
      match digit_of a with
      | Some d => digits (Some (10 * match acc with Some z => z | None => 0 end + d)) rest
      | None => match acc with Some z => Some (z, s) | None => None end
      end
  end.
(** re.match with the pattern of ramwich.py:105; $ also matches before a newline at the end.  Simplifications: only the digits 0 to 9
    (not the digits of other scripts), and fewer than 4300 of them (int limits the length). *)
Definition key_ids (key : string) : option (Z * Z * Z * Z) :=
  match strip "node" key with None => None | Some s =>
  match digits None s with None => None | Some (n, s) =>
  match strip "_tile" s with None => None | Some s =>
  match digits None s with None => None | Some (t, s) =>
  match strip "_core" s with None => None | Some s =>
  match digits None s with None => None | Some (c, s) =>
  match strip "_mvmu" s with None => None | Some s =>
  match digits None s with None => None | Some (m, s) =>
  if String.eqb s "" || String.eqb s (String (ascii_of_nat 10) "") then Some (n, t, c, m) else None
  end end end end end end end end.

(** ramwich.py:120-130: the weights of one unit; all exceptions are logged. *)
Definition load_unit (c : sys_cfg) (a : arch) (ids : Z * Z * Z * Z) (w : list (list f64)) : arch :=
  let '(n, t, k, m) := ids in
  match py_modify a n (fun node => py_modify node t (fun ti =>
    match py_modify (at_cores ti) k (fun co =>
            match get_mvmu (fst co) m with
            | Raise e => Raise e
            | Ok u => Ok (set_mvmu (fst co) m (snd (load_weights (k_mv (y_core c)) u w)), snd co)
            end) with
    | Raise e => Raise e
    | Ok cs => Ok (MkATile (at_prog ti) cs)
    end)) with
  | Ok a' => a'
  | Raise _ => a
  end.
(** RAMwich.load_weights: ramwich.py:101-130, for an existing NPZ file with two-dimensional float64 arrays; a list of keys and arrays. *)
Definition load_weight_file (c : sys_cfg) (a : arch) (file : list (string * list (list f64))) : arch :=
  fold_left (fun a kw => match key_ids (fst kw) with Some ids => load_unit c a ids (snd kw) | None => a end) file a.

(** RAMwich.__init__: ramwich.py:35-43. *)
Definition construct (x : lax) (c : sys_cfg) (ops : list json) (weights : list (string * list (list f64))) : res arch :=
  match load_operations x (build_architecture c) ops with
  | (Raise e, _) => Raise e
  | (Ok _, a) => Ok (load_weight_file c a weights)
  end.

(** ** Activations *)
(** The one-dimensional arrays that are modelled: float64 and int64 (or int32). *)
Inductive vector := VFloats (l : list f64) | VInts (l : list Z).
Definition vlen (v : vector) : Z := match v with VFloats l => zlen l | VInts l => zlen l end.
(** (activation_data * (1 << frac)).astype(np.int32): ramwich.py:173.  Simplification: numpy leaves the conversion of floats that are
    not finite or too large undefined; here: the truncated number modulo 2^32, and 0 for the others.  A float32 array is represented by
    its values as float64: scaling by a power of two rounds neither. *)
Definition fixed_activation (frac : Z) (v : vector) : list Z :=
  match v with
  | VFloats l => map (fun x => wrap32 (Btrunc (fmul x (f_of_Z (Z.shiftl 1 frac))))) l
  | VInts l => map (fun z => wrap32 (wrap64 (z * Z.shiftl 1 frac))) l
  end.
(** RAMwich.load_activation: ramwich.py:166-179, for the memory of tile 0 of node 0, and for an array (or a file with one); [dc_preload]
    makes the assignments and refuses what is too long. *)
Definition load_activation (frac : Z) (v : vector) (d : dram) : dram :=
  match dc_preload (fixed_activation frac v) d with Some d' => d' | None => d end.

(** What a node then runs (the job of SystemModel): node [n] of the architecture; only node 0 gets the activation. *)
Definition job_of (a : arch) (n : Z) (act : list Z) : job :=
  let node := znth [] a n in
  MkJob (fun i => at_prog (znth (MkATile [] []) node i)) (fun i => at_cores (znth (MkATile [] []) node i)) (if n =? 0 then act else []).
