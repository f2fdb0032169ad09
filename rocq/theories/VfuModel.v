(** blocks/vfu.py. *)
From Verif Require Import PyBase.

(** VFUOpType: ops.py:77. *)
Inductive vop := Vand | Vor | Vnot | Vadd | Vsub | Vmul | Vdiv | Vmin | Vmax | Vsig | Vtanh | Vrelu.

(** VFUStats: blocks/vfu.py:19-31. *)
Record vstats := MkVStats {
  mul_operations : Z; div_operations : Z; act_operations : Z; other_operations : Z;
  vtotal_operations : Z }.
Definition vstats0 := MkVStats 0 0 0 0 0.

(** What a VFU needs to know: blocks/vfu.py:66-70.  [v_act] gives the int32 results of sig and
    tanh (blocks/vfu.py:170-186); numpy's exp and tanh are not modelled, the theorems hold for
    every such function.  Simplification: activation width at most 31, so that the clip bounds
    fit in int32. *)
Record vfu_cfg := MkVfu { v_frac : Z; v_width : Z; v_act : vop -> Z -> Z }.

Definition v_min_value (c : vfu_cfg) : Z := -1 * Z.shiftl 1 (v_width c).
Definition v_max_value (c : vfu_cfg) : Z := Z.shiftl 1 (v_width c) - 1.

(** blocks/vfu.py:119 *)
Definition is_unary (op : vop) : bool :=
  match op with Vnot | Vsig | Vtanh | Vrelu => true | _ => false end.

(** The element-wise part of the handlers: blocks/vfu.py:141-189, in int32 arithmetic. *)
Definition v_unary (c : vfu_cfg) (op : vop) (a : Z) : Z :=
  match op with
  | Vnot => Z.lnot a
  | Vrelu => Z.max 0 a
  | Vsig | Vtanh => wrap32 (v_act c op a)
  | _ => a
  end.

Definition v_binary (c : vfu_cfg) (op : vop) (a b : Z) : Z :=
  match op with
  | Vand => Z.land a b
  | Vor => Z.lor a b
  | Vadd => wrap32 (a + b)
  | Vsub => wrap32 (a - b)
  | Vmul => Z.shiftr (wrap32 (a * b)) (v_frac c)
  | Vdiv => wrap32 (wrap32 (Z.shiftl a (v_frac c)) / b)
  | Vmin => Z.min a b
  | Vmax => Z.max a b
  | _ => a
  end.

Definition zipwith {A B C} (f : A -> B -> C) (l1 : list A) (l2 : list B) : list C :=
  map (fun p => f (fst p) (snd p)) (combine l1 l2).

(** A binary numpy operation on one-dimensional arrays, with broadcasting of length 1. *)
Definition broadcast2 (f : Z -> Z -> Z) (a b : list Z) : res (list Z) :=
  if zlen a =? zlen b then Ok (zipwith f a b)
  else if zlen b =? 1 then Ok (map (fun x => f x (znth 0 b 0)) a)
  else if zlen a =? 1 then Ok (map (f (znth 0 a 0)) b)
  else Raise ValueError.

(** _update_stats: blocks/vfu.py:110-116 and 191-200. *)
Definition v_update_stats (s : vstats) (op : vop) (length : Z) : vstats :=
  match op with
  | Vmul => MkVStats (mul_operations s + length) (div_operations s) (act_operations s)
                     (other_operations s) (vtotal_operations s + length)
  | Vdiv => MkVStats (mul_operations s) (div_operations s + length) (act_operations s)
                     (other_operations s) (vtotal_operations s + length)
  | Vsig | Vtanh => MkVStats (mul_operations s) (div_operations s) (act_operations s + length)
                     (other_operations s) (vtotal_operations s + length)
  | _ => MkVStats (mul_operations s) (div_operations s) (act_operations s)
                     (other_operations s + length) (vtotal_operations s + length)
  end.

(** The handler of an opcode, including the zero test of _handle_div: blocks/vfu.py:118-131 and
    159-162. *)
Definition v_handle (c : vfu_cfg) (op : vop) (a : list Z) (b : option (list Z)) : res (list Z) :=
  if is_unary op then Ok (map (v_unary c op) a)
  else match b with
       | None => Raise ValueError
       | Some b =>
           match op with
           | Vdiv => if existsb (fun x => x =? 0) b then Raise ZeroDivisionError
                     else broadcast2 (v_binary c op) a b
           | _ => broadcast2 (v_binary c op) a b
           end
       end.

(** VFU.calculate: blocks/vfu.py:95-139, for array operands. *)
Definition vfu_calculate (c : vfu_cfg) (s : vstats) (op : vop) (a : list Z) (b : option (list Z))
  : res (list Z) * vstats :=
  match v_handle c op a b with
  | Raise e => (Raise e, s)
  | Ok r => (Ok (map (clipZ (v_min_value c) (v_max_value c)) r), v_update_stats s op (zlen a))
  end.

(** VFU.reset: blocks/vfu.py:202-204. *)
Definition vfu_reset (s : vstats) : vstats := vstats0.
