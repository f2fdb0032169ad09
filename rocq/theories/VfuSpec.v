(** Independent specification of the vector operations. *)
From Verif Require Import PyBase VfuModel.

(** The exact mathematical result of an operation on fixed-point numbers with [f] fraction
    bits; rescaling rounds towards minus infinity. *)
Definition exact (f : Z) (op : vop) (a b r : Z) : Prop :=
  match op with
  | Vadd => r = a + b
  | Vsub => r = a - b
  | Vmul => r * 2 ^ f <= a * b < (r + 1) * 2 ^ f
  | Vdiv => (0 < b /\ r * b <= a * 2 ^ f < (r + 1) * b) \/ (b < 0 /\ (r + 1) * b < a * 2 ^ f <= r * b)
  | Vmin => (r = a \/ r = b) /\ r <= a /\ r <= b
  | Vmax => (r = a \/ r = b) /\ a <= r /\ b <= r
  | Vand => forall i, 0 <= i -> Z.testbit r i = Z.testbit a i && Z.testbit b i
  | Vor => forall i, 0 <= i -> Z.testbit r i = Z.testbit a i || Z.testbit b i
  | Vnot => r = - a - 1
  | Vrelu => (a <= 0 /\ r = 0) \/ (0 <= a /\ r = a)
  | Vsig | Vtanh => False
  end.

(** The 32-bit datapath can hold the intermediate result. *)
Definition fits (f : Z) (op : vop) (a b : Z) : Prop :=
  match op with
  | Vadd => int32 (a + b)
  | Vsub => int32 (a - b)
  | Vmul => int32 (a * b)
  | Vdiv => b <> 0 /\ int32 (a * 2 ^ f) /\ ~ (a * 2 ^ f = -2147483648 /\ b = -1)
  | _ => True
  end.

(** [x] clamped to the representable range of width [w]. *)
Definition clamped (w x y : Z) : Prop :=
  (x < - 2 ^ w /\ y = - 2 ^ w) \/ (- 2 ^ w <= x <= 2 ^ w - 1 /\ y = x) \/ (2 ^ w - 1 < x /\ y = 2 ^ w - 1).

Definition arithmetic (op : vop) : bool := match op with Vsig | Vtanh => false | _ => true end.
Definition in_range (w x : Z) : Prop := - 2 ^ w <= x <= 2 ^ w - 1.

(** The class of an operation. *)
Inductive vclass := Cmul | Cdiv | Cact | Cother.
Definition class_of (op : vop) : vclass :=
  match op with Vmul => Cmul | Vdiv => Cdiv | Vsig => Cact | Vtanh => Cact | _ => Cother end.
Definition class_eqb (x y : vclass) : bool :=
  match x, y with Cmul, Cmul | Cdiv, Cdiv | Cact, Cact | Cother, Cother => true | _, _ => false end.

(** When an operation succeeds: unary ones always; binary ones need a second operand of the same
    length (or one of the two of length 1), and division needs non-zero divisors. *)
Definition succeeds (op : vop) (a : list Z) (b : option (list Z)) : bool :=
  match op, b with
  | (Vnot | Vsig | Vtanh | Vrelu), _ => true
  | _, None => false
  | _, Some b =>
      ((zlen a =? zlen b) || (zlen a =? 1) || (zlen b =? 1)) &&
      (match op with Vdiv => forallb (fun x => negb (x =? 0)) b | _ => true end)
  end.

(** A history of calls (the caller catches exceptions). *)
Definition vcall : Type := vop * list Z * option (list Z).
Definition vfu_step (c : vfu_cfg) (s : vstats) (x : vcall) : vstats :=
  snd (vfu_calculate c s (fst (fst x)) (snd (fst x)) (snd x)).
Definition vfu_run (c : vfu_cfg) (s : vstats) (h : list vcall) : vstats := fold_left (vfu_step c) h s.
Definition class_total (k : vclass) (h : list vcall) : Z :=
  zsum (map (fun '(op, a, b) => if succeeds op a b && class_eqb (class_of op) k then zlen a else 0) h).

(** Configurations used in examples: Q8.8, Q4.4 and Q0.16 activations. *)
Definition q8_8 : vfu_cfg := MkVfu 8 16 (fun _ x => x).
Definition q4_4 : vfu_cfg := MkVfu 4 8 (fun _ x => x).
Definition q0_16 : vfu_cfg := MkVfu 16 16 (fun _ x => x).
