(** Python and numpy basics shared by all models: exceptions as values, int32 wrap-around,
    block updates of arrays.  Nothing here models a particular file of /repo. *)
From Coq Require Export ZArith List Bool Lia Arith.
From Coq Require Import ZifyBool ZifyNat.
Export ListNotations.
Open Scope Z_scope.

(** Python exceptions, by class. *)
Inductive exn :=
| IndexError | ValueError | RuntimeError | KeyError | ZeroDivisionError
| AssertionError | TypeError | AttributeError | OverflowError | NotImplementedError.

(** Result of a call: a value or a raised exception. *)
Inductive res (A : Type) := Ok (a : A) | Raise (e : exn).
Arguments Ok {A} _. Arguments Raise {A} _.

Definition is_ok {A} (r : res A) : bool := match r with Ok _ => true | Raise _ => false end.

(** numpy int32: two's complement wrap-around of an integer (what an assignment of a wider
    integer into an int32 array, or an overflowing int32 operation, does). *)
Definition wrap32 (z : Z) : Z := (z + 2147483648) mod 4294967296 - 2147483648.
Definition int32 (z : Z) : Prop := -2147483648 <= z <= 2147483647.
Definition int32b (z : Z) : bool := (-2147483648 <=? z) && (z <=? 2147483647).

(** numpy int64. *)
Definition wrap64 (z : Z) : Z := (z + 9223372036854775808) mod 18446744073709551616 - 9223372036854775808.
Definition int64 (z : Z) : Prop := -9223372036854775808 <= z <= 9223372036854775807.

(** np.clip(x, lo, hi) = minimum(maximum(x, lo), hi). *)
Definition clipZ (lo hi x : Z) : Z := Z.min (Z.max x lo) hi.

(** len(x) of an array or list. *)
Definition zlen {A} (l : list A) : Z := Z.of_nat (length l).

(** Element i of an array; used only under 0 <= i < len. *)
Definition znth {A} (d : A) (l : list A) (i : Z) : A := nth (Z.to_nat i) l d.

(** a[start : start+len] for 0 <= start and start+len <= len(a). *)
Definition block {A} (l : list A) (start len : Z) : list A :=
  firstn (Z.to_nat len) (skipn (Z.to_nat start) l).

(** a[start : start+len(vals)] = vals for 0 <= start and start+len(vals) <= len(a). *)
Definition blit {A} (l : list A) (start : Z) (vals : list A) : list A :=
  firstn (Z.to_nat start) l ++ vals ++ skipn (Z.to_nat start + length vals) l.

(** a[i] = v *)
Fixpoint upd {A} (l : list A) (i : nat) (v : A) : list A :=
  match l, i with
  | [], _ => []
  | _ :: t, O => v :: t
  | h :: t, S j => h :: upd t j v
  end.

(** range(n) as integers. *)
Definition zrange (n : Z) : list Z := map Z.of_nat (seq 0 (Z.to_nat n)).

(** Python's normalisation of a slice bound against a sequence of length n. *)
Definition slice_bound (n i : Z) : Z :=
  if i <? 0 then Z.max 0 (i + n) else Z.min i n.

(** seq[start:stop] for arbitrary integer bounds. *)
Definition pyslice {A} (l : list A) (start stop : Z) : list A :=
  let n := zlen l in
  let s := slice_bound n start in
  let e := slice_bound n stop in
  block l s (Z.max 0 (e - s)).

(** list[i] with Python's negative indexing. *)
Definition pyindex {A} (l : list A) (i : Z) : res A :=
  let n := zlen l in
  let j := if i <? 0 then i + n else i in
  if (j <? 0) || (n <=? j) then Raise IndexError
  else match nth_error l (Z.to_nat j) with Some a => Ok a | None => Raise IndexError end.

(** Sum of a list. *)
Definition zsum (l : list Z) : Z := fold_right Z.add 0 l.

Fixpoint dot (a b : list Z) : Z :=
  match a, b with
  | x :: a', y :: b' => x * y + dot a' b'
  | _, _ => 0
  end.
