(** Independent specification of formats and of the storage split. *)
From Verif Require Import PyBase ConfigModel.
From Coq Require Import Ascii String Sorted.

(** Total number of bits held by the first [k] crossbars of a storage list. *)
Definition bits_below (cfg : list bitcfg) (k : nat) : Z := zsum (map cell_bits (firstn k cfg)).

(** A decimal numeral as a list of digits, its text and its value. *)
Definition is_numeral (ds : list nat) : Prop := ds <> [] /\ Forall (fun d => (d < 10)%nat) ds.
Fixpoint render (ds : list nat) : string :=
  match ds with [] => EmptyString | d :: t => String (ascii_of_nat (48 + d)) (render t) end.
Fixpoint value_rev (rds : list nat) : Z :=
  match rds with [] => 0 | d :: t => Z.of_nat d + 10 * value_rev t end.
Definition value (ds : list nat) : Z := value_rev (rev ds).

(** Text that does not continue a numeral. *)
Definition no_digit_first (s : string) : Prop :=
  match s with EmptyString => True
  | String c _ => ~ (48 <= nat_of_ascii c <= 57)%nat end.

(** The text "Q<i>.<f>". *)
Definition format_text (i f : list nat) : string :=
  String "Q"%char (append (render i) (String "."%char (render f))).

(** Cutting and recombining: the value of a list of cells at given bit positions. *)
Fixpoint recombine (positions cells : list Z) : Z :=
  match positions, cells with
  | p :: ps, c :: cs => c * 2 ^ p + recombine ps cs
  | _, _ => 0
  end.
