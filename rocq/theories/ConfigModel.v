(** config.py: data formats and storage configuration. *)
From Verif Require Import PyBase.
From Coq Require Import Ascii String.

(** BitConfig: config.py:9-14. *)
Inductive bitcfg := SLC | MLC | TLC | QLC | SRAMb.

(** int(i) for the RRAM members, and the 1 of config.py:640,642 for SRAM. *)
Definition cell_bits (b : bitcfg) : Z :=
  match b with SLC => 1 | MLC => 2 | TLC => 3 | QLC => 4 | SRAMb => 1 end.
Definition is_sram (b : bitcfg) : bool := match b with SRAMb => true | _ => false end.

(** ** Format strings *)

(** \d of the pattern (ASCII digits; simplification: python's \d and int() also accept other
    Unicode decimal digits). *)
Definition digit_of (c : ascii) : option Z :=
  let n := Z.of_nat (nat_of_ascii c) in
  if (48 <=? n) && (n <=? 57) then Some (n - 48) else None.

(** Greedy \d+ together with int(): number of digits consumed, value, rest of the string. *)
Fixpoint scan_digits (s : string) (n acc : Z) : Z * Z * string :=
  match s with
  | EmptyString => (n, acc, s)
  | String c t => match digit_of c with
                  | Some d => scan_digits t (n + 1) (10 * acc + d)
                  | None => (n, acc, s)
                  end
  end.

(** re.match(r"Q(\d+)\.(\d+)", fmt) and the derived values: config.py:36-57.
    Returns (int_bits, frac_bits, width).  Backtracking never helps because '.' is not a digit. *)
Definition parse_format (fmt : string) : res (Z * Z * Z) :=
  match fmt with
  | String c t =>
      if negb (Ascii.eqb c "Q"%char) then Raise ValueError
      else match scan_digits t 0 0 with
           | (n1, int_bits, String d t2) =>
               if (n1 =? 0) || negb (Ascii.eqb d "."%char) then Raise ValueError
               else match scan_digits t2 0 0 with
                    | (n2, frac_bits, _) =>
                        if n2 =? 0 then Raise ValueError
                        else Ok (int_bits, frac_bits, int_bits + frac_bits)
                    end
           | _ => Raise ValueError
           end
  | EmptyString => Raise ValueError
  end.

(** ** Storage split *)

(** The derived fields of MVMUConfig: config.py:573-591. *)
Record storage := MkStorage {
  stored_bit : list Z;
  bits_per_cell : list Z;
  is_xbar_rram : list bool;
  rram_to_output_map : list Z;
  sram_to_output_map : list Z;
  num_rram : Z; num_sram : Z;
  have_rram : bool; have_sram : bool }.

(** The loop body of config.py:636-649; the accumulator is the record under construction and the
    running bit count. *)
Definition storage_step (acc : storage * Z) (i : bitcfg) : storage * Z :=
  let '(s, bits) := acc in
  if is_sram i then
    (MkStorage (stored_bit s ++ [bits]) (bits_per_cell s ++ [1]) (is_xbar_rram s ++ [false])
       (rram_to_output_map s) (sram_to_output_map s) (num_rram s) (num_sram s + 1)
       (have_rram s) true, bits + 1)
  else
    (MkStorage (stored_bit s ++ [bits]) (bits_per_cell s ++ [cell_bits i]) (is_xbar_rram s ++ [true])
       (rram_to_output_map s) (sram_to_output_map s) (num_rram s + 1) (num_sram s)
       true (have_sram s), bits + cell_bits i).

(** The loop body of config.py:660-664. *)
Definition map_step (is_rram : list bool) (acc : list Z * list Z) (i : Z) : list Z * list Z :=
  if nth (Z.to_nat i) is_rram false then (fst acc ++ [i], snd acc) else (fst acc, snd acc ++ [i]).

(** Config.validate_and_calculate: config.py:625-664 (the storage part). *)
Definition validate_storage (storage_config : list bitcfg) (weight_width : Z) : res storage :=
  let '(s, bits) := fold_left storage_step storage_config
                      (MkStorage [] [] [] [] [] 0 0 false false, 0) in
  let s_bits := stored_bit s ++ [bits] in
  if negb (bits =? weight_width) then Raise AssertionError
  else
    let num_xbar := num_sram s + num_rram s in
    let '(rmap, smap) := fold_left (map_step (is_xbar_rram s)) (zrange num_xbar) ([], []) in
    Ok (MkStorage s_bits (bits_per_cell s) (is_xbar_rram s) rmap smap
          (num_rram s) (num_sram s) (have_rram s) (have_sram s)).

(** TileConfig.edram_size: config.py:666. *)
Definition edram_size_of (size_in_kb activation_width : Z) : res Z :=
  if activation_width =? 0 then Raise ZeroDivisionError
  else Ok (size_in_kb * 1024 * 8 / activation_width).

(** MVMUConfig.__init__: config.py:597-607. *)
Definition num_adc_of (xbar_size num_columns_per_adc : Z) : res Z :=
  if num_columns_per_adc =? 0 then Raise ZeroDivisionError
  else if negb (xbar_size mod num_columns_per_adc =? 0) then Raise ValueError
  else Ok (xbar_size / num_columns_per_adc).
