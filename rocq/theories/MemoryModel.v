(** blocks/memory.py, blocks/inreg.py, blocks/outreg.py. *)
From Verif Require Import PyBase.

(** MemoryStats: blocks/memory.py:11-33 (counters only; the energy mapping is in StatsModel). *)
Record mstats := MkMStats {
  read_operations : Z; read_cells : Z;
  write_operations : Z; write_cells : Z;
  total_operations : Z; total_operated_cells : Z }.

(** MemoryStats defaults and reset: blocks/memory.py:19-33. *)
Definition mstats0 : mstats := MkMStats 0 0 0 0 0 0.

(** blocks/memory.py:103-107 *)
Definition count_read (s : mstats) (batch length : Z) : mstats :=
  MkMStats (read_operations s + batch) (read_cells s + length)
           (write_operations s) (write_cells s)
           (total_operations s + batch) (total_operated_cells s + length).

(** blocks/memory.py:132-136 *)
Definition count_write (s : mstats) (batch length : Z) : mstats :=
  MkMStats (read_operations s) (read_cells s)
           (write_operations s + batch) (write_cells s + length)
           (total_operations s + batch) (total_operated_cells s + length).

(** Memory: blocks/memory.py:80-90.  The cells are an int32 array. *)
Record memory := MkMem { msize : Z; cells : list Z; mstat : mstats }.

(** Memory.__init__: blocks/memory.py:83-90, np.zeros(size). *)
Definition mem_init (size : Z) : memory := MkMem size (repeat 0 (Z.to_nat size)) mstats0.

(** Memory.read: blocks/memory.py:92-109.  The object is returned also when the call raises. *)
Definition mem_read (m : memory) (start length batch : Z) : res (list Z) * memory :=
  let end_ := start + length in
  if (start <? 0) || (msize m <? end_) then (Raise IndexError, m)
  else if length <=? 0 then (Raise ValueError, m)
  else (Ok (block (cells m) start length),
        MkMem (msize m) (cells m) (count_read (mstat m) batch length)).

(** Memory.write: blocks/memory.py:116-136, for an array argument (line 119 turns a python int
    into a one-element array).  Assigning an int64 array into int32 cells wraps. *)
Definition mem_write (m : memory) (start : Z) (values : list Z) (batch : Z) : res unit * memory :=
  let length := zlen values in
  let end_ := start + length in
  if (start <? 0) || (msize m <? end_) then (Raise IndexError, m)
  else (Ok tt,
        MkMem (msize m) (blit (cells m) start (map wrap32 values))
              (count_write (mstat m) batch length)).

(** Memory.reset: blocks/memory.py:111-114. *)
Definition mem_reset (m : memory) : memory :=
  MkMem (msize m) (map (fun _ => 0) (cells m)) mstats0.

(** InputRegisterArray: blocks/inreg.py:16-24. *)
Record inreg := MkIn { in_size : Z; in_regs : list Z; in_stat : mstats }.
Definition inreg_init (size : Z) : inreg := MkIn size (repeat 0 (Z.to_nat size)) mstats0.

(** InputRegisterArray.write: blocks/inreg.py:26-47 (array argument). *)
Definition inreg_write (r : inreg) (value : list Z) (start : Z) : res unit * inreg :=
  let length := zlen value in
  let end_ := start + length in
  if (start <? 0) || (in_size r <? end_) then (Raise IndexError, r)
  else (Ok tt, MkIn (in_size r) (blit (in_regs r) start (map wrap32 value))
                    (count_write (in_stat r) 1 length)).

(** InputRegisterArray.read: blocks/inreg.py:49-63.  Bitwise and with (1 << bits) - 1 on int32,
    then an arithmetic right shift in place.  Simplification: 0 <= bits <= 31 (numpy rejects a
    mask that does not fit in int32; a negative shift count is rejected by python). *)
Definition inreg_read (r : inreg) (bits : Z) : list Z * inreg :=
  let lsb := map (fun x => Z.land x (Z.shiftl 1 bits - 1)) (in_regs r) in
  (lsb, MkIn (in_size r) (map (fun x => Z.shiftr x bits) (in_regs r))
             (count_read (in_stat r) 1 (in_size r))).

(** InputRegisterArray.reset: blocks/inreg.py:80-83. *)
Definition inreg_reset (r : inreg) : inreg :=
  MkIn (in_size r) (map (fun _ => 0) (in_regs r)) mstats0.

(** OutputRegisterArray: blocks/outreg.py:15-23. *)
Record outreg := MkOut { out_size : Z; out_regs : list Z; out_stat : mstats }.
Definition outreg_init (size : Z) : outreg := MkOut size (repeat 0 (Z.to_nat size)) mstats0.

(** blocks/outreg.py:44 and 69 *)
Definition bad_index (size : Z) (indices : list Z) : bool :=
  existsb (fun i => size <=? i) indices || existsb (fun i => i <? 0) indices.

(** registers[indices] = value: numpy fancy assignment, later entries win; the values wrap to
    int32. *)
Definition scatter (regs indices value : list Z) : list Z :=
  fold_left (fun rs iv => upd rs (Z.to_nat (fst iv)) (wrap32 (snd iv))) (combine indices value) regs.

(** OutputRegisterArray.write with indices: blocks/outreg.py:42-54 (len(value) = len(indices)). *)
Definition outreg_write (r : outreg) (value indices : list Z) : res unit * outreg :=
  if bad_index (out_size r) indices then (Raise ValueError, r)
  else (Ok tt, MkOut (out_size r) (scatter (out_regs r) indices value)
                     (count_write (out_stat r) 1 (zlen indices))).

(** OutputRegisterArray.write without indices: blocks/outreg.py:28-40. *)
Definition outreg_write_all (r : outreg) (value : list Z) : res unit * outreg :=
  if negb (zlen value =? zlen (out_regs r)) then (Raise ValueError, r)
  else (Ok tt, MkOut (out_size r) (map wrap32 value) (count_write (out_stat r) 1 (out_size r))).

(** OutputRegisterArray.read with indices: blocks/outreg.py:68-79. *)
Definition outreg_read (r : outreg) (indices : list Z) : res (list Z) * outreg :=
  if bad_index (out_size r) indices then (Raise ValueError, r)
  else (Ok (map (znth 0 (out_regs r)) indices),
        MkOut (out_size r) (out_regs r) (count_read (out_stat r) 1 (zlen indices))).

(** OutputRegisterArray.read without indices: blocks/outreg.py:58-66. *)
Definition outreg_read_all (r : outreg) : list Z * outreg :=
  (out_regs r, MkOut (out_size r) (out_regs r) (count_read (out_stat r) 1 (out_size r))).

(** OutputRegisterArray.clean_cells: blocks/outreg.py:83-91. *)
Definition outreg_clean (r : outreg) : outreg :=
  MkOut (out_size r) (map (fun _ => 0) (out_regs r)) (count_write (out_stat r) 1 (out_size r)).

(** OutputRegisterArray.reset: blocks/outreg.py:93-96. *)
Definition outreg_reset (r : outreg) : outreg :=
  MkOut (out_size r) (map (fun _ => 0) (out_regs r)) mstats0.
