(** C11 - C15: the vector functional unit. *)
From Verif Require Import PyBase VfuModel VfuSpec VfuProofs.

(** C11 (vector unit results stay in the representable range). *)
Theorem C11_vfu_range :
  forall c s op a b r s',
    0 <= v_width c -> vfu_calculate c s op a b = (Ok r, s') -> Forall (in_range (v_width c)) r.
Proof. exact vfu_range. Qed.
Print Assumptions C11_vfu_range.

Theorem C11_vfu_length :
  forall c s op a b r s',
    (match b with Some b => zlen b = zlen a \/ zlen b = 1 | None => True end) ->
    vfu_calculate c s op a b = (Ok r, s') -> zlen r = zlen a.
Proof. exact vfu_length. Qed.
Print Assumptions C11_vfu_length.

Example C11_case :
  fst (vfu_calculate q4_4 vstats0 Vadd [200; -200; 3] (Some [100; -100; 4])) = Ok [255; -256; 7].
Proof. vm_compute. reflexivity. Qed.

(** C12 (vector arithmetic is saturating fixed-point arithmetic). *)
Theorem C12_vfu_exact :
  forall c s op a b,
    0 <= v_width c -> 0 <= v_frac c -> arithmetic op = true ->
    zlen a = zlen b -> Forall int32 a -> Forall int32 b ->
    (forall i, 0 <= i < zlen a -> fits (v_frac c) op (znth 0 a i) (znth 0 b i)) ->
    exists r s', vfu_calculate c s op a (Some b) = (Ok r, s') /\ zlen r = zlen a /\
      forall i, 0 <= i < zlen a ->
        exists x, exact (v_frac c) op (znth 0 a i) (znth 0 b i) x /\ clamped (v_width c) x (znth 0 r i).
Proof. exact vfu_exact. Qed.
Print Assumptions C12_vfu_exact.

Example C12_case :
  fst (vfu_calculate q4_4 vstats0 Vmul [40; -41; 3] (Some [16; 9; -1])) = Ok [40; -24; -1] /\
  fst (vfu_calculate q4_4 vstats0 Vdiv [40; -41; 255] (Some [16; 9; 1])) = Ok [40; -73; 255] /\
  fst (vfu_calculate q4_4 vstats0 Vnot [5; -1] None) = Ok [-6; 0] /\
  fits 4 Vmul (-41) 9 /\ fits 4 Vdiv (-41) 9.
Proof. repeat split; try (vm_compute; congruence). intros [H _]; discriminate H. Qed.

(** C13 (in-range operands never overflow silently): add and sub up to width 30. *)
Theorem C13_add_sub_in_range :
  forall c s op a b,
    0 <= v_width c <= 30 -> 0 <= v_frac c -> op = Vadd \/ op = Vsub ->
    zlen a = zlen b -> Forall (in_range (v_width c)) a -> Forall (in_range (v_width c)) b ->
    exists r s', vfu_calculate c s op a (Some b) = (Ok r, s') /\ zlen r = zlen a /\
      forall i, 0 <= i < zlen a ->
        exists x, exact (v_frac c) op (znth 0 a i) (znth 0 b i) x /\ clamped (v_width c) x (znth 0 r i).
Proof. exact vfu_add_sub_in_range. Qed.
Print Assumptions C13_add_sub_in_range.

Example C13_case :
  fst (vfu_calculate q8_8 vstats0 Vsub [-65536; 65535] (Some [65535; 1])) = Ok [-65536; 65534].
Proof. vm_compute. reflexivity. Qed.

(** For mul the claim is false, with the format Q8.8 of the shipped example: the operands are in
    range, yet the returned element is not the clamped exact result. *)
Theorem C13_mul_in_range_refuted :
  exists a b r, in_range 16 a /\ in_range 16 b /\
    fst (vfu_calculate q8_8 vstats0 Vmul [a] (Some [b])) = Ok [r] /\
    ~ exists x, exact 8 Vmul a b x /\ clamped 16 x r.
Proof. exact mul_in_range_refuted. Qed.
Print Assumptions C13_mul_in_range_refuted.

(** For div it is false with 16 fraction bits. *)
Theorem C13_div_in_range_refuted :
  exists a b r, in_range 16 a /\ in_range 16 b /\ b <> 0 /\
    fst (vfu_calculate q0_16 vstats0 Vdiv [a] (Some [b])) = Ok [r] /\
    ~ exists x, exact 16 Vdiv a b x /\ clamped 16 x r.
Proof. exact div_in_range_refuted. Qed.
Print Assumptions C13_div_in_range_refuted.

(** C14 (a failing vector operation has no effect): an operation fails exactly when it is a
    division with a zero divisor, lacks a second operand, or the lengths do not match; then no
    counter changes.  (That no register changes either is C14_core_vfu_failure in PropCore.) *)
Theorem C14_vfu_failure :
  forall c s op a b,
    succeeds op a b = false <-> exists e, vfu_calculate c s op a b = (Raise e, s).
Proof. exact vfu_failure. Qed.
Print Assumptions C14_vfu_failure.

Theorem C14_vfu_unary_ignores_second :
  forall c s op a b, op = Vnot \/ op = Vsig \/ op = Vtanh \/ op = Vrelu ->
    vfu_calculate c s op a b = vfu_calculate c s op a None.
Proof.
  intros c s op a b H. apply vfu_unary_ignores. now destruct H as [-> | [-> | [-> | ->]]].
Qed.
Print Assumptions C14_vfu_unary_ignores_second.

Example C14_case :
  let s := MkVStats 1 2 3 4 10 in
  vfu_calculate q4_4 s Vdiv [4; 5] (Some [2; 0]) = (Raise ZeroDivisionError, s) /\
  vfu_calculate q4_4 s Vadd [4; 5] None = (Raise ValueError, s) /\
  vfu_calculate q4_4 s Vrelu [4; -5] (Some [1]) = (Ok [4; 0], MkVStats 1 2 3 6 12).
Proof. vm_compute. auto. Qed.

(** C15 (vector unit counters add up). *)
Theorem C15_vfu_counters :
  forall c h,
    let s := vfu_run c vstats0 h in
    mul_operations s = class_total Cmul h /\ div_operations s = class_total Cdiv h /\
    act_operations s = class_total Cact h /\ other_operations s = class_total Cother h /\
    vtotal_operations s = mul_operations s + div_operations s + act_operations s + other_operations s.
Proof. exact vfu_counters. Qed.
Print Assumptions C15_vfu_counters.

Example C15_case :
  let h := [(Vmul, [1; 2; 3], Some [4; 5; 6]); (Vdiv, [1], Some [0]); (Vdiv, [1; 9], Some [3; 4]);
            (Vsig, [1; 1], None); (Vand, [1], Some [1]); (Vor, [1], None)] in
  vfu_run q4_4 vstats0 h = MkVStats 3 2 2 1 8 /\
  class_total Cmul h = 3 /\ class_total Cdiv h = 2 /\ class_total Cact h = 2 /\ class_total Cother h = 1.
Proof. vm_compute. auto. Qed.
