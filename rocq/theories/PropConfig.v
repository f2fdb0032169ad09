(** C01, C02, C05: storage configuration, weight slices and data formats. *)
From Verif Require Import PyBase DataConvert ConfigModel ConfigSpec ConfigProofs.
From Coq Require Import Ascii String Sorted.
Open Scope Z_scope.

(** C01 (weight slices recombine to the stored weight). *)
Theorem C01_slices_recombine :
  forall cfg w s mag,
    validate_storage cfg w = Ok s ->
    exists cells,
      Forall2 (fun k c => extract_bits mag (nth k (stored_bit s) 0) (nth (S k) (stored_bit s) 0) = Ok c)
              (seq 0 (List.length cfg)) cells /\
      recombine (stored_bit s) cells = mag mod 2 ^ w /\
      Forall2 (fun c b => 0 <= c < 2 ^ b) cells (bits_per_cell s).
Proof. exact slices_recombine. Qed.
Print Assumptions C01_slices_recombine.

Corollary C01_slices_exact :
  forall cfg w s mag,
    validate_storage cfg w = Ok s -> 0 <= mag < 2 ^ w ->
    exists cells,
      Forall2 (fun k c => extract_bits mag (nth k (stored_bit s) 0) (nth (S k) (stored_bit s) 0) = Ok c)
              (seq 0 (List.length cfg)) cells /\
      recombine (stored_bit s) cells = mag.
Proof.
  intros cfg w s mag V H. destruct (slices_recombine cfg w s mag V) as (cs & H1 & H2 & _).
  exists cs. split; [exact H1|]. now rewrite H2, Z.mod_small.
Qed.
Print Assumptions C01_slices_exact.

Example C01_case :
  exists s, validate_storage [MLC; SRAMb; TLC; QLC] 10 = Ok s /\
    stored_bit s = [0; 2; 3; 6; 10] /\
    map (fun k => extract_bits 726 (nth k (stored_bit s) 0) (nth (S k) (stored_bit s) 0)) (seq 0 4)
      = [Ok 2; Ok 1; Ok 2; Ok 11] /\
    recombine (stored_bit s) [2; 1; 2; 11] = 726.
Proof. eexists. vm_compute. auto. Qed.

(** C02 (storage configuration is split consistently). *)
Theorem C02_storage_accepted_iff :
  forall cfg w,
    (exists s, validate_storage cfg w = Ok s) <-> zsum (map cell_bits cfg) = w.
Proof.
  intros cfg w. rewrite validate_storage_eq. split.
  - intros [s H]. destruct (Z.eqb_spec (zsum (map cell_bits cfg)) w); congruence.
  - intros <-. rewrite Z.eqb_refl. eauto.
Qed.
Print Assumptions C02_storage_accepted_iff.

Theorem C02_storage_split :
  forall cfg w s,
    validate_storage cfg w = Ok s ->
    let n := zlen cfg in
    zlen (stored_bit s) = n + 1 /\
    (forall k, (k <= List.length cfg)%nat -> nth k (stored_bit s) 0 = bits_below cfg k) /\
    nth 0 (stored_bit s) 0 = 0 /\ nth (List.length cfg) (stored_bit s) 0 = w /\
    bits_per_cell s = map cell_bits cfg /\
    is_xbar_rram s = map (fun b => negb (is_sram b)) cfg /\
    StronglySorted Z.lt (rram_to_output_map s) /\ StronglySorted Z.lt (sram_to_output_map s) /\
    (forall i, In i (rram_to_output_map s) <-> 0 <= i < n /\ is_sram (nth (Z.to_nat i) cfg SLC) = false) /\
    (forall i, In i (sram_to_output_map s) <-> 0 <= i < n /\ is_sram (nth (Z.to_nat i) cfg SLC) = true) /\
    num_rram s = zlen (rram_to_output_map s) /\ num_sram s = zlen (sram_to_output_map s) /\
    num_rram s + num_sram s = n /\
    (have_rram s = true <-> 0 < num_rram s) /\ (have_sram s = true <-> 0 < num_sram s).
Proof. exact storage_spec. Qed.
Print Assumptions C02_storage_split.

Example C02_case :
  validate_storage [MLC; SRAMb; TLC; SRAMb] 7 =
    Ok (MkStorage [0; 2; 3; 6; 7] [2; 1; 3; 1] [true; false; true; false] [0; 2] [1; 3] 2 2 true true) /\
  validate_storage [MLC; SRAMb] 4 = Raise AssertionError.
Proof. vm_compute. auto. Qed.

(** C05 (data formats are parsed faithfully): every text Q<i>.<f> is accepted with the right
    values, and an accepted text starts with such a text. *)
Theorem C05_format_accepted :
  forall i f, is_numeral i -> is_numeral f ->
    parse_format (format_text i f) = Ok (value i, value f, value i + value f).
Proof.
  intros i f Hi Hf. rewrite <- (parse_format_ok i f EmptyString Hi Hf I). f_equal.
  generalize (format_text i f). intros s. induction s; cbn; congruence.
Qed.
Print Assumptions C05_format_accepted.

Theorem C05_format_accepted_only :
  forall s a b w,
    parse_format s = Ok (a, b, w) <->
    exists i f rest, is_numeral i /\ is_numeral f /\ no_digit_first rest /\
      s = (format_text i f ++ rest)%string /\ a = value i /\ b = value f /\ w = a + b.
Proof.
  intros s a b w. split; [apply parse_format_inv|].
  intros (i & f & r & Hi & Hf & Hr & -> & -> & -> & ->). now apply parse_format_ok.
Qed.
Print Assumptions C05_format_accepted_only.

(** The claim "a text that does not have this form is rejected" is false. *)
Theorem C05_malformed_rejected_refuted :
  exists s v, parse_format s = Ok v /\
    ~ exists i f, is_numeral i /\ is_numeral f /\ s = format_text i f.
Proof.
  exists "Q4.12-bit"%string. eexists. split; [reflexivity|].
  intros (i & f & [Hi1 Hi2] & [Hf1 Hf2] & E).
  pose proof (C05_format_accepted i f (conj Hi1 Hi2) (conj Hf1 Hf2)) as _.
  assert (L : forall ds, Forall (fun d => (d < 10)%nat) ds -> forall c, In c (list_ascii_of_string (render ds)) -> c <> "-"%char).
  { induction 1 as [|d ds Hd _ IH]; cbn; [tauto|]. intros c [<-|Hc]; [|now apply IH].
    do 10 (destruct d as [|d]; [discriminate|]). exfalso. apply PeanoNat.Nat.ltb_lt in Hd. discriminate. }
  assert (K : In "-"%char (list_ascii_of_string (format_text i f))).
  { rewrite <- E. vm_compute. tauto. }
  unfold format_text in K. cbn [list_ascii_of_string In] in K. destruct K as [K|K]; [discriminate|].
  assert (A : forall x y, list_ascii_of_string (x ++ y) = (list_ascii_of_string x ++ list_ascii_of_string y)%list)
    by (induction x; intros; cbn; congruence).
  rewrite A in K. apply in_app_or in K as [K|K].
  - exact (L i Hi2 _ K eq_refl).
  - cbn [list_ascii_of_string In] in K. destruct K as [K|K]; [discriminate|]. exact (L f Hf2 _ K eq_refl).
Qed.
Print Assumptions C05_malformed_rejected_refuted.

Example C05_case :
  parse_format "Q8.08" = Ok (8, 8, 16) /\ parse_format "Q12.3" = Ok (12, 3, 15) /\
  parse_format "8.8" = Raise ValueError /\ parse_format "Q8" = Raise ValueError /\
  is_numeral [0; 8]%nat /\ format_text [8]%nat [0; 8]%nat = "Q8.08"%string.
Proof. repeat split; try discriminate; repeat constructor. Qed.
