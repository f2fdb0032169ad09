From Verif Require Import PyBase PyLemmas DataConvert ConfigModel ConfigSpec.
From Coq Require Import Ascii String Sorted ZifyBool ZifyNat.
Ltac Zify.zify_post_hook ::= Z.div_mod_to_equations.
Open Scope Z_scope.

(** ** Storage split *)

Lemma cell_bits_pos b : 1 <= cell_bits b <= 4.
Proof. destruct b; cbn; lia. Qed.

Definition pos_list (b0 : Z) (cfg : list bitcfg) : list Z :=
  map (fun k => b0 + bits_below cfg k) (seq 0 (List.length cfg)).

Lemma zsum_cons x l : zsum (x :: l) = x + zsum l.
Proof. reflexivity. Qed.

Lemma bits_below_S cfg c k : bits_below (c :: cfg) (S k) = cell_bits c + bits_below cfg k.
Proof. unfold bits_below. cbn [firstn map]. apply zsum_cons. Qed.

Lemma pos_list_cons b0 c cfg : pos_list b0 (c :: cfg) = b0 :: pos_list (b0 + cell_bits c) cfg.
Proof.
  unfold pos_list. cbn [List.length seq map]. f_equal; [unfold bits_below; cbn; lia|].
  rewrite <- seq_shift, map_map. apply map_ext. intros k. rewrite bits_below_S. lia.
Qed.

Definition count_b (f : bitcfg -> bool) (cfg : list bitcfg) : Z := zlen (filter f cfg).

Lemma zlen_cons {A} (x : A) l : zlen (x :: l) = 1 + zlen l.
Proof. unfold zlen. cbn [List.length]. lia. Qed.

Lemma storage_fold cfg s bits :
  fold_left storage_step cfg (s, bits) =
  (MkStorage (stored_bit s ++ pos_list bits cfg)
     (bits_per_cell s ++ map cell_bits cfg)
     (is_xbar_rram s ++ map (fun b => negb (is_sram b)) cfg)
     (rram_to_output_map s) (sram_to_output_map s)
     (num_rram s + count_b (fun b => negb (is_sram b)) cfg)
     (num_sram s + count_b is_sram cfg)
     (have_rram s || existsb (fun b => negb (is_sram b)) cfg)
     (have_sram s || existsb is_sram cfg),
   bits + zsum (map cell_bits cfg)).
Proof.
  revert s bits; induction cfg as [|c cfg IH]; intros s bits.
  - cbn. rewrite !app_nil_r, !orb_false_r. idtac.
    unfold count_b, zlen; cbn. rewrite !Z.add_0_r. destruct s; reflexivity.
  - cbn [fold_left].
    assert (Hs : storage_step (s, bits) c =
      (MkStorage (stored_bit s ++ [bits]) (bits_per_cell s ++ [cell_bits c])
        (is_xbar_rram s ++ [negb (is_sram c)]) (rram_to_output_map s) (sram_to_output_map s)
        (num_rram s + (if is_sram c then 0 else 1)) (num_sram s + (if is_sram c then 1 else 0))
        (have_rram s || negb (is_sram c)) (have_sram s || is_sram c), bits + cell_bits c)).
    { unfold storage_step. destruct c; cbn; rewrite ?orb_false_r, ?orb_true_r, ?Z.add_0_r; reflexivity. }
    rewrite Hs, IH. cbn [stored_bit bits_per_cell is_xbar_rram rram_to_output_map sram_to_output_map
                         num_rram num_sram have_rram have_sram map].
    rewrite pos_list_cons, <- !app_assoc, zsum_cons. cbn [app existsb].
    unfold count_b. cbn [filter].
    f_equal; [f_equal|]; try lia; try (destruct c; cbn [is_sram negb]; rewrite ?zlen_cons; lia);
    rewrite <- ?orb_assoc; try reflexivity.
Qed.

Lemma map_fold rr l a b :
  fold_left (map_step rr) l (a, b) =
  (a ++ filter (fun i => nth (Z.to_nat i) rr false) l,
   b ++ filter (fun i => negb (nth (Z.to_nat i) rr false)) l).
Proof.
  revert a b; induction l as [|i l IH]; intros a b; cbn [fold_left filter].
  - now rewrite !app_nil_r.
  - unfold map_step at 2. destruct (nth (Z.to_nat i) rr false); cbn [fst snd negb];
    rewrite IH; rewrite <- app_assoc; reflexivity.
Qed.

Lemma count_split cfg :
  count_b is_sram cfg + count_b (fun b => negb (is_sram b)) cfg = zlen cfg.
Proof.
  unfold count_b. induction cfg as [|c cfg IH]; cbn [filter]; [reflexivity|].
  destruct (is_sram c); cbn [negb]; rewrite ?zlen_cons; lia.
Qed.

(** What an accepted configuration looks like. *)
Definition storage_of (cfg : list bitcfg) : storage :=
  MkStorage (pos_list 0 cfg ++ [zsum (map cell_bits cfg)]) (map cell_bits cfg)
    (map (fun b => negb (is_sram b)) cfg)
    (filter (fun i => nth (Z.to_nat i) (map (fun b => negb (is_sram b)) cfg) false) (zrange (zlen cfg)))
    (filter (fun i => negb (nth (Z.to_nat i) (map (fun b => negb (is_sram b)) cfg) false)) (zrange (zlen cfg)))
    (count_b (fun b => negb (is_sram b)) cfg) (count_b is_sram cfg)
    (existsb (fun b => negb (is_sram b)) cfg) (existsb is_sram cfg).

Lemma validate_storage_eq cfg w :
  validate_storage cfg w =
  if zsum (map cell_bits cfg) =? w then Ok (storage_of cfg) else Raise AssertionError.
Proof.
  unfold validate_storage. rewrite storage_fold. cbn [stored_bit bits_per_cell is_xbar_rram
    rram_to_output_map sram_to_output_map num_rram num_sram have_rram have_sram app orb].
  rewrite !Z.add_0_l. destruct (_ =? w); cbn [negb]; [|reflexivity].
  rewrite map_fold. cbn [app]. rewrite count_split. reflexivity.
Qed.

Lemma zrange_sorted n : StronglySorted Z.lt (zrange n).
Proof.
  unfold zrange. generalize 0%nat as a. induction (Z.to_nat n) as [|m IH]; intros a; cbn; constructor.
  - apply IH.
  - apply Forall_forall. intros x Hx. apply in_map_iff in Hx as (y & <- & Hy). apply in_seq in Hy. lia.
Qed.

Lemma filter_sorted (f : Z -> bool) l : StronglySorted Z.lt l -> StronglySorted Z.lt (filter f l).
Proof.
  induction 1 as [|x l Hl IH Hx]; cbn; [constructor|]. destruct (f x); [|assumption].
  constructor; [assumption|]. rewrite Forall_forall in *. intros y Hy. apply filter_In in Hy. now apply Hx.
Qed.

Lemma nth_pos_list b0 cfg k : (k < List.length cfg)%nat -> nth k (pos_list b0 cfg) 0 = b0 + bits_below cfg k.
Proof.
  intros H. unfold pos_list.
  rewrite (nth_indep _ 0 (b0 + bits_below cfg 0)) by (rewrite map_length, seq_length; lia).
  rewrite (map_nth (fun k => b0 + bits_below cfg k)). rewrite seq_nth by lia. reflexivity.
Qed.

Lemma length_pos_list b0 cfg : List.length (pos_list b0 cfg) = List.length cfg.
Proof. unfold pos_list. now rewrite map_length, seq_length. Qed.

Lemma stored_bit_nth cfg k : (k <= List.length cfg)%nat -> nth k (stored_bit (storage_of cfg)) 0 = bits_below cfg k.
Proof.
  intros H. cbn [stored_bit storage_of].
  destruct (Nat.eq_dec k (List.length cfg)) as [->|Hk].
  - rewrite app_nth2; rewrite length_pos_list; [|lia]. rewrite Nat.sub_diag. cbn.
    unfold bits_below. now rewrite firstn_all.
  - rewrite app_nth1 by (rewrite length_pos_list; lia). rewrite nth_pos_list by lia. lia.
Qed.

Lemma is_rram_nth cfg i : 0 <= i < zlen cfg ->
  nth (Z.to_nat i) (map (fun b => negb (is_sram b)) cfg) false = negb (is_sram (nth (Z.to_nat i) cfg SLC)).
Proof.
  intros H. unfold zlen in H.
  rewrite (nth_indep _ false (negb (is_sram SLC))) by (rewrite map_length; lia).
  apply (map_nth (fun b => negb (is_sram b))).
Qed.

Lemma filter_zrange_length (f : bitcfg -> bool) (g : Z -> bool) cfg :
  (forall i, 0 <= i < zlen cfg -> g i = f (nth (Z.to_nat i) cfg SLC)) ->
  zlen (filter g (zrange (zlen cfg))) = count_b f cfg.
Proof.
  unfold zrange, zlen. rewrite Nat2Z.id. intros H.
  assert (K : forall (c : list bitcfg) a, (forall k, (k < List.length c)%nat -> g (Z.of_nat (a + k)) = f (nth k c SLC)) ->
    Z.of_nat (List.length (filter g (map Z.of_nat (seq a (List.length c))))) = count_b f c).
  { induction c as [|x c IH]; intros a Ha; [reflexivity|].
    cbn [List.length seq map filter]. unfold count_b in *. cbn [filter].
    pose proof (Ha 0%nat ltac:(cbn; lia)) as H0. rewrite Nat.add_0_r in H0. cbn [nth] in H0. rewrite H0.
    assert (IH' := IH (S a)). 
    assert (E : Z.of_nat (List.length (filter g (map Z.of_nat (seq (S a) (List.length c))))) = zlen (filter f c)).
    { apply IH'. intros k Hk. replace (S a + k)%nat with (a + S k)%nat by lia. apply Ha. cbn; lia. }
    destruct (f x); [|exact E]. rewrite zlen_cons. cbn [List.length]. lia. }
  apply K. intros k Hk. cbn. rewrite H by lia. now rewrite Nat2Z.id.
Qed.

Lemma storage_spec cfg w s :
  validate_storage cfg w = Ok s ->
  let n := zlen cfg in
  zlen (stored_bit s) = n + 1 /\
  (forall k, (k <= List.length cfg)%nat -> nth k (stored_bit s) 0 = bits_below cfg k) /\
  nth 0 (stored_bit s) 0 = 0 /\ nth (List.length cfg) (stored_bit s) 0 = w /\
  bits_per_cell s = map cell_bits cfg /\
  is_xbar_rram s = map (fun b => negb (is_sram b)) cfg /\
  StronglySorted Z.lt (rram_to_output_map s) /\ StronglySorted Z.lt (sram_to_output_map s) /\
  (forall i, In i (rram_to_output_map s) <-> 0 <= i < n /\ is_sram (nth (Z.to_nat i) cfg SLC) = false) /\
  (forall i, In i (sram_to_output_map s) <-> 0 <= i < n /\ is_sram (nth (Z.to_nat i) cfg SLC) = true) /\
  num_rram s = zlen (rram_to_output_map s) /\ num_sram s = zlen (sram_to_output_map s) /\
  num_rram s + num_sram s = n /\
  (have_rram s = true <-> 0 < num_rram s) /\ (have_sram s = true <-> 0 < num_sram s).
Proof.
  rewrite validate_storage_eq. destruct (Z.eqb_spec (zsum (map cell_bits cfg)) w) as [Hw|]; [|discriminate].
  intros [= <-]. cbn zeta.
  repeat match goal with |- _ /\ _ => split end.
  - cbn. unfold zlen. rewrite app_length, length_pos_list. cbn. lia.
  - intros k Hk. now apply stored_bit_nth.
  - rewrite stored_bit_nth by lia. reflexivity.
  - rewrite stored_bit_nth by lia. unfold bits_below. now rewrite firstn_all.
  - reflexivity.
  - reflexivity.
  - apply filter_sorted, zrange_sorted.
  - apply filter_sorted, zrange_sorted.
  - intros i. cbn [rram_to_output_map storage_of]. rewrite filter_In, in_zrange. split.
    + intros [H1 H2]. split; [assumption|]. rewrite is_rram_nth in H2 by assumption.
      now apply negb_true_iff.
    + intros [H1 H2]. split; [assumption|]. rewrite is_rram_nth by assumption. now rewrite H2.
  - intros i. cbn [sram_to_output_map storage_of]. rewrite filter_In, in_zrange. split.
    + intros [H1 H2]. split; [assumption|]. rewrite is_rram_nth in H2 by assumption.
      now rewrite negb_involutive in H2.
    + intros [H1 H2]. split; [assumption|]. rewrite is_rram_nth by assumption. now rewrite H2.
  - cbn [rram_to_output_map num_rram storage_of].
    rewrite (filter_zrange_length (fun b => negb (is_sram b))); [reflexivity|]. intros; now apply is_rram_nth.
  - cbn [sram_to_output_map num_sram storage_of].
    rewrite (filter_zrange_length is_sram); [reflexivity|]. intros. rewrite is_rram_nth by assumption.
    apply negb_involutive.
  - cbn. rewrite Z.add_comm. apply count_split.
  - cbn [have_rram num_rram storage_of]. rewrite existsb_exists. unfold count_b, zlen. split.
    + intros (x & Hx & Hf). assert (In x (filter (fun b => negb (is_sram b)) cfg)) by (now apply filter_In).
      destruct (filter _ cfg); [contradiction|cbn; lia].
    + intros H. destruct (filter (fun b => negb (is_sram b)) cfg) as [|x l] eqn:E; [cbn in H; lia|].
      exists x. apply (filter_In (fun b => negb (is_sram b))). rewrite E. now left.
  - cbn [have_sram num_sram storage_of]. rewrite existsb_exists. unfold count_b, zlen. split.
    + intros (x & Hx & Hf). assert (In x (filter is_sram cfg)) by (now apply filter_In).
      destruct (filter _ cfg); [contradiction|cbn; lia].
    + intros H. destruct (filter is_sram cfg) as [|x l] eqn:E; [cbn in H; lia|].
      exists x. apply (filter_In is_sram). rewrite E. now left.
Qed.

(** ** Cutting and recombining *)

Lemma extract_bits_val v a b : 0 <= a < b -> extract_bits v a b = Ok (v / 2 ^ a mod 2 ^ (b - a)).
Proof.
  intros H. unfold extract_bits.
  replace (0 <=? a) with true by lia. replace (a <? b) with true by lia. cbn [negb].
  rewrite Z.shiftl_1_l. rewrite Z.shiftr_div_pow2 by lia.
  f_equal. replace (2 ^ (b - a) - 1) with (Z.ones (b - a)).
  - apply Z.land_ones. lia.
  - rewrite Z.ones_equiv. lia.
Qed.

Lemma bits_below_nonneg cfg k : 0 <= bits_below cfg k.
Proof.
  unfold bits_below. apply zsum_nonneg. apply Forall_forall. intros x Hx.
  apply in_map_iff in Hx as (b & <- & _). pose proof (cell_bits_pos b). lia.
Qed.

Lemma bits_below_step cfg k : (k < List.length cfg)%nat ->
  bits_below cfg (S k) = bits_below cfg k + cell_bits (nth k cfg SLC).
Proof.
  revert k; induction cfg as [|c cfg IH]; intros k H; cbn in H; [lia|].
  destruct k as [|k].
  - unfold bits_below; cbn. lia.
  - rewrite bits_below_S, bits_below_S, IH by lia. cbn [nth]. lia.
Qed.

Definition cells_of_magnitude (cfg : list bitcfg) (mag : Z) : list Z :=
  map (fun k => mag / 2 ^ bits_below cfg k mod 2 ^ cell_bits (nth k cfg SLC)) (seq 0 (List.length cfg)).

Lemma recombine_aux cfg mag b0 :
  0 <= b0 ->
  recombine (pos_list b0 cfg)
    (map (fun k => mag / 2 ^ (b0 + bits_below cfg k) mod 2 ^ cell_bits (nth k cfg SLC)) (seq 0 (List.length cfg)))
  = 2 ^ b0 * (mag / 2 ^ b0 mod 2 ^ zsum (map cell_bits cfg)).
Proof.
  revert b0; induction cfg as [|c cfg IH]; intros b0 Hb.
  - cbn. rewrite Z.mod_1_r. lia.
  - rewrite pos_list_cons. cbn [List.length seq map recombine].
    rewrite <- seq_shift, map_map.
    rewrite (map_ext _ (fun k => mag / 2 ^ ((b0 + cell_bits c) + bits_below cfg k) mod 2 ^ cell_bits (nth k cfg SLC))).
    2:{ intros k. rewrite bits_below_S, Z.add_assoc. reflexivity. }
    pose proof (cell_bits_pos c) as Hc.
    rewrite IH by lia. cbn [nth]. change (bits_below (c :: cfg) 0) with 0. rewrite Z.add_0_r.
    assert (Hn : 0 <= zsum (map cell_bits cfg)).
    { apply zsum_nonneg. apply Forall_forall. intros x Hx. apply in_map_iff in Hx as (b & <- & _).
      pose proof (cell_bits_pos b). lia. }
    rewrite zsum_cons. 
    rewrite !Z.pow_add_r by lia.
    rewrite <- Z.div_div by (try apply Z.pow_nonzero; try apply Z.pow_pos_nonneg; lia).
    set (q := mag / 2 ^ b0). set (A := 2 ^ cell_bits c). set (B := 2 ^ zsum (map cell_bits cfg)).
    assert (0 < A) by (apply Z.pow_pos_nonneg; lia). assert (0 < B) by (apply Z.pow_pos_nonneg; lia).
    rewrite (Z.rem_mul_r q A B) by lia. nia.
Qed.

Lemma slices_recombine cfg w s mag :
  validate_storage cfg w = Ok s ->
  exists cells,
    Forall2 (fun k c => extract_bits mag (nth k (stored_bit s) 0) (nth (S k) (stored_bit s) 0) = Ok c)
            (seq 0 (List.length cfg)) cells /\
    recombine (stored_bit s) cells = mag mod 2 ^ w /\
    Forall2 (fun c b => 0 <= c < 2 ^ b) cells (bits_per_cell s).
Proof.
  intros V. destruct (storage_spec cfg w s V) as (L & N & _ & W & B & _).
  exists (cells_of_magnitude cfg mag). split; [|split].
  - unfold cells_of_magnitude.
    assert (K : forall ks, (forall k, In k ks -> (k < List.length cfg)%nat) ->
      Forall2 (fun k c => extract_bits mag (nth k (stored_bit s) 0) (nth (S k) (stored_bit s) 0) = Ok c) ks
        (map (fun k => mag / 2 ^ bits_below cfg k mod 2 ^ cell_bits (nth k cfg SLC)) ks)).
    { induction ks as [|k ks IH]; intros Hk; cbn; constructor.
      - assert (k < List.length cfg)%nat by (apply Hk; now left).
        rewrite !N by lia. pose proof (bits_below_nonneg cfg k). pose proof (cell_bits_pos (nth k cfg SLC)).
        rewrite bits_below_step by lia. rewrite extract_bits_val by lia. do 3 f_equal. lia.
      - apply IH. intros; apply Hk; now right. }
    apply K. intros k Hk. apply in_seq in Hk. lia.
  - rewrite validate_storage_eq in V. destruct (Z.eqb_spec (zsum (map cell_bits cfg)) w) as [Hw|]; [|discriminate].
    injection V as <-. cbn [stored_bit storage_of].
    assert (R : forall ps cs x, List.length ps = List.length cs -> recombine (ps ++ [x]) cs = recombine ps cs).
    { induction ps as [|p ps IH]; intros [|c cs] x Hl; cbn in *; try lia. now rewrite IH by lia. }
    rewrite R by (unfold cells_of_magnitude; rewrite length_pos_list, map_length, seq_length; reflexivity).
    pose proof (recombine_aux cfg mag 0 ltac:(lia)) as H.
    cbn [Z.add] in H. rewrite Z.pow_0_r, Z.div_1_r, Z.mul_1_l, Hw in H. exact H.
  - rewrite B. unfold cells_of_magnitude. clear. 
    set (g := fun k => mag / 2 ^ bits_below cfg k).
    replace (map cell_bits cfg) with (map (fun k => cell_bits (nth k cfg SLC)) (seq 0 (List.length cfg))).
    + change (Forall2 (fun c b => 0 <= c < 2 ^ b)
               (map (fun k => g k mod 2 ^ cell_bits (nth k cfg SLC)) (seq 0 (List.length cfg)))
               (map (fun k => cell_bits (nth k cfg SLC)) (seq 0 (List.length cfg)))).
      induction (seq 0 (List.length cfg)) as [|k l IH]; cbn; constructor; auto.
      apply Z.mod_pos_bound. apply Z.pow_pos_nonneg; [lia|]. pose proof (cell_bits_pos (nth k cfg SLC)). lia.
    + apply (list_ext 0).
      * now rewrite !map_length, seq_length.
      * intros i Hi. rewrite map_length, seq_length in Hi.
        rewrite (nth_indep _ 0 (cell_bits (nth 0 cfg SLC))) by (rewrite map_length, seq_length; lia).
        rewrite (map_nth (fun k => cell_bits (nth k cfg SLC))), seq_nth by lia.
        rewrite (nth_indep (map cell_bits cfg) 0 (cell_bits SLC)) by (rewrite map_length; lia).
        now rewrite map_nth.
Qed.

(** ** Format strings *)

Lemma digit_of_ascii d : (d < 10)%nat -> digit_of (ascii_of_nat (48 + d)) = Some (Z.of_nat d).
Proof.
  intros H. do 10 (destruct d as [|d]; [reflexivity|]). lia.
Qed.

Lemma digit_of_some c d : digit_of c = Some d ->
  exists k, (k < 10)%nat /\ c = ascii_of_nat (48 + k) /\ d = Z.of_nat k.
Proof.
  unfold digit_of. set (n := nat_of_ascii c). destruct (_ && _) eqn:E; [|discriminate].
  intros [= <-]. exists (n - 48)%nat. split; [lia|]. split; [|lia].
  rewrite <- (ascii_nat_embedding c). fold n. f_equal. lia.
Qed.

Lemma digit_of_none c : digit_of c = None <-> ~ (48 <= nat_of_ascii c <= 57)%nat.
Proof. unfold digit_of. destruct (_ && _) eqn:E; split; intros; try discriminate; try lia; auto. Qed.

Lemma append_assoc_s a b c : ((a ++ b) ++ c)%string = (a ++ (b ++ c))%string.
Proof. induction a; cbn; congruence. Qed.

Definition horner (acc : Z) (ds : list nat) : Z := fold_left (fun a d => 10 * a + Z.of_nat d) ds acc.

Lemma horner_value ds : horner 0 ds = value ds.
Proof.
  unfold horner, value. induction ds as [|d ds IH] using rev_ind; [reflexivity|].
  rewrite fold_left_app, rev_app_distr. cbn [fold_left app rev value_rev].
  unfold horner in IH. rewrite IH. lia.
Qed.

Lemma scan_render ds rest n acc :
  Forall (fun d => (d < 10)%nat) ds -> no_digit_first rest ->
  scan_digits (render ds ++ rest) n acc = (n + zlen ds, horner acc ds, rest).
Proof.
  intros H Hr; revert n acc; induction H as [|d ds Hd Hds IH]; intros n acc.
  - cbn. unfold zlen; cbn. rewrite Z.add_0_r. destruct rest as [|c t]; [reflexivity|].
    cbn in *. destruct (digit_of c) eqn:E; [|reflexivity].
    assert (N : digit_of c = None) by (now apply digit_of_none). congruence.
  - cbn [render append scan_digits]. rewrite digit_of_ascii by assumption. rewrite IH.
    rewrite zlen_cons, Z.add_assoc. reflexivity.
Qed.

Lemma scan_inv s n acc m v rest :
  scan_digits s n acc = (m, v, rest) ->
  exists ds, Forall (fun d => (d < 10)%nat) ds /\ s = (render ds ++ rest)%string /\
             m = n + zlen ds /\ v = horner acc ds /\ no_digit_first rest.
Proof.
  revert n acc; induction s as [|c t IH]; intros n acc; cbn.
  - intros [= <- <- <-]. exists []. unfold zlen; cbn. repeat split; auto; lia.
  - destruct (digit_of c) as [d|] eqn:E.
    + intros H. apply IH in H as (ds & H1 & H2 & H3 & H4 & H5).
      apply digit_of_some in E as (k & Hk & -> & ->).
      exists (k :: ds). repeat split; auto.
      * cbn. now rewrite H2.
      * rewrite zlen_cons. lia.
    + intros [= <- <- <-]. exists []. unfold zlen; cbn. repeat split; auto; [lia|].
      now apply digit_of_none.
Qed.

Lemma dot_no_digit rest : no_digit_first (String "."%char rest).
Proof. cbn. lia. Qed.

Lemma parse_format_ok i f rest :
  is_numeral i -> is_numeral f -> no_digit_first rest ->
  parse_format (format_text i f ++ rest) = Ok (value i, value f, value i + value f).
Proof.
  intros [Hi1 Hi2] [Hf1 Hf2] Hr. unfold format_text. cbn [append parse_format].
  rewrite append_assoc_s. cbn [append]. cbn [Ascii.eqb].
  change (negb (Ascii.eqb "Q" "Q")) with false. cbn iota.
  rewrite (scan_render i (String "." (render f ++ rest)) 0 0 Hi2 (dot_no_digit _)).
  rewrite (scan_render f rest 0 0 Hf2 Hr). cbn [Z.add].
  replace (zlen i =? 0) with false by (unfold zlen; destruct i; cbn; try congruence; lia).
  replace (zlen f =? 0) with false by (unfold zlen; destruct f; cbn; try congruence; lia).
  cbn. now rewrite !horner_value.
Qed.

Lemma parse_format_inv s a b w :
  parse_format s = Ok (a, b, w) ->
  exists i f rest, is_numeral i /\ is_numeral f /\ no_digit_first rest /\
    s = (format_text i f ++ rest)%string /\ a = value i /\ b = value f /\ w = a + b.
Proof.
  destruct s as [|c t]; [discriminate|]. cbn [parse_format].
  destruct (Ascii.eqb_spec c "Q") as [->|]; [|discriminate]. cbn [negb].
  destruct (scan_digits t 0 0) as [[n1 v1] r1] eqn:E1.
  apply scan_inv in E1 as (i & Hi & -> & -> & -> & _).
  destruct r1 as [|d t2]; [discriminate|].
  destruct (Z.eqb_spec (0 + zlen i) 0) as [|Hn1]; [discriminate|].
  destruct (Ascii.eqb_spec d ".") as [->|]; [|discriminate]. cbn [negb orb].
  destruct (scan_digits t2 0 0) as [[n2 v2] r2] eqn:E2.
  apply scan_inv in E2 as (f & Hf & -> & -> & -> & Hr).
  destruct (Z.eqb_spec (0 + zlen f) 0) as [|Hn2]; [discriminate|].
  intros [= <- <- <-]. exists i, f, r2. unfold is_numeral.
  repeat match goal with |- _ /\ _ => split end; auto.
  - intros ->. apply Hn1. reflexivity.
  - intros ->. apply Hn2. reflexivity.
  - unfold format_text. cbn [append]. now rewrite append_assoc_s.
  - apply horner_value.
  - apply horner_value.
Qed.
