(** The example: loading, and the values of the symbols. *)
From Verif Require Import PyBase PyLemmas ConfigModel MemoryModel VfuModel FloatModel MvmuModel MvmuSpec MvmuLoad CoreModel CoreSpec CoreProofs
  DramModel DramSpec DramProofs RouterModel RouterSpec SystemModel SystemSpec LoaderModel LoaderSpec LoaderParse LoaderProofs LoaderWeights LoaderClaims
  MvmuAccept MvmuProofs SymMachine SymCore SymTile SymNet MlpProgram MlpRun MlpSpec.
From Coq Require Import ZifyBool ZifyNat String.
Open Scope Z_scope.
Open Scope list_scope.

(** ** Parsing *)
Section Parse.
Context (x : lax) (RX : reasonable x).
Local Notation "'do' a <- e ; f" := (match e with Some a => f | None => None end) (at level 200, a pattern, e at level 100, f at level 200).
Lemma int_up l k z : need_int strict l k = Some z -> need_int x l k = Some z.
Proof. unfold need_int. destruct (field l k) as [[]|]; cbn; try discriminate. intros [= ->]. apply RX. Qed.
Lemma bool_up l k z : need_bool strict l k = Some z -> need_bool x l k = Some z.
Proof. unfold need_bool. destruct (field l k) as [[]|]; cbn; try discriminate. intros [= ->]. apply RX. Qed.
Lemma opt_up l k z : opt_int strict l k = Some z -> opt_int x l k = Some z.
Proof. unfold opt_int. destruct (field l k) as [[]|]; cbn; try discriminate; try (intros [= <-]; reflexivity). intros [= <-]. destruct RX as (R & _). now rewrite R. Qed.
Lemma all_up l : forall z, all_ints strict l = Some z -> all_ints x l = Some z.
Proof.
  induction l as [|j l IH]; intros z; cbn [all_ints]; [auto|]. destruct j; cbn [strict as_int]; try discriminate. destruct (all_ints strict l) as [zs|]; [|discriminate].
  intros [= <-]. destruct RX as (R & _). now rewrite R, (IH zs).
Qed.
Lemma ints_up l k z : need_ints strict l k = Some z -> need_ints x l k = Some z.
Proof. unfold need_ints. destruct (field l k) as [[]|]; cbn; try discriminate. apply all_up. Qed.
Ltac ups H :=
  repeat match type of H with
  | context [match need_int strict ?l ?k with _ => _ end] => let E := fresh in destruct (need_int strict l k) eqn:E; [apply int_up in E; rewrite E|discriminate H]
  | context [match need_bool strict ?l ?k with _ => _ end] => let E := fresh in destruct (need_bool strict l k) eqn:E; [apply bool_up in E; rewrite E|discriminate H]
  | context [match opt_int strict ?l ?k with _ => _ end] => let E := fresh in destruct (opt_int strict l k) eqn:E; [apply opt_up in E; rewrite E|discriminate H]
  | context [match need_ints strict ?l ?k with _ => _ end] => let E := fresh in destruct (need_ints strict l k) eqn:E; [apply ints_up in E; rewrite E|discriminate H]
  | context [match need_vop ?l with _ => _ end] => let E := fresh in destruct (need_vop l) eqn:E; [|discriminate H]
  end.
Lemma body_up t l i : parse_body strict t l = Some i -> parse_body x t l = Some i.
Proof.
  unfold parse_body. cbv zeta.
  repeat match goal with |- context [if String.eqb t ?s then _ else _] => destruct (String.eqb t s); [intros H; ups H; exact H|] end. auto.
Qed.
Lemma parse_up j o : parse strict j = Some o -> parse x j = Some o.
Proof.
  unfold parse. destruct j as [| | | | | |l]; try discriminate. destruct (field l "type") as [[]|]; try discriminate.
  unfold parse_as. intros H.
  assert (N : forall z, match field l "node" with None => Some 0 | Some v => as_int strict v end = Some z ->
                        match field l "node" with None => Some 0 | Some v => as_int x v end = Some z).
  { intros z. destruct (field l "node") as [[]|]; cbn [strict as_int]; try discriminate; auto. intros [= <-]. apply RX. }
  destruct (match field l "node" with None => Some 0 | Some v => as_int strict v end) as [n|]; [|discriminate].
  rewrite (N n eq_refl). ups H. destruct (parse_body strict s l) as [b|] eqn:E; [|discriminate]. now rewrite (body_up _ _ _ E).
Qed.
Lemma valid_up l : List.length (valid_ops strict l) = List.length l -> valid_ops x l = valid_ops strict l.
Proof.
  assert (LE : forall l, (List.length (valid_ops strict l) <= List.length l)%nat).
  { unfold valid_ops. induction l0 as [|j l0 IH]; cbn; [lia|]. destruct (parse strict j); cbn [app List.length]; lia. }
  unfold valid_ops. induction l as [|j l IH]; cbn [flat_map]; [auto|]. rewrite app_length. cbn [List.length]. specialize (LE l). unfold valid_ops in LE.
  destruct (parse strict j) as [o|] eqn:E; cbn [List.length app]; [|lia]. intros L. rewrite (parse_up _ _ E). cbn [app]. f_equal. apply IH. lia.
Qed.
End Parse.

Lemma mlp_list_eq : valid_ops strict mlp_ops = mlp_list.
Proof. vm_cast_no_check (eq_refl mlp_list). Qed.
Lemma mlp_valid x : reasonable x -> valid_ops x mlp_ops = mlp_list.
Proof.
  intros R. rewrite valid_up; [exact mlp_list_eq|exact R|]. rewrite mlp_list_eq. vm_compute. reflexivity.
Qed.
Definition placed_op (o : op) : bool :=
  (o_node o =? 0) && (0 <=? o_tile o) && (o_tile o <? 5) && match o_instr o with ICore k _ => (0 <=? k) && (k <? 8) | ITile _ => true end.
Lemma mlp_placed : forallb placed_op mlp_list = true.
Proof. vm_compute. reflexivity. Qed.

Section Shape.
Context (c : sys_cfg) (SH : mlp_shape c).
Lemma shape_sized : sized c.
Proof. destruct SH as [A B D E F G]. unfold sized. lia. Qed.
Lemma shape_placed : Forall (placed c) mlp_list.
Proof.
  apply Forall_forall. intros o H. pose proof mlp_placed as P. rewrite forallb_forall in P. specialize (P o H). destruct SH as [A B D E F G].
  unfold placed_op in P. unfold placed, LoaderSpec.reaches. rewrite B, D. destruct (o_instr o); lia.
Qed.
Lemma for_tile_eq t : 0 <= t < 5 -> for_tile c 0 t mlp_list = of_tile t mlp_list.
Proof.
  intros T. pose proof mlp_placed as P. unfold for_tile, of_tile. destruct SH as [A B D E F G]. rewrite B. induction mlp_list as [|o l IH]; [reflexivity|].
  cbn [forallb] in P. apply andb_prop in P as [P1 P2]. cbn [flat_map]. rewrite (IH P2). f_equal. destruct (o_instr o) eqn:OI; [reflexivity|].
  unfold placed_op in P1. unfold names. assert (N : o_node o = 0) by lia. rewrite N. cbn [Z.eqb orb andb].
  replace (o_tile o =? t - 5) with false by lia. now rewrite orb_false_r.
Qed.
Lemma for_core_eq t k : 0 <= t < 5 -> 0 <= k < 8 -> for_core c 0 t k mlp_list = of_core t k mlp_list.
Proof.
  intros T K. pose proof mlp_placed as P. unfold for_core, of_core. destruct SH as [A B D E F G]. rewrite B, D. induction mlp_list as [|o l IH]; [reflexivity|].
  cbn [forallb] in P. apply andb_prop in P as [P1 P2]. cbn [flat_map]. rewrite (IH P2). f_equal. destruct (o_instr o) as [k'|] eqn:OI; [|reflexivity].
  unfold placed_op in P1. rewrite OI in P1. unfold names. assert (N : o_node o = 0) by lia. rewrite N. cbn [Z.eqb orb andb].
  replace (o_tile o =? t - 5) with false by lia. replace (k' =? k - 8) with false by lia. now rewrite !orb_false_r.
Qed.
End Shape.

(** ** The meaning of the symbols *)
Section Values.
Context (c : core_cfg) (cfg : list bitcfg) (w : Z -> list (list f64)) (x : list Z).
Context (HW : 0 <= v_width (k_vfu c) <= 31).
Let h1 := hidden c cfg w 0 7 1024 x.
Let h2 := hidden c cfg w 56 8 512 h1.
Let h3 := hidden c cfg w 88 4 200 h2.
Definition array_input (u : Z) : list Z :=
  if u <? 56 then part x (u mod 7) else if u <? 88 then part h1 ((u - 56) mod 8) else if u <? 96 then part h2 ((u - 88) mod 4) else part h3 (u - 96).
Definition e_in (i : Z) : Z := znth 0 x i.
Definition e_u (t k u j : Z) : Z := array_value c cfg w (unit_no t k u) j (array_input (unit_no t k u)).
Notation den := (den (k_vfu c) e_in e_u).

Lemma vadd_sum a b : vadd (k_vfu c) a b = sum c a b.
Proof. unfold vadd, vclip, sum, saturated, clipZ, v_min_value, v_max_value. rewrite Z.shiftl_mul_pow2 by lia. assert (0 < 2 ^ v_width (k_vfu c)) by (apply Z.pow_pos_nonneg; lia). lia. Qed.
Lemma vrelu_rect a : vrelu (k_vfu c) a = rectified c a.
Proof. unfold vrelu, vclip, rectified, saturated, clipZ, v_min_value, v_max_value. rewrite Z.shiftl_mul_pow2 by lia. assert (0 < 2 ^ v_width (k_vfu c)) by (apply Z.pow_pos_nonneg; lia). lia. Qed.

Lemma unit_no_out u : unit_no (2 + u / 48) (u mod 48 / 6) (u mod 6) = u.
Proof. unfold unit_no. Z.to_euclidean_division_equations. lia. Qed.
Lemma den_unit u j : den (unit_out u j) = Some (array_value c cfg w u j (array_input u)).
Proof. unfold unit_out. cbn [SymCore.den]. unfold e_u. now rewrite unit_no_out. Qed.

Lemma fold_left_in {A B} (f g : A -> B -> A) l : (forall a b, In b l -> f a b = g a b) -> forall a, fold_left f l a = fold_left g l a.
Proof. induction l as [|b l IH]; intros H a; [reflexivity|]. cbn [fold_left]. rewrite H by now left. apply IH. intros; apply H; now right. Qed.

Lemma den_from j r : forall u acc z, den acc = Some z ->
  den (sum_from u r j acc) = Some (fold_left (fun a p => sum c (array_value c cfg w p j (array_input p)) a) (map (fun i => u + Z.of_nat i) (seq 0 r)) z).
Proof.
  induction r as [|r IH]; intros u acc z E; [exact E|]. cbn [sum_from]. rewrite (IH (u + 1) _ (sum c (array_value c cfg w u j (array_input u)) z)).
  - cbn [seq map fold_left]. rewrite Z.add_0_r. rewrite <- seq_shift, map_map. do 2 f_equal. apply map_ext. intros i. lia.
  - cbn [SymCore.den]. rewrite den_unit, E. now rewrite vadd_sum.
Qed.
(** If the arrays of a layer get their parts of the vector, the sum is the neuron's. *)
Lemma den_neuron first parts v e : 0 < parts -> (forall p, 0 <= p < parts -> array_input (first + e / 128 * parts + p) = part v p) ->
  den (sum_units (first + e / 128 * parts) parts (e mod 128)) = Some (neuron c cfg w first parts v e).
Proof.
  intros P H. unfold sum_units. rewrite (den_from _ _ _ _ _ (den_unit _ _)). unfold neuron. set (b := first + e / 128 * parts) in *. f_equal.
  rewrite (Z.add_0_r b). rewrite <- (H 0 ltac:(lia)), Z.add_0_r.
  unfold zrange. rewrite map_map. set (n := Z.to_nat (parts - 1)). assert (B : forall i, In i (seq 0 n) -> 0 <= Z.of_nat i + 1 < parts) by (intros i Hi; apply in_seq in Hi; lia).
  generalize (array_value c cfg w b (e mod 128) (array_input b)). induction (seq 0 n) as [|i l IH]; intros z; [reflexivity|]. cbn [map fold_left].
  rewrite <- (H (1 + Z.of_nat i)) by (specialize (B i (or_introl eq_refl)); lia). rewrite Z.add_assoc. apply IH. intros i' Hi'. apply B. now right.
Qed.

Lemma input_layer1 e p : 0 <= e < 1024 -> 0 <= p < 7 -> array_input (0 + e / 128 * 7 + p) = part x p.
Proof.
  intros E P. assert (0 <= e / 128 < 8) by (Z.to_euclidean_division_equations; lia). unfold array_input.
  replace (0 + e / 128 * 7 + p <? 56) with true by lia. f_equal. Z.to_euclidean_division_equations. lia.
Qed.
Lemma input_layer2 e p : 0 <= e < 512 -> 0 <= p < 8 -> array_input (56 + e / 128 * 8 + p) = part h1 p.
Proof.
  intros E P. assert (0 <= e / 128 < 4) by (Z.to_euclidean_division_equations; lia). unfold array_input.
  replace (56 + e / 128 * 8 + p <? 56) with false by lia. replace (56 + e / 128 * 8 + p <? 88) with true by lia. f_equal. Z.to_euclidean_division_equations. lia.
Qed.
Lemma input_layer3 e p : 0 <= e < 200 -> 0 <= p < 4 -> array_input (88 + e / 128 * 4 + p) = part h2 p.
Proof.
  intros E P. assert (0 <= e / 128 < 2) by (Z.to_euclidean_division_equations; lia). unfold array_input.
  replace (88 + e / 128 * 4 + p <? 56) with false by lia. replace (88 + e / 128 * 4 + p <? 88) with false by lia.
  replace (88 + e / 128 * 4 + p <? 96) with true by lia. f_equal. Z.to_euclidean_division_equations. lia.
Qed.
Lemma input_layer4 e p : 0 <= e < 10 -> 0 <= p < 2 -> array_input (96 + e / 128 * 2 + p) = part h3 p.
Proof.
  intros E P. assert (e / 128 = 0) by (Z.to_euclidean_division_equations; lia). unfold array_input.
  replace (96 + e / 128 * 2 + p <? 56) with false by lia. replace (96 + e / 128 * 2 + p <? 88) with false by lia.
  replace (96 + e / 128 * 2 + p <? 96) with false by lia. f_equal. lia.
Qed.

Lemma hidden_at first parts outs v e : 0 <= e < outs -> znth 0 (hidden c cfg w first parts outs v) e = rectified c (neuron c cfg w first parts v e).
Proof.
  intros E. unfold hidden, dense. rewrite map_map. rewrite znth_map_zrange by lia. reflexivity.
Qed.
Lemma zlen_hidden first parts outs v : 0 <= outs -> zlen (hidden c cfg w first parts outs v) = outs.
Proof. intros E. unfold hidden, dense. rewrite !zlen_map. now rewrite zlen_zrange. Qed.
Lemma den_layer first parts v e : 0 < parts -> (forall p, 0 <= p < parts -> array_input (first + e / 128 * parts + p) = part v p) ->
  den (layer_out first parts e) = Some (rectified c (neuron c cfg w first parts v e)).
Proof. intros P H. unfold layer_out. cbn [SymCore.den]. rewrite (den_neuron first parts v e P H). now rewrite vrelu_rect. Qed.

(** What the arrays get is what they are to get. *)
Lemma znth_beyond {A} (d : A) l i : zlen l <= i -> znth d l i = d.
Proof. intros H. unfold znth, zlen in *. apply nth_overflow. lia. Qed.
Lemma ins_part size f v p xs : 0 <= p -> zlen v = size -> (forall e, 0 <= e < size -> den (f e) = Some (znth 0 v e)) ->
  zlen xs = 128 -> Forall2 (is (k_vfu c) e_in e_u) (ins size f p) xs -> xs = part v p.
Proof.
  intros P L D LX F. apply (forall2_znth VX 0) in F as [F1 F2]. apply (list_ext 0).
  - unfold part. rewrite map_length. unfold zlen in LX. pose proof (zlen_zrange 128 ltac:(lia)) as Z. unfold zlen in Z. lia.
  - intros i Hi. specialize (F2 (Z.of_nat i)). unfold zlen in LX. assert (I : 0 <= Z.of_nat i < 128) by lia.
    unfold ins in F2, F1. rewrite zlen_map, zlen_zrange in F2 by lia. specialize (F2 I). rewrite znth_map_zrange in F2 by lia.
    destruct F2 as [_ S]. unfold part. transitivity (znth 0 xs (Z.of_nat i)); [unfold znth; now rewrite Nat2Z.id|].
    transitivity (znth 0 (map (fun i => znth 0 v (128 * p + i)) (zrange 128)) (Z.of_nat i)); [|unfold znth at 1; now rewrite Nat2Z.id].
    rewrite znth_map_zrange by lia. destruct (128 * p + Z.of_nat i <? size) eqn:E.
    + apply S. apply D. lia.
    + rewrite (znth_beyond 0 v) by lia. now apply S.
Qed.
Lemma array_gets u xs : zlen x = 784 -> 0 <= u < 98 -> zlen xs = 128 -> Forall2 (is (k_vfu c) e_in e_u) (unit_in u) xs -> xs = array_input u.
Proof.
  intros LX U L F. unfold unit_in in F. unfold array_input.
  destruct (u <? 56) eqn:E1; [|destruct (u <? 88) eqn:E2; [|destruct (u <? 96) eqn:E3]].
  - apply (ins_part 784 VIn x (u mod 7) xs); [apply Z.mod_pos_bound; lia|exact LX|reflexivity|exact L|exact F].
  - apply (ins_part 1024 (layer_out 0 7) h1 ((u - 56) mod 8) xs); [apply Z.mod_pos_bound; lia|now apply zlen_hidden| |exact L|exact F]. intros e He.
    rewrite (den_layer 0 7 x) by (try lia; intros p Hp; now apply input_layer1). unfold h1. now rewrite hidden_at.
  - apply (ins_part 512 (layer_out 56 8) h2 ((u - 88) mod 4) xs); [apply Z.mod_pos_bound; lia|now apply zlen_hidden| |exact L|exact F]. intros e He.
    rewrite (den_layer 56 8 h1) by (try lia; intros p Hp; now apply input_layer2). unfold h2. now rewrite hidden_at.
  - apply (ins_part 200 (layer_out 88 4) h3 (u - 96) xs); [lia|now apply zlen_hidden| |exact L|exact F]. intros e He.
    rewrite (den_layer 88 4 h2) by (try lia; intros p Hp; now apply input_layer3). unfold h3. now rewrite hidden_at.
Qed.
Lemma den_result j : 0 <= j < 10 -> den (sum_units 96 2 j) = Some (znth 0 (mlp c cfg w x) j).
Proof.
  intros J. assert (E : j / 128 = 0) by (Z.to_euclidean_division_equations; lia). assert (M : j mod 128 = j) by (Z.to_euclidean_division_equations; lia).
  unfold mlp, dense at 1. rewrite znth_map_zrange by lia. fold h1. fold h2. fold h3.
  rewrite <- (den_neuron 96 2 h3 j) by (try lia; intros p Hp; now apply input_layer4). now rewrite E, M.
Qed.
End Values.
