(** Proofs about loading of operations and weights. *)
From Verif Require Import PyBase PyLemmas ConfigModel MemoryModel VfuModel FloatModel MvmuModel CoreModel DramModel RouterModel SystemModel LoaderModel LoaderSpec.
From Coq Require Import Ascii String.
Open Scope Z_scope.

(** ** A list with one element changed *)
Lemma zlen_upd {A} (l : list A) i x : zlen (upd l i x) = zlen l.
Proof. unfold zlen. now rewrite length_upd. Qed.
Definition place_of (len i : Z) : Z := if i <? 0 then i + len else i.
Lemma names_place len i p : reaches len i -> 0 <= p < len -> names len i p = (p =? place_of len i).
Proof. unfold reaches, names, place_of. intros. destruct (i <? 0) eqn:E; lia. Qed.
Lemma place_range len i : reaches len i -> 0 <= place_of len i < len.
Proof. unfold reaches, place_of. intros. destruct (i <? 0) eqn:E; lia. Qed.
Lemma znth_upd {A} (d : A) l j x p : 0 <= j < zlen l -> 0 <= p -> znth d (upd l (Z.to_nat j) x) p = if p =? j then x else znth d l p.
Proof.
  intros. unfold znth, zlen in *. rewrite nth_upd by lia.
  destruct (Nat.eqb_spec (Z.to_nat p) (Z.to_nat j)), (Z.eqb_spec p j); try reflexivity; lia.
Qed.
Lemma pyindex_in {A} (d : A) l i : reaches (zlen l) i -> pyindex l i = Ok (znth d l (place_of (zlen l) i)).
Proof.
  intros R. pose proof (place_range _ _ R). unfold pyindex. fold (place_of (zlen l) i). destruct (place_of (zlen l) i <? 0) eqn:E1; [lia|]. destruct (zlen l <=? place_of (zlen l) i) eqn:E2; [lia|].
  cbn [orb]. unfold znth. destruct (nth_error l (Z.to_nat (place_of (zlen l) i))) eqn:E.
  - now rewrite (nth_error_nth _ _ _ E).
  - apply nth_error_None in E. unfold zlen in *. lia.
Qed.
Lemma pyindex_out {A} (l : list A) i : ~ reaches (zlen l) i -> pyindex l i = Raise IndexError.
Proof.
  unfold reaches, pyindex. intros N. pose proof (Zle_0_nat (List.length l)). fold (zlen l) in H.
  destruct (((if i <? 0 then i + zlen l else i) <? 0) || (zlen l <=? (if i <? 0 then i + zlen l else i))) eqn:E; [reflexivity|].
  exfalso. apply N. destruct (i <? 0) eqn:F; lia.
Qed.
Lemma py_modify_out {A} (l : list A) i f : ~ reaches (zlen l) i -> py_modify l i f = Raise IndexError.
Proof. intros. unfold py_modify. now rewrite pyindex_out. Qed.
Lemma py_modify_in {A} (d : A) l i f b : reaches (zlen l) i -> f (znth d l (place_of (zlen l) i)) = Ok b ->
  py_modify l i f = Ok (upd l (Z.to_nat (place_of (zlen l) i)) b).
Proof. intros R F. unfold py_modify. rewrite (pyindex_in d) by exact R. rewrite F. reflexivity. Qed.
Lemma py_modify_raise {A} (d : A) l i f e : reaches (zlen l) i -> f (znth d l (place_of (zlen l) i)) = Raise e -> py_modify l i f = Raise e.
Proof. intros R F. unfold py_modify. rewrite (pyindex_in d) by exact R. now rewrite F. Qed.

(** ** The architecture with one tile changed *)
Definition put_tile (a : arch) (n t : Z) (x : atile) : arch := upd a (Z.to_nat n) (upd (znth [] a n) (Z.to_nat t) x).
Lemma tile_at_put c a n t x n' t' : complete c a -> is_tile c n t -> is_tile c n' t' ->
  tile_at (put_tile a n t x) n' t' = if (n' =? n) && (t' =? t) then x else tile_at a n' t'.
Proof.
  intros (L & T & _) (Hn & Ht) (Hn' & Ht'). unfold tile_at, put_tile. rewrite znth_upd by (rewrite ?L; lia).
  destruct (Z.eqb_spec n' n); cbn [andb]; [|reflexivity]. subst n'. rewrite znth_upd by (rewrite ?T; lia). reflexivity.
Qed.
Lemma core_at_put c a n t x n' t' k : complete c a -> is_tile c n t -> is_tile c n' t' ->
  core_at c (put_tile a n t x) n' t' k = if (n' =? n) && (t' =? t) then znth (core_init (y_core c), []) (at_cores x) k else core_at c a n' t' k.
Proof. intros. unfold core_at. rewrite (tile_at_put c) by assumption. now destruct ((n' =? n) && (t' =? t)). Qed.
Lemma complete_put c a n t x : complete c a -> is_tile c n t -> zlen (at_cores x) = y_cores c ->
  (forall k, 0 <= k < y_cores c -> zlen (co_mvmus (fst (znth (core_init (y_core c), []) (at_cores x) k))) = k_mvmus (y_core c)) ->
  complete c (put_tile a n t x).
Proof.
  intros C T Hx Hm. pose proof C as (L & LT & LC & LM). split; [|split; [|split]].
  - unfold put_tile. now rewrite zlen_upd.
  - intros n' Hn'. unfold put_tile. destruct T. rewrite znth_upd by (rewrite ?L; lia). destruct (n' =? n) eqn:E; [|auto].
    rewrite zlen_upd. apply LT. lia.
  - intros n' t' H. rewrite (tile_at_put c) by assumption. destruct ((n' =? n) && (t' =? t)); auto.
  - intros n' t' k (H & Hk). rewrite (core_at_put c) by assumption. destruct ((n' =? n) && (t' =? t)); [auto|]. apply LM. split; assumption.
Qed.

(** What the three nested look-ups do. *)
Lemma modify_tile c a n t f : complete c a -> reaches (w_nodes (y_net c)) n -> reaches (w_tiles (y_net c)) t ->
  py_modify a n (fun node => py_modify node t f) =
  match f (tile_at a (place_of (w_nodes (y_net c)) n) (place_of (w_tiles (y_net c)) t)) with
  | Raise e => Raise e
  | Ok x => Ok (put_tile a (place_of (w_nodes (y_net c)) n) (place_of (w_tiles (y_net c)) t) x)
  end.
Proof.
  intros (L & LT & _) Rn Rt. pose proof (place_range _ _ Rn) as Pn.
  destruct (f (tile_at a _ _)) as [x|e] eqn:F.
  - erewrite (py_modify_in []); rewrite ?L; [reflexivity|exact Rn|].
    erewrite (py_modify_in (MkATile [] [])); rewrite ?LT by exact Pn; [reflexivity|exact Rt|exact F].
  - apply (py_modify_raise []); rewrite ?L; [exact Rn|]. apply (py_modify_raise (MkATile [] [])); rewrite ?LT by exact Pn; [exact Rt|exact F].
Qed.
Lemma modify_tile_out c a n t f : complete c a -> ~ (reaches (w_nodes (y_net c)) n /\ reaches (w_tiles (y_net c)) t) ->
  py_modify a n (fun node => py_modify node t f) = Raise IndexError.
Proof.
  intros (L & LT & _) N. assert (D : reaches (zlen a) n \/ ~ reaches (zlen a) n) by (unfold reaches; lia). destruct D as [R|R].
  - apply (py_modify_raise []); [exact R|]. rewrite L in R |- *. apply py_modify_out. rewrite LT by (now apply place_range). tauto.
  - now apply py_modify_out.
Qed.

Definition add_core_op (c : sys_cfg) (ti : atile) (k : Z) (o : cop) : atile :=
  MkATile (at_prog ti)
    (upd (at_cores ti) (Z.to_nat k)
       (let x := znth (core_init (y_core c), []) (at_cores ti) k in (fst x, snd x ++ [o])%list)).
Lemma load_op_in c a o : complete c a -> placed c o ->
  let n := place_of (w_nodes (y_net c)) (o_node o) in let t := place_of (w_tiles (y_net c)) (o_tile o) in
  load_op a o = Ok (put_tile a n t
    match o_instr o with
    | ITile i => MkATile (at_prog (tile_at a n t) ++ [i])%list (at_cores (tile_at a n t))
    | ICore k i => add_core_op c (tile_at a n t) (place_of (y_cores c) k) i
    end).
Proof.
  intros C (Rn & Rt & Rk) n t. unfold load_op. rewrite (modify_tile c) by assumption. fold n. fold t.
  destruct (o_instr o) as [k i|i]; [|reflexivity].
  assert (T : is_tile c n t) by (split; now apply place_range). destruct C as (_ & _ & LC & _). specialize (LC n t T).
  erewrite (py_modify_in (core_init (y_core c), [])); rewrite ?LC; [reflexivity|exact Rk|reflexivity].
Qed.
Lemma load_op_out c a o : complete c a -> ~ placed c o -> load_op a o = Raise IndexError.
Proof.
  intros C N. unfold load_op.
  assert (D : (reaches (w_nodes (y_net c)) (o_node o) /\ reaches (w_tiles (y_net c)) (o_tile o)) \/ ~ (reaches (w_nodes (y_net c)) (o_node o) /\ reaches (w_tiles (y_net c)) (o_tile o))) by (unfold reaches; lia).
  destruct D as [(Rn & Rt)|D].
  - rewrite (modify_tile c) by assumption.
    assert (T : is_tile c (place_of (w_nodes (y_net c)) (o_node o)) (place_of (w_tiles (y_net c)) (o_tile o))) by (split; now apply place_range).
    destruct C as (_ & _ & LC & _). unfold placed in N. destruct (o_instr o) as [k i|i]; [|tauto].
    rewrite py_modify_out; [reflexivity|]. rewrite LC by exact T. tauto.
  - now apply (modify_tile_out c).
Qed.
Lemma placed_dec c o : placed c o \/ ~ placed c o.
Proof. unfold placed, reaches. destruct (o_instr o); lia. Qed.

Lemma with_ops_nil c a : complete c a -> with_ops c a [] a.
Proof. intros C. split; [exact C|]. split; intros; cbn; rewrite ?app_nil_r; auto. Qed.
Lemma with_ops_one c a o : complete c a -> placed c o -> exists b, load_op a o = Ok b /\ with_ops c a [o] b.
Proof.
  intros C P. rewrite (load_op_in c) by assumption. eexists; split; [reflexivity|].
  set (n := place_of (w_nodes (y_net c)) (o_node o)). set (t := place_of (w_tiles (y_net c)) (o_tile o)).
  pose proof P as (Rn & Rt & Rk).
  assert (T : is_tile c n t) by (split; now apply place_range).
  pose proof C as (L & LT & LC & LM). specialize (LC n t T).
  assert (NM : forall n' t', is_tile c n' t' -> names (w_nodes (y_net c)) (o_node o) n' && names (w_tiles (y_net c)) (o_tile o) t' = (n' =? n) && (t' =? t)).
  { intros n' t' (Hn & Ht). now rewrite !names_place. }
  split; [|split].
  - apply complete_put; [assumption|assumption| |]; destruct (o_instr o) as [k i|i]; cbn [add_core_op at_cores]; rewrite ?zlen_upd; auto.
    + intros k' Hk'. pose proof (place_range _ _ Rk) as Pk. rewrite znth_upd by (rewrite ?LC; lia).
      destruct (k' =? place_of (y_cores c) k); cbn [fst]; apply (LM n t); (split; [exact T|lia]).
    + intros k' Hk'. apply (LM n t). split; [exact T|lia].
  - intros n' t' H'. rewrite (tile_at_put c) by assumption. unfold for_tile. cbn [flat_map]. rewrite app_nil_r. rewrite NM by exact H'.
    destruct (o_instr o) as [k i|i].
    + rewrite app_nil_r. destruct ((n' =? n) && (t' =? t)) eqn:E; [|reflexivity]. replace n' with n by lia. now replace t' with t by lia.
    + destruct ((n' =? n) && (t' =? t)) eqn:E; [|now rewrite app_nil_r]. replace n' with n by lia. now replace t' with t by lia.
  - intros n' t' k' (H' & Hk'). rewrite (core_at_put c) by assumption. unfold for_core. cbn [flat_map]. rewrite app_nil_r. rewrite NM by exact H'.
    destruct (o_instr o) as [k i|i].
    + destruct ((n' =? n) && (t' =? t)) eqn:E; cbn [andb]; [|now rewrite app_nil_r].
      replace n' with n by lia. replace t' with t by lia. pose proof (place_range _ _ Rk) as Pk. cbn [add_core_op at_cores].
      rewrite znth_upd by (rewrite ?LC; lia). rewrite names_place by assumption.
      destruct (Z.eqb_spec k' (place_of (y_cores c) k)) as [->|]; [split; reflexivity|]. rewrite app_nil_r. split; reflexivity.
    + rewrite app_nil_r. destruct ((n' =? n) && (t' =? t)) eqn:E; [|split; reflexivity]. replace n' with n by lia. replace t' with t by lia. split; reflexivity.
Qed.
Lemma with_ops_app c a ops1 b ops2 d : with_ops c a ops1 b -> with_ops c b ops2 d -> with_ops c a (ops1 ++ ops2)%list d.
Proof.
  intros (_ & T1 & C1) (K & T2 & C2). split; [exact K|]. split.
  - intros n t H. rewrite T2, T1 by exact H. unfold for_tile. rewrite flat_map_app. now rewrite app_assoc.
  - intros n t k H. destruct (C1 n t k H) as (E1 & F1), (C2 n t k H) as (E2 & F2). split; [congruence|].
    rewrite F2, F1. unfold for_core. rewrite flat_map_app. now rewrite app_assoc.
Qed.

Lemma load_operations_ok x c : forall data a, complete c a -> Forall (placed c) (valid_ops x data) ->
  exists b, load_operations x a data = (Ok tt, b) /\ with_ops c a (valid_ops x data) b.
Proof.
  induction data as [|j rest IH]; intros a C F; [exists a; split; [reflexivity|now apply with_ops_nil]|].
  unfold valid_ops in *. cbn [flat_map load_operations] in *. destruct (parse x j) as [o|] eqn:P; [|now apply IH].
  inversion F as [|o' l P1 P2]; subst. destruct (with_ops_one c a o C P1) as (b & E & W). rewrite E.
  destruct (IH b (proj1 W) P2) as (d & E' & W'). exists d. split; [exact E'|]. apply (with_ops_app c a [o] b _ d W W').
Qed.
Lemma load_operations_app x : forall l1 a b l2, load_operations x a l1 = (Ok tt, b) -> load_operations x a (l1 ++ l2)%list = load_operations x b l2.
Proof.
  induction l1 as [|j rest IH]; intros a b l2 E; cbn in *; [now injection E as ->|].
  destruct (parse x j) as [o|]; [|now apply IH]. destruct (load_op a o) as [a'|[]]; try discriminate; now apply IH.
Qed.
Lemma load_operations_out x c a pre j post o : complete c a -> Forall (placed c) (valid_ops x pre) -> parse x j = Some o -> ~ placed c o ->
  exists b, load_operations x a (pre ++ j :: post)%list = (Raise IndexError, b) /\ with_ops c a (valid_ops x pre) b.
Proof.
  intros C F P N. destruct (load_operations_ok x c pre a C F) as (b & E & W). exists b. split; [|exact W].
  rewrite (load_operations_app x pre a b _ E). cbn [load_operations]. rewrite P. now rewrite (load_op_out c) by (apply W || exact N).
Qed.
Lemma first_out x c data : Forall (placed c) (valid_ops x data) \/
  exists pre j post o, data = (pre ++ j :: post)%list /\ Forall (placed c) (valid_ops x pre) /\ parse x j = Some o /\ ~ placed c o.
Proof.
  induction data as [|j rest IH]; [left; constructor|]. destruct (parse x j) as [o|] eqn:P.
  - destruct (placed_dec c o) as [Y|N].
    + destruct IH as [IH|(pre & j' & post & o' & E & F & P' & N)].
      * left. unfold valid_ops. cbn [flat_map]. rewrite P. constructor; assumption.
      * right. exists (j :: pre), j', post, o'. rewrite E. split; [reflexivity|]. split; [|auto].
        unfold valid_ops. cbn [flat_map]. rewrite P. constructor; assumption.
    + right. exists [], j, rest, o. repeat split; auto. constructor.
  - destruct IH as [IH|(pre & j' & post & o' & E & F & P' & N)].
    + left. unfold valid_ops. cbn [flat_map]. now rewrite P.
    + right. exists (j :: pre), j', post, o'. rewrite E. split; [reflexivity|]. split; [|auto].
      unfold valid_ops. cbn [flat_map]. now rewrite P.
Qed.

(** ** The new architecture *)
Lemma znth_repeat {A} (d : A) x n i : 0 <= i < Z.of_nat n -> znth d (repeat x n) i = x.
Proof. intros. unfold znth. rewrite nth_indep with (d' := x) by (rewrite repeat_length; lia). apply nth_repeat. Qed.
Lemma zlen_repeat {A} (x : A) n : 0 <= n -> zlen (repeat x (Z.to_nat n)) = n.
Proof. intros. unfold zlen. rewrite repeat_length. lia. Qed.
Lemma tile_at_build c n t : is_tile c n t -> tile_at (build_architecture c) n t = MkATile [] (repeat (core_init (y_core c), []) (Z.to_nat (y_cores c))).
Proof. intros (Hn & Ht). unfold tile_at, build_architecture. rewrite (znth_repeat []) by lia. now rewrite znth_repeat by lia. Qed.
Lemma core_at_build c n t k : is_core c n t k -> core_at c (build_architecture c) n t k = (core_init (y_core c), []).
Proof. intros (T & Hk). unfold core_at. rewrite tile_at_build by exact T. cbn [at_cores]. now rewrite znth_repeat by lia. Qed.
Lemma complete_build c : sized c -> complete c (build_architecture c).
Proof.
  intros (S1 & S2 & S3 & S4). split; [|split; [|split]].
  - now apply zlen_repeat.
  - intros n H. unfold build_architecture. rewrite (znth_repeat []) by lia. now apply zlen_repeat.
  - intros n t H. rewrite tile_at_build by exact H. now apply zlen_repeat.
  - intros n t k H. rewrite core_at_build by exact H. now apply zlen_repeat.
Qed.
