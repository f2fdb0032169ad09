(** The statements about the loaders. *)
From Verif Require Import PyBase PyLemmas ConfigModel FloatModel MemoryModel VfuModel MvmuModel CoreModel DramModel RouterModel SystemModel SystemSpec NodeSpec.
From Verif Require Import LoaderModel LoaderSpec LoaderProofs LoaderWeights LoaderParse LoaderAct.
From Flocq Require Import IEEE754.BinarySingleNaN.
From Coq Require Import Reals Lra Ascii String.
Open Scope Z_scope.

(** ** Operations *)
Lemma dispatch_ok x c data : sized c -> Forall (placed c) (valid_ops x data) ->
  exists a, load_operations x (build_architecture c) data = (Ok tt, a) /\ complete c a /\
    (forall n t, is_tile c n t -> at_prog (tile_at a n t) = for_tile c n t (valid_ops x data)) /\
    (forall n t k, is_core c n t k -> core_at c a n t k = (core_init (y_core c), for_core c n t k (valid_ops x data))).
Proof.
  intros S P. destruct (load_operations_ok x c data _ (complete_build c S) P) as (a & E & W). exists a. split; [exact E|].
  destruct W as (C & T & K). split; [exact C|]. split.
  - intros n t H. rewrite T by exact H. now rewrite tile_at_build.
  - intros n t k H. destruct (K n t k H) as (K1 & K2). rewrite core_at_build in K1, K2 by exact H. destruct (core_at c a n t k). cbn in *. now subst.
Qed.
(** Every operation goes to exactly one place. *)
Lemma one_place len i : reaches len i -> exists p, 0 <= p < len /\ names len i p = true /\ forall q, 0 <= q < len -> names len i q = true -> q = p.
Proof.
  intros R. exists (place_of len i). pose proof (place_range len i R). split; [assumption|]. split; [rewrite names_place by assumption; lia|].
  intros q Hq N. rewrite names_place in N by assumption. lia.
Qed.
Lemma dispatch_once c o : placed c o ->
  exists n t, is_tile c n t /\
    match o_instr o with
    | ITile i => for_tile c n t [o] = [i] /\ forall n' t', is_tile c n' t' -> (n', t') <> (n, t) -> for_tile c n' t' [o] = []
    | ICore _ i => exists k, is_core c n t k /\ for_core c n t k [o] = [i] /\
                     forall n' t' k', is_core c n' t' k' -> (n', t', k') <> (n, t, k) -> for_core c n' t' k' [o] = []
    end.
Proof.
  intros (Rn & Rt & Rk). destruct (one_place _ _ Rn) as (n & Hn & Nn & Un), (one_place _ _ Rt) as (t & Ht & Nt & Ut).
  exists n, t. split; [now split|]. destruct (o_instr o) as [k0 i|i] eqn:O.
  - destruct (one_place _ _ Rk) as (k & Hk & Nk & Uk). exists k. split; [now repeat split|]. unfold for_core. cbn [flat_map]. rewrite O.
    split; [now rewrite Nn, Nt, Nk|]. intros n' t' k' ((Hn' & Ht') & Hk') N.
    destruct (names _ (o_node o) n') eqn:E1; cbn [andb]; [|reflexivity]. destruct (names _ (o_tile o) t') eqn:E2; cbn [andb]; [|reflexivity].
    destruct (names _ k0 k') eqn:E3; [|reflexivity]. elim N. now rewrite (Un n' Hn' E1), (Ut t' Ht' E2), (Uk k' Hk' E3).
  - unfold for_tile. cbn [flat_map]. rewrite O. split; [now rewrite Nn, Nt|]. intros n' t' (Hn' & Ht') N.
    destruct (names _ (o_node o) n') eqn:E1; cbn [andb]; [|reflexivity]. destruct (names _ (o_tile o) t') eqn:E2; [|reflexivity].
    elim N. now rewrite (Un n' Hn' E1), (Ut t' Ht' E2).
Qed.
(** Numbers from the end. *)
Lemma load_op_negative c a o : complete c a -> placed c o ->
  load_op a o = load_op a (MkOp (if o_node o <? 0 then o_node o + w_nodes (y_net c) else o_node o)
                                (if o_tile o <? 0 then o_tile o + w_tiles (y_net c) else o_tile o)
                                match o_instr o with ICore k i => ICore (if k <? 0 then k + y_cores c else k) i | i => i end).
Proof.
  intros C P. pose proof P as (Rn & Rt & Rk). fold (place_of (w_nodes (y_net c)) (o_node o)). fold (place_of (w_tiles (y_net c)) (o_tile o)).
  assert (I : forall len i, reaches len i -> place_of len (place_of len i) = place_of len i) by (intros len i R; pose proof (place_range len i R); unfold place_of at 1; destruct (place_of len i <? 0) eqn:?; lia).
  assert (Q : forall len i, reaches len i -> reaches len (place_of len i)) by (intros len i R; pose proof (place_range len i R); unfold reaches; lia).
  rewrite !(load_op_in c); cbn [o_node o_tile o_instr]; try assumption.
  - rewrite !I by assumption. destruct (o_instr o) as [k i|i]; [|reflexivity]. fold (place_of (y_cores c) k). now rewrite I.
  - split; [now apply Q|]. split; [now apply Q|]. cbn [o_instr]. destruct (o_instr o) as [k i|i]; [|exact Logic.I]. fold (place_of (y_cores c) k). now apply Q.
Qed.

(** ** Weights *)
Lemma foreign_key c a key w : complete c a -> (forall n t k m, is_unit c n t k m -> ~ key_for key n t k m) -> load_weight_file c a [(key, w)] = a.
Proof.
  intros C N. unfold load_weight_file. cbn [fold_left fst snd]. destruct (key_ids key) as [[[[n t] k] m]|] eqn:K; [|reflexivity].
  apply key_ids_iff in K. destruct (key_for_nonneg _ _ _ _ _ K) as (Hn & Ht & Hk & Hm). apply load_unit_out; try assumption.
  intros U. exact (N n t k m U K).
Qed.

(** ** All loaders *)
Lemma construct_iff x c ops ws : sized c -> (exists a, construct x c ops ws = Ok a) <-> Forall (placed c) (valid_ops x ops).
Proof.
  intros S. pose proof (complete_build c S) as C. split.
  - intros (a & E). destruct (first_out x c ops) as [F|(pre & j & post & o & -> & F & P & N)]; [exact F|].
    destruct (load_operations_out x c _ pre j post o C F P N) as (b & L & _). unfold construct in E. rewrite L in E. discriminate E.
  - intros F. destruct (load_operations_ok x c ops _ C F) as (a & L & _). unfold construct. rewrite L. eauto.
Qed.
Lemma construct_fails x c ops ws e : sized c -> construct x c ops ws = Raise e -> e = IndexError.
Proof.
  intros S E. pose proof (complete_build c S) as C. destruct (first_out x c ops) as [F|(pre & j & post & o & -> & F & P & N)].
  - destruct (load_operations_ok x c ops _ C F) as (a & L & _). unfold construct in E. rewrite L in E. discriminate E.
  - destruct (load_operations_out x c _ pre j post o C F P N) as (b & L & _). unfold construct in E. rewrite L in E. now injection E.
Qed.
Lemma construct_ok x c ops ws a : sized c -> construct x c ops ws = Ok a ->
  complete c a /\
  (forall n t, is_tile c n t -> at_prog (tile_at a n t) = for_tile c n t (valid_ops x ops)) /\
  (forall n t k, is_core c n t k ->
     snd (core_at c a n t k) = for_core c n t k (valid_ops x ops) /\
     co_cache (fst (core_at c a n t k)) = mem_init (k_cache (y_core c)) /\ co_vfu (fst (core_at c a n t k)) = vstats0) /\
  (forall n t k m arrays, is_unit c n t k m -> arrays_for n t k m ws arrays ->
     unit_at c a n t k m = loaded (k_mv (y_core c)) arrays (mvmu_init (k_mv (y_core c)))).
Proof.
  intros S E. assert (F : Forall (placed c) (valid_ops x ops)) by (apply (construct_iff x c ops ws S); eauto).
  destruct (dispatch_ok x c ops S F) as (b & L & C & T & K). unfold construct in E. rewrite L in E.
  assert (A : a = load_weight_file c b ws) by congruence. subst a. destruct (load_file_ok c ws b C) as (C' & T' & K' & U').
  split; [exact C'|]. split; [|split].
  - intros n t H. rewrite T' by exact H. now apply T.
  - intros n t k H. destruct (K' n t k H) as (K1 & K2 & K3). rewrite K1, K2, K3. rewrite K by exact H. repeat split.
  - intros n t k m arrays H A. rewrite (U' n t k m arrays H A). unfold unit_at. destruct H as (H & Hm). rewrite K by exact H. cbn [fst core_init co_mvmus].
    rewrite znth_repeat by lia. reflexivity.
Qed.
Lemma Forall_znth {A} (d : A) (P : A -> Prop) l : (forall i, 0 <= i < zlen l -> P (znth d l i)) -> Forall P l.
Proof.
  intros H. apply Forall_forall. intros x I. apply (In_nth _ _ d) in I. destruct I as (n & L & <-). specialize (H (Z.of_nat n)).
  unfold znth, zlen in H. rewrite Nat2Z.id in H. apply H. lia.
Qed.
Lemma construct_fresh x c ops ws a n act : sized c -> 0 <= k_cache (y_core c) -> 0 <= c_size (k_mv (y_core c)) -> 0 <= n < w_nodes (y_net c) ->
  construct x c ops ws = Ok a -> fresh_job c (job_of a n act).
Proof.
  intros S H1 H2 Hn E. destruct (construct_ok x c ops ws a S E) as ((_ & _ & LC & LM) & _ & K & U). split; [exact H1|]. split; [exact H2|].
  intros t T. assert (TT : is_tile c n t) by (split; [exact Hn|exact T]). cbn [j_cores job_of]. fold (tile_at a n t).
  apply (Forall_znth (core_init (y_core c), [])). rewrite LC by exact TT. intros k Hk. fold (core_at c a n t k).
  assert (KK : is_core c n t k) by now split. destruct (K n t k KK) as (_ & K2 & K3). split; [exact K2|]. split; [exact K3|].
  apply (Forall_znth (mvmu_init (k_mv (y_core c)))). rewrite LM by exact KK. intros m Hm. fold (unit_at c a n t k m).
  destruct (arrays_for_total n t k m ws) as (arrays & AF). rewrite (U n t k m arrays (conj KK Hm) AF).
  destruct (loaded_keeps (k_mv (y_core c)) arrays (mvmu_init (k_mv (y_core c)))) as (A & B & D). rewrite A, B, D. repeat split.
Qed.
Lemma construct_starts x c ops ws a n frac v now : sized c -> 0 <= n < w_nodes (y_net c) -> construct x c ops ws = Ok a ->
  let s := sys_start c now (job_of a n (fixed_activation frac v)) in
  forall t, on_node c t ->
    t_prog (s_tile s t) = for_tile c n t (valid_ops x ops) /\
    zlen (t_cores (s_tile s t)) = y_cores c /\
    (forall k p, 0 <= k -> nth_error (t_cores (s_tile s t)) (Z.to_nat k) = Some p -> cp_prog p = for_core c n t k (valid_ops x ops)) /\
    t_dram (s_tile s t) = dc_run now (if t =? 0 then load_activation frac (if n =? 0 then v else VInts []) (dram_init (y_size c)) else dram_init (y_size c)).
Proof.
  intros S Hn E s t T. destruct (construct_ok x c ops ws a S E) as ((_ & _ & LC & LM) & P & K & U).
  assert (TT : is_tile c n t) by (split; [exact Hn|exact T]).
  unfold s, sys_start. cbn [s_tile t_prog t_cores t_dram j_prog j_cores j_activation job_of]. fold (tile_at a n t).
  split; [now apply P|]. split; [unfold zlen; rewrite map_length; now apply LC|]. split.
  - intros k p Hk N. rewrite nth_error_map in N. destruct (nth_error (at_cores (tile_at a n t)) (Z.to_nat k)) as [q|] eqn:Q; [|discriminate N].
    cbn in N. assert (p = MkCProc (fst q) (snd q) PReady []) by congruence. subst p. cbn [cp_prog].
    assert (L : 0 <= k < y_cores c).
    { split; [exact Hk|]. rewrite <- (LC n t TT). assert (B : (Z.to_nat k < List.length (at_cores (tile_at a n t)))%nat) by (apply nth_error_Some; congruence). unfold zlen. lia. }
    destruct (K n t k (conj TT L)) as (K1 & _). rewrite <- K1. unfold core_at, znth. now rewrite (nth_error_nth _ _ _ Q).
  - unfold start_dram. destruct (t =? 0); [|reflexivity]. destruct (n =? 0); reflexivity.
Qed.
