(** Two simulators built from the same operations with different weights. *)
From Verif Require Import PyBase PyLemmas ConfigModel MemoryModel FloatModel VfuModel VfuSpec MvmuModel MvmuSpec CoreModel CoreSpec DramModel RouterModel SystemModel SystemSpec NodeModel NodeSpec
  LoaderModel LoaderSpec LoaderProofs LoaderWeights LoaderClaims MvmuExamples CoreUse MlpProgram MlpSpec MlpLoad MlpRun MlpProofs DesModel DesSpec DesIdleSpec DesDataSpec DesDataRun.
From Coq Require Import ZifyBool ZifyNat.
Open Scope Z_scope.

Lemma fresh_activity c k k' : fresh_core c k -> fresh_core c k' -> length (co_mvmus k) = length (co_mvmus k') -> same_activity k k'.
Proof.
  intros (C & V & U) (C' & V' & U') L. constructor; [now rewrite C, C'|now rewrite V, V'|].
  revert L U U'. generalize (co_mvmus k) (co_mvmus k'). induction l as [|u l IH]; intros [|u' l'] L U U'; cbn in L; try discriminate L; [reflexivity|].
  inversion U as [|? ? (A & B & D) R]; inversion U' as [|? ? (A' & B' & D') R']; subst. cbn [map]. f_equal; [|apply IH; [congruence|assumption..]].
  unfold unit_counts. now rewrite A, B, D, A', B', D'.
Qed.
Lemma Forall2_znth {A B} (d : A) (d' : B) (R : A -> B -> Prop) l l' : zlen l = zlen l' ->
  (forall k, 0 <= k < zlen l -> R (znth d l k) (znth d' l' k)) -> Forall2 R l l'.
Proof.
  revert l'. induction l as [|x l IH]; intros [|y l'] L H; unfold zlen in *; cbn [length] in *; try lia; constructor.
  - apply (H 0). lia.
  - apply IH; [lia|]. intros k K. specialize (H (k + 1)). unfold znth in *. replace (Z.to_nat (k + 1)) with (S (Z.to_nat k)) in H by lia. apply H. lia.
Qed.

Section Built.
Context (x : lax) (c : sys_cfg) (ops : list json) (n : Z).
Context (S : LoaderSpec.sized c) (Hn : 0 <= n < w_nodes (y_net c)) (Hc : 0 <= k_cache (y_core c)) (Hs : 0 <= c_size (k_mv (y_core c))).
Lemma built_core ws a t k : construct x c ops ws = Ok a -> is_core c n t k ->
  core_reached (y_core c) (fst (core_at c a n t k)) /\ fresh_core (y_core c) (fst (core_at c a n t k)) /\
  snd (core_at c a n t k) = for_core c n t k (valid_ops x ops) /\ length (co_mvmus (fst (core_at c a n t k))) = Z.to_nat (k_mvmus (y_core c)).
Proof.
  intros E KK. pose proof (construct_fresh x c ops ws a n [] S Hc Hs Hn E) as (_ & _ & F).
  destruct (construct_ok x c ops ws a S E) as ((_ & _ & LC & LM) & _ & K & U). destruct (K n t k KK) as (K1 & K2 & K3). specialize (LM n t k KK).
  assert (L : length (co_mvmus (fst (core_at c a n t k))) = Z.to_nat (k_mvmus (y_core c))) by (unfold zlen in LM; lia).
  split; [|split; [|split; [exact K1|exact L]]].
  - apply loaded_reached; [exact K2|exact K3|exact L|]. intros m V H.
    assert (B : (m < length (co_mvmus (fst (core_at c a n t k))))%nat) by (apply nth_error_Some; congruence).
    destruct (arrays_for_total n t k (Z.of_nat m) ws) as (arrays & AF). exists arrays.
    assert (IU : is_unit c n t k (Z.of_nat m)) by (split; [exact KK|unfold zlen in LM; lia]).
    rewrite <- (U n t k (Z.of_nat m) arrays IU AF). unfold unit_at, znth. rewrite Nat2Z.id. symmetry. now apply nth_error_nth.
  - destruct KK as (TT & HK). specialize (F t (proj2 TT)). cbn [j_cores job_of] in F. fold (tile_at a n t) in F. rewrite Forall_forall in F. apply F.
    unfold core_at, znth. apply nth_In. specialize (LC n t TT). unfold zlen in LC. lia.
Qed.
Lemma built_code ws ws' a a' act act' : construct x c ops ws = Ok a -> construct x c ops ws' = Ok a' -> zlen act = zlen act' ->
  same_code c (job_of a n act) (job_of a' n act').
Proof.
  intros E E' L. destruct (construct_ok x c ops ws a S E) as ((_ & _ & LC & _) & T & _ & _).
  destruct (construct_ok x c ops ws' a' S E') as ((_ & _ & LC' & _) & T' & _ & _).
  constructor.
  - intros t Ht. assert (TT : is_tile c n t) by now split. cbn [j_prog job_of]. fold (tile_at a n t) (tile_at a' n t). rewrite T, T' by exact TT. reflexivity.
  - intros t Ht. assert (TT : is_tile c n t) by now split. cbn [j_cores job_of]. fold (tile_at a n t) (tile_at a' n t).
    apply (Forall2_znth (core_init (y_core c), []) (core_init (y_core c), [])); [rewrite LC, LC' by exact TT; reflexivity|].
    intros k Hk. rewrite LC in Hk by exact TT. fold (core_at c a n t k) (core_at c a' n t k). assert (KK : is_core c n t k) by now split.
    destruct (built_core ws a t k E KK) as (R & F & P & N). destruct (built_core ws' a' t k E' KK) as (R' & F' & P' & N').
    split; [congruence|]. split; [exact R|]. split; [exact R'|]. eapply fresh_activity; [exact F|exact F'|congruence].
  - cbn [j_activation job_of]. now destruct (n =? 0).
Qed.
End Built.

Theorem timing_of_weights x c cfg ww ops ws ws' a a' n act act' : LoaderSpec.sized c -> core_ok cfg ww (y_core c) -> 0 <= y_size c -> 0 <= n < w_nodes (y_net c) ->
  construct x c ops ws = Ok a -> construct x c ops ws' = Ok a' -> zlen act = zlen act' ->
  programs_fixed c (job_of a n act) -> ~ divides c (job_of a n act) ->
  forall t0 s, sim_reach c (job_of a n act) t0 s -> exists s', sim_reach c (job_of a' n act') t0 s' /\ same_timing s s' /\ ends_together c s s' /\
    ((exists e, raised c s e) <-> exists e, raised c s' e).
Proof.
  intros S OK SZ Hn E E' L FX ND t0 s R.
  assert (Hs : 0 <= c_size (k_mv (y_core c))) by (pose proof (ok_size _ _ _ (core_ok_mv _ _ _ OK)); lia).
  pose proof (built_code x c ops n S Hn (core_ok_cache _ _ _ OK) Hs ws ws' a a' act act' E E' L) as SC.
  exact (errors_of_data cfg ww c _ _ t0 OK SZ SC FX ND s R).
Qed.

(** ** The example *)
Lemma fixed_start c c' p : cache_start c = cache_start c' -> forall m, fixed_addresses c m p = fixed_addresses c' m p.
Proof.
  intros E. induction p as [|o p IH]; intros m; [reflexivity|]. cbn [fixed_addresses]. rewrite IH. unfold is_fixed. now rewrite E.
Qed.
Definition prog_plain (cc : core_cfg) (p : list cop) : bool := fixed_addresses cc nothing p && negb (existsb is_div p).
Lemma mlp_plain : forallb (fun t => forallb (fun k => prog_plain (MkCoreCfg 384 mixed 8 q8_8 1 2 1 1) (of_core t k mlp_list)) (zrange 8)) (zrange 5) = true.
Proof. vm_compute. reflexivity. Qed.
Section Mlp.
Context (x : lax) (c : sys_cfg) (LX : reasonable x) (SH : mlp_shape c).
Lemma mlp_core_plain file a t : construct x c mlp_ops file = Ok a -> on_node c t ->
  Forall (fun y => fixed_addresses (y_core c) nothing (snd y) = true /\ existsb is_div (snd y) = false) (at_cores (tile_at a 0 t)).
Proof.
  intros E N. destruct (construct_ok x c mlp_ops file a (shape_sized c SH) E) as ((_ & _ & LC & _) & _ & K & _).
  assert (TT : is_tile c 0 t) by (split; [pose proof (ms_nodes _ SH); lia|exact N]).
  apply (Forall_znth (core_init (y_core c), [])). rewrite LC by exact TT. intros k Hk. fold (core_at c a 0 t k).
  destruct (K 0 t k (conj TT Hk)) as (-> & _). rewrite (mlp_valid x LX). unfold on_node in N. rewrite (ms_tiles _ SH) in N. rewrite (ms_cores _ SH) in Hk.
  rewrite (for_core_eq c SH t k N Hk). pose proof mlp_plain as P. rewrite forallb_forall in P. specialize (P t ltac:(now apply in_zrange)).
  rewrite forallb_forall in P. specialize (P k ltac:(now apply in_zrange)). unfold prog_plain in P. apply andb_prop in P as [P Q].
  split; [|now apply negb_true_iff]. rewrite <- P. apply fixed_start. unfold cache_start, outreg_start. rewrite (ms_units _ SH), (ms_size _ SH). reflexivity.
Qed.
Theorem timing_of_mlp cfg ww file file' a a' act act' : core_ok cfg ww (y_core c) ->
  construct x c mlp_ops file = Ok a -> construct x c mlp_ops file' = Ok a' -> zlen act = zlen act' ->
  forall t0 s, sim_reach c (job_of a 0 act) t0 s -> exists s', sim_reach c (job_of a' 0 act') t0 s' /\ same_timing s s' /\ ends_together c s s' /\
    ((exists e, raised c s e) <-> exists e, raised c s' e).
Proof.
  intros OK E E' L. assert (M : 0 <= y_size c) by (pose proof (ms_memory _ SH); lia).
  apply (timing_of_weights x c cfg ww mlp_ops file file' a a' 0 act act' (shape_sized c SH) OK M); [pose proof (ms_nodes _ SH); lia|exact E|exact E'|exact L| |].
  - intros t N. eapply Forall_impl; [|exact (mlp_core_plain file a t E N)]. now intros y (H & _).
  - intros (t & k & p & o & N & I & IO & D). pose proof (mlp_core_plain file a t E N) as F. rewrite Forall_forall in F. destruct (F _ I) as (_ & H).
    cbn [snd] in H. assert (existsb is_div p = true) by (apply existsb_exists; eauto). congruence.
Qed.
End Mlp.
