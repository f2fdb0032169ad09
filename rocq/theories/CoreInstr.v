(** What the register instructions of a core compute. *)
From Verif Require Import PyBase PyLemmas ConfigModel MemoryModel MemorySpec MemoryProofs VfuModel VfuSpec VfuProofs
  FloatModel MvmuModel MvmuSpec MvmuLists MvmuLoad MvmuRun MvmuProofs MvmuUse MvmuCount MvmuExamples MvmuTop CoreModel CoreSpec CoreProofs CoreUse.
From Coq Require Import ZifyBool ZifyNat.
Ltac Zify.zify_post_hook ::= Z.div_mod_to_equations.
Open Scope Z_scope.

Section Instr.
Context (cfg : list bitcfg) (ww : Z) (c : core_cfg) (OK : core_ok cfg ww c).

Lemma same_cells_trans a b d : Forall2 same_cells a b -> Forall2 same_cells b d -> Forall2 same_cells a d.
Proof.
  intros H; revert d; induction H as [|u v us vs Huv _ IH]; intros d H'; inversion H'; subst; constructor; [|now apply IH].
  destruct Huv as (? & ? & ? & ?), H1 as (? & ? & ? & ?). repeat split; congruence.
Qed.

Lemma content_int32 k p : core_reached c k -> int32 (content k p).
Proof.
  intros R. assert (Z0 : int32 0) by (unfold int32; lia).
  pose proof (ki_units _ _ (reached_inv _ _ R)) as U. rewrite Forall_forall in U.
  assert (S : forall u, In u (co_mvmus k) -> shaped cfg (k_mv c) u).
  { intros u Hu. destruct (U u Hu) as (ops & ->). apply (run_shaped cfg ww (k_mv c) (core_ok_mv _ _ _ OK)). apply (init_shaped cfg ww (k_mv c) (core_ok_mv _ _ _ OK)). }
  destruct p as [u o|u o|o]; cbn [content].
  - destruct (nth_error (co_mvmus k) (Z.to_nat u)) as [x|] eqn:E; [|exact Z0].
    unfold znth. apply Forall_nth_ok; [apply (sh_in32 _ _ _ (S x (nth_error_In _ _ E)))|exact Z0].
  - destruct (nth_error (co_mvmus k) (Z.to_nat u)) as [x|] eqn:E; [|exact Z0].
    unfold znth. apply Forall_nth_ok; [apply (sh_out32 _ _ _ (S x (nth_error_In _ _ E)))|exact Z0].
  - destruct (Z_lt_dec o (k_cache c)) as [H|H].
    + destruct (Z_le_dec 0 o) as [H'|H']; [apply (cells_int32 cfg ww c OK k R o ltac:(lia))|].
      unfold znth. replace (Z.to_nat o) with (Z.to_nat 0) by lia.
      destruct (Z_lt_dec 0 (k_cache c)) as [H0|H0].
      * apply (cells_int32 cfg ww c OK k R 0 ltac:(lia)).
      * rewrite nth_overflow; [exact Z0|]. destruct (cache_wf cfg ww c OK k (reached_inv _ _ R)) as [[W1 W2] W3]. unfold zlen in W2. lia.
    + unfold znth. rewrite nth_overflow; [exact Z0|].
      destruct (cache_wf cfg ww c OK k (reached_inv _ _ R)) as [[W1 W2] W3]. unfold zlen in W2. lia.
Qed.

Lemma visible_int32 k p : core_reached c k -> int32 (visible c k p).
Proof.
  intros R. pose proof (content_int32 k p R) as H. destruct p; cbn [visible]; try exact H.
  assert (0 <= c_weight_frac (k_mv c)) by (pose proof (ok_frac _ _ _ (core_ok_mv _ _ _ OK)); lia).
  rewrite <- Z.shiftr_div_pow2 by assumption. now apply int32_shiftr.
Qed.

Lemma visible_ext k k' p : (forall q, content k' q = content k q) -> visible c k' p = visible c k p.
Proof. intros H. destruct p; cbn [visible]; now rewrite H. Qed.

Lemma readable_place s l i : readable c s l -> 0 <= i < l -> exists p, place_of c (s + i) = Some p.
Proof. intros [H|[u H]] Hi; destruct (H i Hi) as [o E]; eauto. Qed.

(** A read of a readable block. *)
Lemma read_good k s l : core_reached c k -> 0 < l -> readable c s l ->
  exists v k', read_from_register c k s l = (Ok v, k') /\ zlen v = l /\ Forall int32 v /\
    (forall i p, 0 <= i < l -> place_of c (s + i) = Some p -> znth 0 v i = visible c k p) /\
    core_reached c k' /\ (forall p, content k' p = content k p) /\ same_rest k k'.
Proof.
  intros R Hl H. destruct (proj1 (read_decided cfg ww c OK k s l R Hl) H) as (v & k' & E & L & P).
  exists v, k'. split; [exact E|]. split; [exact L|].
  destruct (read_effect cfg ww c OK k s l R) as [C S]. pose proof (reached_snoc c k (KRead s l) R) as R'. cbn [core_step] in R'.
  rewrite E in C, S, R'. cbn [snd] in *. split; [|repeat split; try assumption; apply S].
  apply Forall_forall. intros x Hx. apply (In_nth _ _ 0) in Hx as (i & Hi & <-). unfold zlen in L.
  destruct (readable_place s l (Z.of_nat i) H ltac:(lia)) as [p Pp].
  pose proof (P (Z.of_nat i) p ltac:(lia) Pp) as Q. unfold znth in Q. rewrite Nat2Z.id in Q. rewrite Q. now apply visible_int32.
Qed.

(** A write of a writable block. *)
Lemma write_good k s d : core_reached c k -> 0 < zlen d -> writable c s (zlen d) ->
  exists k', write_to_register c k s d = (Ok tt, k') /\ same_rest k k' /\
    stored c k k' s (zlen d) (fun i v => is_int32_of v (znth 0 d i)).
Proof.
  intros R Hd H. destruct (proj1 (write_decided cfg ww c OK k s d R Hd) H) as (k' & E).
  destruct (write_changes cfg ww c k s d k' OK R E) as (A & B & S). exists k'. split; [exact E|]. split; [exact S|].
  split; [|split; [exact B|apply S]].
  intros i p Hi P. replace i with (s + i - s) at 1 by lia. apply A; [lia|exact P].
Qed.

Lemma zlen_repeat (x v : Z) : 0 <= v -> zlen (repeat x (Z.to_nat v)) = v.
Proof. intros H. unfold zlen. rewrite repeat_length. lia. Qed.

Lemma set_good k dest imm vec : core_reached c k -> 0 < vec -> writable c dest vec ->
  exists k', exec_local c k (CSet dest imm vec) = (Ok tt, k') /\ co_vfu k' = co_vfu k /\
    stored c k k' dest vec (fun _ v => is_int32_of v imm).
Proof.
  intros R Hv H. cbn [exec_local]. unfold exec_set. replace (vec <? 0) with false by lia.
  pose proof (zlen_repeat imm vec ltac:(lia)) as L.
  destruct (write_good k dest (repeat imm (Z.to_nat vec)) R) as (k' & E & S & A & B & D); [lia|now rewrite L|].
  exists k'. split; [exact E|]. split; [symmetry; apply S|]. rewrite L in *. split; [|split; assumption].
  intros i p Hi P. pose proof (A i p Hi P) as Q. unfold znth in Q.
  replace (nth (Z.to_nat i) (repeat imm (Z.to_nat vec)) 0) with imm in Q; [exact Q|].
  symmetry. rewrite (nth_indep _ 0 imm) by (rewrite repeat_length; lia). apply nth_repeat.
Qed.

Lemma copy_good k dest read vec : core_reached c k -> 0 < vec -> readable c read vec -> writable c dest vec ->
  exists k', exec_local c k (CCopy dest read vec) = (Ok tt, k') /\ co_vfu k' = co_vfu k /\
    stored c k k' dest vec (fun i v => forall q, place_of c (read + i) = Some q -> v = visible c k q).
Proof.
  intros R Hv H1 H2. cbn [exec_local]. unfold exec_copy.
  destruct (read_good k read vec R Hv H1) as (v & k1 & -> & L & V32 & V & R1 & C1 & S1).
  destruct (write_good k1 dest v R1) as (k' & E & S & A & B & D); [lia|now rewrite L|].
  exists k'. split; [exact E|]. split; [transitivity (co_vfu k1); symmetry; [apply S|apply S1]|]. rewrite L in *. split; [|split].
  - intros i p Hi P q Q. rewrite (is_int32_of_unique _ _ (A i p Hi P)). rewrite (V i q Hi Q). apply wrap32_id. now apply visible_int32.
  - intros a p Ha P. rewrite (B a p Ha P). apply C1.
  - eapply same_cells_trans; [apply S1|exact D].
Qed.

(** Every vector instruction: the vector unit applied to what is visible of the operands. *)
Lemma vfu_good k op dest r1 r2 vec : core_reached c k -> 0 < vec ->
  readable c r1 vec -> (forall r, r2 = Some r -> readable c r vec) ->
  exists a b k1, zlen a = vec /\ Forall int32 a /\
    (forall i p, 0 <= i < vec -> place_of c (r1 + i) = Some p -> znth 0 a i = visible c k p) /\
    match r2, b with
    | Some r, Some b => zlen b = vec /\ Forall int32 b /\ (forall i p, 0 <= i < vec -> place_of c (r + i) = Some p -> znth 0 b i = visible c k p)
    | None, None => True
    | _, _ => False
    end /\
    core_reached c k1 /\ (forall p, content k1 p = content k p) /\ same_rest k k1 /\
    exec_local c k (CVfu op dest r1 r2 vec) =
      match vfu_calculate (k_vfu c) (co_vfu k) op a b with
      | (Raise e, s) => (Raise e, set_vfu k1 s)
      | (Ok r, s) => write_to_register c (set_vfu k1 s) dest r
      end.
Proof.
  intros R Hv H1 H2. cbn [exec_local]. unfold exec_vfu.
  destruct (read_good k r1 vec R Hv H1) as (a & k1 & -> & L & A32 & A & R1 & C1 & S1).
  destruct r2 as [r|].
  - destruct (read_good k1 r vec R1 Hv (H2 r eq_refl)) as (b & k2 & -> & L2 & B32 & B & R2 & C2 & S2).
    exists a, (Some b), k2. split; [exact L|]. split; [exact A32|]. split; [exact A|]. split.
    + split; [exact L2|]. split; [exact B32|]. intros i p Hi P. rewrite (B i p Hi P). now apply visible_ext.
    + split; [exact R2|]. split; [intros p; rewrite C2; apply C1|]. split.
      * split; [destruct S1, S2; congruence|]. eapply same_cells_trans; [apply S1|apply S2].
      * replace (co_vfu k2) with (co_vfu k) by (destruct S1, S2; congruence). reflexivity.
  - exists a, None, k1. do 3 (split; [assumption|]). split; [exact I|]. do 3 (split; [assumption|]).
    replace (co_vfu k1) with (co_vfu k) by (apply S1). reflexivity.
Qed.

Lemma vfu_reached k op a b : core_reached c k -> core_reached c (set_vfu k (snd (vfu_calculate (k_vfu c) (co_vfu k) op a b))).
Proof. intros R. exact (reached_snoc c k (KVec op a b) R). Qed.

Lemma vector_exact k op dest r1 r2 vec : core_reached c k -> 0 < vec ->
  0 <= v_width (k_vfu c) -> 0 <= v_frac (k_vfu c) -> arithmetic op = true ->
  readable c r1 vec -> readable c r2 vec -> writable c dest vec ->
  (forall i p q, 0 <= i < vec -> place_of c (r1 + i) = Some p -> place_of c (r2 + i) = Some q ->
     fits (v_frac (k_vfu c)) op (visible c k p) (visible c k q)) ->
  exists k', exec_local c k (CVfu op dest r1 (Some r2) vec) = (Ok tt, k') /\
    stored c k k' dest vec (fun i v => forall p q, place_of c (r1 + i) = Some p -> place_of c (r2 + i) = Some q ->
      exists x y, exact (v_frac (k_vfu c)) op (visible c k p) (visible c k q) x /\ clamped (v_width (k_vfu c)) x y /\ is_int32_of v y).
Proof.
  intros R Hv HW HF HA H1 H2 HD FIT.
  destruct (vfu_good k op dest r1 (Some r2) vec R Hv H1) as (a & b & k1 & L & A32 & A & B & R1 & C1 & S1 & E); [now intros r [= <-]|].
  destruct b as [b|]; [|contradiction]. destruct B as (LB & B32 & B).
  destruct (vfu_exact (k_vfu c) (co_vfu k) op a b HW HF HA ltac:(lia) A32 B32) as (r & s & V & LR & P).
  { intros i Hi. rewrite L in Hi. destruct (readable_place r1 vec i H1 Hi) as [p Pp], (readable_place r2 vec i H2 Hi) as [q Pq].
    rewrite (A i p Hi Pp), (B i q Hi Pq). now apply (FIT i). }
  rewrite V in E.
  assert (RV : core_reached c (set_vfu k1 s)).
  { pose proof (vfu_reached k1 op a (Some b) R1) as Q. replace (co_vfu k1) with (co_vfu k) in Q by (apply S1). now rewrite V in Q. }
  destruct (write_good (set_vfu k1 s) dest r RV) as (k' & E' & S & A' & B' & D); [lia|now rewrite LR, L|].
  exists k'. split; [now rewrite E|]. rewrite LR, L in *. split; [|split].
  - intros i p Hi Pd pa pb Pa Pb. destruct (P i Hi) as (x & X1 & X2). rewrite (A i pa Hi Pa), (B i pb Hi Pb) in X1.
    exists x, (znth 0 r i). split; [exact X1|]. split; [exact X2|]. now apply A'.
  - intros x p Hx Px. rewrite (B' x p Hx Px), content_vfu. apply C1.
  - eapply same_cells_trans; [apply S1|exact D].
Qed.

Lemma vector_unary k op dest r1 vec : core_reached c k -> 0 < vec ->
  0 <= v_width (k_vfu c) -> 0 <= v_frac (k_vfu c) -> op = Vnot \/ op = Vrelu ->
  readable c r1 vec -> writable c dest vec ->
  exists k', exec_local c k (CVfu op dest r1 None vec) = (Ok tt, k') /\
    stored c k k' dest vec (fun i v => forall p, place_of c (r1 + i) = Some p ->
      exists x y, exact (v_frac (k_vfu c)) op (visible c k p) 0 x /\ clamped (v_width (k_vfu c)) x y /\ is_int32_of v y).
Proof.
  intros R Hv HW HF HO H1 HD.
  destruct (vfu_good k op dest r1 None vec R Hv H1) as (a & b & k1 & L & A32 & A & B & R1 & C1 & S1 & E); [discriminate|].
  destruct b as [b|]; [contradiction|]. clear B.
  assert (U : is_unary op = true) by (now destruct HO as [-> | ->]).
  destruct (vfu_exact (k_vfu c) (co_vfu k) op a a HW HF ltac:(now destruct HO as [-> | ->]) eq_refl A32 A32) as (r & s & V & LR & P).
  { intros i Hi. now destruct HO as [-> | ->]. }
  rewrite (vfu_unary_ignores _ _ _ _ _ U) in V. rewrite V in E.
  assert (RV : core_reached c (set_vfu k1 s)).
  { pose proof (vfu_reached k1 op a None R1) as Q. replace (co_vfu k1) with (co_vfu k) in Q by (apply S1). now rewrite V in Q. }
  destruct (write_good (set_vfu k1 s) dest r RV) as (k' & E' & S & A' & B' & D); [lia|now rewrite LR, L|].
  exists k'. split; [now rewrite E|]. rewrite LR, L in *. split; [|split].
  - intros i p Hi Pd pa Pa. destruct (P i Hi) as (x & X1 & X2). rewrite (A i pa Hi Pa) in X1.
    exists x, (znth 0 r i). split; [|split; [exact X2|now apply A']]. destruct HO as [-> | ->]; exact X1.
  - intros x p Hx Px. rewrite (B' x p Hx Px), content_vfu. apply C1.
  - eapply same_cells_trans; [apply S1|exact D].
Qed.

(** Sigmoid and tanh (and every other operation that succeeds): the result of the vector unit. *)
Lemma vector_any k op dest r1 r2 vec k' : core_reached c k -> 0 < vec ->
  exec_local c k (CVfu op dest r1 r2 vec) = (Ok tt, k') ->
  exists a b r, zlen a = vec /\ (forall i, 0 <= i < vec -> exists p, place_of c (r1 + i) = Some p /\ znth 0 a i = visible c k p) /\
    match r2, b with
    | Some r2, Some b => zlen b = vec /\ forall i, 0 <= i < vec -> exists p, place_of c (r2 + i) = Some p /\ znth 0 b i = visible c k p
    | None, None => True
    | _, _ => False
    end /\
    vfu_calculate (k_vfu c) (co_vfu k) op a b = (Ok r, co_vfu k') /\ stored c k k' dest (zlen r) (fun i v => is_int32_of v (znth 0 r i)).
Proof.
  intros R Hv E0.
  assert (RD : forall k0 s v k1, core_reached c k0 -> read_from_register c k0 s vec = (Ok v, k1) -> readable c s vec).
  { intros k0 s v k1 R0 E. destruct (read_cases cfg ww c OK k0 s vec (reached_inv _ _ R0) Hv) as [(H & _)|[(H & _)|(H & W)]]; [now left|now right|congruence]. }
  assert (H1 : readable c r1 vec).
  { cbn [exec_local] in E0. unfold exec_vfu in E0. destruct (read_from_register c k r1 vec) as [[v|e] k1] eqn:E; [|discriminate]. exact (RD _ _ _ _ R E). }
  assert (H2 : forall r, r2 = Some r -> readable c r vec).
  { intros r ->. cbn [exec_local] in E0. unfold exec_vfu in E0. pose proof (reached_snoc c k (KRead r1 vec) R) as R1. cbn [core_step] in R1.
    destruct (read_from_register c k r1 vec) as [[v|e] k1] eqn:E; [|discriminate]. cbn [snd] in R1.
    destruct (read_from_register c k1 r vec) as [[v2|e] k2] eqn:E2; [|discriminate]. exact (RD _ _ _ _ R1 E2). }
  destruct (vfu_good k op dest r1 r2 vec R Hv H1 H2) as (a & b & k1 & L & A32 & A & B & R1 & C1 & S1 & E).
  rewrite E in E0. destruct (vfu_calculate (k_vfu c) (co_vfu k) op a b) as [[r|e] s] eqn:V; [|discriminate].
  assert (RV : core_reached c (set_vfu k1 s)).
  { pose proof (vfu_reached k1 op a b R1) as Q. replace (co_vfu k1) with (co_vfu k) in Q by (apply S1). now rewrite V in Q. }
  destruct (write_changes cfg ww c (set_vfu k1 s) dest r k' OK RV E0) as (P & Q & S).
  exists a, b, r. split; [exact L|]. split.
  { intros i Hi. destruct (readable_place r1 vec i H1 Hi) as [p Pp]. exists p. split; [exact Pp|now apply A]. }
  split.
  { destruct r2 as [r2|], b as [b|]; try exact B. destruct B as (LB & _ & B). split; [exact LB|]. intros i Hi.
    destruct (readable_place r2 vec i (H2 _ eq_refl) Hi) as [p Pp]. exists p. split; [exact Pp|now apply B]. }
  split.
  { destruct S as [S _]. cbn in S. now rewrite <- S. }
  split; [|split].
  - intros i p Hi Pp. replace i with (dest + i - dest) at 1 by lia. apply P; [lia|exact Pp].
  - intros x p Hx Px. rewrite (Q x p Hx Px), content_vfu. apply C1.
  - eapply same_cells_trans; [apply S1|]. destruct S as [_ S]. cbn in S. exact S.
Qed.
End Instr.
