(** Timing of the pipeline. *)
From Verif Require Import PyBase PyLemmas PipelineModel PipelineSpec PipelineProofs.
From Coq Require Import ZifyBool ZifyNat.
Open Scope Z_scope.

Section Timing.
Context {op : Type} (hlt : op -> bool).
Variable c : plat.
Hypothesis LF : 0 <= l_fetch c.
Hypothesis LD : 0 <= l_decode c.
Hypothesis LE : forall i, 0 <= l_exec c i.

(** The row after n instructions. *)
Fixpoint row_at (n : nat) : row :=
  match n with
  | O => MkRow 0 0 0 0 0
  | S k => next_row (l_fetch c) (l_decode c) (l_exec c k) (row_at k)
  end.

Definition n1 (p : pipe op) := length (q1 p).                                       (* left fetch *)
Definition n2 (p : pipe op) := length (q2 p ++ hold (p_d p)).                       (* entered decode *)
Definition n3 (p : pipe op) := length (q2 p).                                       (* left decode *)
Definition n4 (p : pipe op) := length (p_finished p ++ hold (p_e p)).               (* entered execute *)
Definition n5 (p : pipe op) := length (p_finished p).                               (* left execute *)

Definition times (f : row -> Z) (n : nat) : list Z := map (fun i => f (row_at (S i))) (seq 0 n).

Lemma times_S f n : times f (S n) = times f n ++ [f (row_at (S n))].
Proof. unfold times. now rewrite seq_S, map_app. Qed.

Record tinv (p : pipe op) : Prop := {
  u_fput : t_fput p = times r_fput (n1 p);
  u_dget : t_dget p = times r_dget (n2 p);
  u_dput : t_dput p = times r_dput (n3 p);
  u_eget : t_eget p = times r_eget (n4 p);
  u_edone : t_edone p = times r_edone (n5 p);
  u_past : 0 <= p_now p /\ r_fput (row_at (n1 p)) <= p_now p /\ r_dget (row_at (n2 p)) <= p_now p /\ r_dput (row_at (n3 p)) <= p_now p /\
           r_eget (row_at (n4 p)) <= p_now p /\ r_edone (row_at (n5 p)) <= p_now p;
  u_f : match p_f p with
        | SGet => p_in p <> [] -> p_now p = r_fput (row_at (n1 p))
        | SWork _ t => t = r_fput (row_at (n1 p)) /\ t <= p_now p <= t + l_fetch c
        | SPut _ t => t = r_fput (row_at (n1 p)) + l_fetch c /\ t <= p_now p /\
                      (p_b1 p = None -> p_now p = r_fput (row_at (S (n1 p))))
        | SDone => True
        end;
  u_d : match p_d p with
        | SGet => p_b1 p <> None -> p_now p = r_dget (row_at (S (n2 p)))
        | SWork _ t => t = r_dget (row_at (n2 p)) /\ t <= p_now p <= t + l_decode c
        | SPut _ t => t = r_dget (row_at (n2 p)) + l_decode c /\ t <= p_now p /\
                      (p_b2 p = None -> p_now p = r_dput (row_at (n2 p)))
        | SDone => True
        end;
  u_e : match p_e p with
        | SGet => p_b2 p <> None -> p_now p = r_eget (row_at (S (n4 p)))
        | SWork _ t => t = r_eget (row_at (n4 p)) /\ t <= p_now p <= t + l_exec c (n5 p)
        | SPut _ _ => False
        | SDone => p_active p = None -> p_now p = r_edone (row_at (n5 p))
        end;
  u_active : forall t, p_active p = Some t -> t = r_edone (row_at (n5 p))
}.

Lemma fS n : r_fput (row_at (S n)) = Z.max (r_fput (row_at n) + l_fetch c) (r_dget (row_at n)).
Proof. reflexivity. Qed.
Lemma gS n : r_dget (row_at (S n)) = Z.max (r_fput (row_at (S n))) (r_dput (row_at n)).
Proof. reflexivity. Qed.
Lemma dS n : r_dput (row_at (S n)) = Z.max (r_dget (row_at (S n)) + l_decode c) (r_eget (row_at n)).
Proof. reflexivity. Qed.
Lemma eS n : r_eget (row_at (S n)) = Z.max (r_dput (row_at (S n))) (r_edone (row_at n)).
Proof. reflexivity. Qed.
Lemma xS n : r_edone (row_at (S n)) = r_eget (row_at (S n)) + l_exec c n.
Proof. reflexivity. Qed.

Ltac lens := unfold n1, n2, n3, n4, n5, q1, q2 in *;
  cbn [p_now p_in p_f p_b1 p_d p_b2 p_e p_active p_started p_finished t_fput t_dget t_dput t_eget t_edone hold olist] in *;
  rewrite ?hold_after, ?app_length in *; cbn [length] in *; rewrite ?Nat.add_0_r, ?Nat.add_0_l in *.
Lemma tinv_init prog : tinv (pipe_init prog).
Proof. constructor; cbn; auto; try lia; intros; try congruence. Qed.

Opaque row_at.
Definition cnt (o : option op) : nat := match o with Some _ => 1 | None => 0 end.
Definition busy (s : stage op) : nat := match s with SWork _ _ | SPut _ _ => 1 | _ => 0 end.
Lemma counts p : (n1 p + 0 = n2 p + cnt (p_b1 p))%nat /\ (n2 p + 0 = n3 p + busy (p_d p))%nat /\
  (n3 p + 0 = n4 p + cnt (p_b2 p))%nat /\ (n4 p + 0 = n5 p + busy (p_e p))%nat.
Proof.
  unfold n1, n2, n3, n4, n5, q1, q2. rewrite !app_length.
  destruct (p_b1 p), (p_b2 p), (p_d p), (p_e p); cbn; lia.
Qed.

Lemma done_all prog p : preach hlt c prog p -> p_e p = SDone -> p_f p = SDone /\ p_d p = SDone.
Proof.
  intros R H. destruct (preach_inv hlt c _ _ R) as [A B F D E X Y]. rewrite H in E. destruct E as (l & h & E & N & HH).
  assert (CON : forall q, no_hlt hlt (p_finished p ++ q) -> False).
  { intros q Q. unfold q3 in E. rewrite E in Q. apply no_hlt_app in Q. destruct Q as [Q _]. apply no_hlt_app in Q. destruct Q as [_ Q]. inversion Q. congruence. }
  unfold q1, q2 in *. rewrite <- !app_assoc in *.
  split; [destruct (p_f p)|destruct (p_d p)]; auto; exfalso; eapply CON; first [exact F|exact D].
Qed.

Definition urgent (a : pact) (p : pipe op) : Prop := a = PTick -> forall b, b <> PTick -> pstep hlt c b p = None.

Ltac sp := cbn [p_now p_in p_f p_b1 p_d p_b2 p_e p_active p_started p_finished t_fput t_dget t_dput t_eget t_edone] in *.
Ltac cnts K1 K2 K3 K4 K5 k1 k2 k3 k4 k5 := match goal with |- tinv ?q =>
  let N1 := fresh in let N2 := fresh in let N3 := fresh in let N4 := fresh in let N5 := fresh in
  assert (N1 : n1 q = k1) by (revert K1 K2 K3 K4 K5; clear; intros; lens; lia); assert (N2 : n2 q = k2) by (revert K1 K2 K3 K4 K5; clear; intros; lens; lia); assert (N3 : n3 q = k3) by (revert K1 K2 K3 K4 K5; clear; intros; lens; lia);
  assert (N4 : n4 q = k4) by (revert K1 K2 K3 K4 K5; clear; intros; lens; lia); assert (N5 : n5 q = k5) by (revert K1 K2 K3 K4 K5; clear; intros; lens; lia);
  constructor; rewrite ?N1, ?N2, ?N3, ?N4, ?N5; clear N1 N2 N3 N4 N5; clear K1 K2 K3 K4 K5; sp end.

Lemma tinv_step prog a p p' : preach hlt c prog p -> tinv p -> pstep hlt c a p = Some p' -> urgent a p -> tinv p'.
Proof.
  intros R I H U. pose proof (counts p) as CT. pose proof (done_all prog p R) as DA.
  destruct I as [I1 I2 I3 I4 I5 (P0 & P1 & P2 & P3 & P4 & P5) UF UD UE UA].
  remember (n1 p) as k1 eqn:K1. remember (n2 p) as k2 eqn:K2. remember (n3 p) as k3 eqn:K3. remember (n4 p) as k4 eqn:K4. remember (n5 p) as k5 eqn:K5.
  destruct CT as (C1 & C2 & C3 & C4).
  assert (K1' : (k1 + 0 = n1 p + 0)%nat) by lia. assert (K2' : (k2 + 0 = n2 p + 0)%nat) by lia. assert (K3' : (k3 + 0 = n3 p + 0)%nat) by lia.
  assert (K4' : (k4 + 0 = n4 p + 0)%nat) by lia. assert (K5' : (k5 + 0 = n5 p + 0)%nat) by lia.
  clear K1 K2 K3 K4 K5. rename K1' into K1, K2' into K2, K3' into K3, K4' into K4, K5' into K5.
  destruct p as [now inp f b1 d b2 e act st fin l1 l2 l3 l4 l5].
  destruct a; cbn [pstep] in H; sp.
  - destruct f; try discriminate. destruct inp as [|x rest]; [discriminate|]. injection H as <-.
    cnts K1 K2 K3 K4 K5 k1 k2 k3 k4 k5; auto 10.
    assert (now = r_fput (row_at k1)) by (apply UF; discriminate). lia.
  - destruct f; try discriminate. destruct (now <? _) eqn:T; [discriminate|]. injection H as <-.
    cnts K1 K2 K3 K4 K5 k1 k2 k3 k4 k5; auto 10. split; [lia|]. split; [lia|]. intros ->. cbn in C1. assert (k1 = k2) by lia. 
    subst k2. rewrite fS. lia.
  - destruct f; try discriminate. destruct b1; [discriminate|]. injection H as <-. cbn [cnt] in C1. assert (k2 = k1) by lia. subst k2.
    destruct UF as (UF1 & UF2 & UF3). specialize (UF3 eq_refl).
    cnts K1 K2 K3 K4 K5 (S k1) k1 k3 k4 k5; auto 10.
    + rewrite times_S, I1. now rewrite UF3.
    + rewrite <- UF3. repeat split; auto; lia.
    + unfold after. destruct (hlt x); auto.
    + destruct d; auto. intros _. cbn in C2. assert (k3 = k1) by lia. subst k3. rewrite gS. lia.
  - destruct d; try discriminate. destruct b1 as [x|]; [|discriminate]. injection H as <-.
    assert (UD1 : now = r_dget (row_at (S k2))) by (apply UD; discriminate). cbn in C1. assert (k1 = S k2) by lia. subst k1.
    cnts K1 K2 K3 K4 K5 (S k2) (S k2) k3 k4 k5; auto 10.
    + rewrite times_S, I2. now rewrite UD1.
    + rewrite <- UD1. repeat split; auto; lia.
    + destruct f; auto. destruct UF as (UF1 & UF2 & _). split; [assumption|]. split; [assumption|]. intros _.
      rewrite fS. lia.
    + lia.
  - destruct d; try discriminate. destruct (now <? _) eqn:T; [discriminate|]. injection H as <-.
    cnts K1 K2 K3 K4 K5 k1 k2 k3 k4 k5; auto 10. split; [lia|]. split; [lia|]. intros ->. cbn in C2, C3. assert (k2 = S k3) by lia. assert (k4 = k3) by lia. subst.
    destruct UD as [UD1 UD2]. rewrite dS. lia.
  - destruct d; try discriminate. destruct b2; [discriminate|]. injection H as <-. cbn in C2, C3. assert (k2 = S k3) by lia. assert (k4 = k3) by lia.
    destruct UD as (UD1 & UD2 & UD3). specialize (UD3 eq_refl). subst k2 k4.
    cnts K1 K2 K3 K4 K5 k1 (S k3) (S k3) k3 k5; auto 10.
    + rewrite times_S, I3. now rewrite UD3.
    + rewrite <- UD3. repeat split; auto; lia.
    + unfold after. destruct (hlt x); auto. intros B. destruct b1; [|congruence]. cbn in C1. assert (k1 = S (S k3)) by lia. subst k1.
      rewrite gS, <- UD3. lia.
    + destruct e; auto. intros _. cbn in C4. assert (k5 = k3) by lia. subst k5. rewrite eS. lia.
  - destruct e; try discriminate. destruct b2 as [x|]; [|discriminate]. injection H as <-.
    assert (UE1 : now = r_eget (row_at (S k4))) by (apply UE; discriminate). cbn in C3. assert (k3 = S k4) by lia. subst k3.
    cnts K1 K2 K3 K4 K5 k1 k2 (S k4) (S k4) k5; auto 10.
    + rewrite times_S, I4. now rewrite UE1.
    + rewrite <- UE1. repeat split; auto; lia.
    + destruct d; auto. destruct UD as (UD1 & UD2 & _). split; [assumption|]. split; [assumption|]. intros _.
      cbn in C2. assert (k2 = S (S k4)) by lia. subst k2. rewrite dS. lia.
    + pose proof (LE k5). lia.
  - destruct e; try discriminate. destruct (now <? _) eqn:T; [discriminate|]. injection H as <-. cbn in C4. assert (k4 = S k5) by lia. subst k4.
    destruct UE as [UE1 UE2]. assert (FL : length fin = k5) by (unfold n5 in K5; cbn [p_finished] in K5; lia). rewrite FL in T.
    assert (X : now = r_edone (row_at (S k5))) by (rewrite xS; lia).
    cnts K1 K2 K3 K4 K5 k1 k2 k3 (S k5) (S k5); auto 10.
    + rewrite times_S, I5. now rewrite <- X.
    + rewrite <- X. repeat split; auto; lia.
    + unfold after. destruct (hlt x); auto. intros B. destruct b2; [|congruence]. cbn in C3. assert (k3 = S (S k5)) by lia. subst k3.
      rewrite eS, <- X. lia.
    + intros t A. exfalso. destruct (preach_inv hlt c _ _ R) as [_ _ _ _ _ _ Y]. sp. destruct Y as (_ & _ & Y); congruence.
  - destruct f; try discriminate. destruct d; try discriminate. destruct e; try discriminate. destruct act; [discriminate|].
    injection H as <-. cnts K1 K2 K3 K4 K5 k1 k2 k3 k4 k5; auto 10; try (intros ? [= <-]; auto).
  - injection H as <-. specialize (U eq_refl). assert (FL : length fin = k5) by (unfold n5 in K5; cbn [p_finished] in K5; lia). cnts K1 K2 K3 K4 K5 k1 k2 k3 k4 k5; auto 10.
    + repeat split; lia.
    + pose proof (U PFGet ltac:(discriminate)) as V1. pose proof (U PFWork ltac:(discriminate)) as V2. pose proof (U PFPut ltac:(discriminate)) as V3.
      cbn in V1, V2, V3. destruct f; auto.
      * destruct inp; [congruence|discriminate].
      * destruct (now <? _) eqn:T; [lia|discriminate].
      * destruct b1; [|discriminate]. destruct UF as (UF1 & UF2 & UF3). split; [assumption|]. split; [lia|]. discriminate.
    + pose proof (U PDGet ltac:(discriminate)) as V1. pose proof (U PDWork ltac:(discriminate)) as V2. pose proof (U PDPut ltac:(discriminate)) as V3.
      cbn in V1, V2, V3. destruct d; auto.
      * destruct b1; [discriminate|congruence].
      * destruct (now <? _) eqn:T; [lia|discriminate].
      * destruct b2; [|discriminate]. destruct UD as (UD1 & UD2 & UD3). split; [assumption|]. split; [lia|]. discriminate.
    + pose proof (U PEGet ltac:(discriminate)) as V1. pose proof (U PEWork ltac:(discriminate)) as V2. pose proof (U PComplete ltac:(discriminate)) as V3.
      cbn in V1, V2, V3. destruct e; auto.
      * destruct b2; [discriminate|congruence].
      * rewrite FL in V2. destruct (now <? _) eqn:T; [lia|discriminate].
      * destruct (DA eq_refl) as [-> ->]. destruct act; [discriminate|discriminate].
Qed.

Lemma treach_inv prog p : treach hlt c prog p -> tinv p.
Proof.
  intros R. induction R as [|a p p' R IH H U]; [apply tinv_init|].
  exact (tinv_step prog a p p' (treach_preach hlt c _ _ R) IH H U).
Qed.

Transparent row_at.
(** ** The rows of the specification *)
Lemma rows_at : forall n i, rows c i (row_at i) n = map (fun j => row_at (S j)) (seq i n).
Proof.
  induction n as [|n IH]; intros i; cbn [rows seq map]; [reflexivity|]. cbn zeta. f_equal.
  change (next_row (l_fetch c) (l_decode c) (l_exec c i) (row_at i)) with (row_at (S i)). apply IH.
Qed.

Lemma schedule_at prog : schedule hlt c prog = map (fun j => row_at (S j)) (seq 0 (length (upto_hlt hlt prog))).
Proof. unfold schedule. exact (rows_at _ 0). Qed.

Lemma firstn_seq : forall n k i, (k <= n)%nat -> firstn k (seq i n) = seq i k.
Proof. induction n as [|n IH]; intros [|k] i H; cbn; try reflexivity; [lia|]. f_equal. apply IH. lia. Qed.

Lemma times_prefix f k prog : (k <= length (upto_hlt hlt prog))%nat -> times f k = firstn k (map f (schedule hlt c prog)).
Proof.
  intros H. rewrite schedule_at, map_map. unfold times. rewrite firstn_map, firstn_seq by assumption. reflexivity.
Qed.

Lemma prefix_length {A} (a b : list A) : prefix a b -> (length a <= length b)%nat.
Proof. intros [k ->]. rewrite firstn_length. lia. Qed.

(** What left the fetch stage lies before the end of the program's prefix. *)
Lemma left_fetch prog p : preach hlt c prog p -> (n1 p <= length (upto_hlt hlt prog))%nat.
Proof.
  intros R. destruct (preach_inv hlt c _ _ R) as [A B F D E X Y]. unfold n1. rewrite <- A.
  destruct (p_f p); cbn [st_ok] in F.
  1-3: rewrite upto_app by exact F; rewrite app_length; lia.
  destruct F as (l & h & F & N & H). rewrite F, upto_ends by assumption. lia.
Qed.

Lemma length_times f n : length (times f n) = n.
Proof. unfold times. now rewrite map_length, seq_length. Qed.

Lemma timing prog p : treach hlt c prog p ->
  t_edone p = firstn (length (p_finished p)) (map r_edone (schedule hlt c prog)) /\
  t_eget p = firstn (length (p_started p)) (map r_eget (schedule hlt c prog)) /\
  prefix (t_dput p) (map r_dput (schedule hlt c prog)) /\ prefix (t_dget p) (map r_dget (schedule hlt c prog)) /\
  prefix (t_fput p) (map r_fput (schedule hlt c prog)) /\
  (length (p_started p) <= length (t_dput p) <= length (t_dget p))%nat /\ (length (t_dget p) <= length (t_fput p))%nat.
Proof.
  intros R. pose proof (left_fetch prog p (treach_preach hlt c _ _ R)) as L. destruct (counts p) as (C1 & C2 & C3 & C4).
  destruct (treach_inv prog p R) as [I1 I2 I3 I4 I5 _ _ _ _ _].
  assert (S4 : length (p_started p) = n4 p).
  { unfold n4. f_equal. exact (v_started _ _ _ (preach_inv hlt c _ _ (treach_preach hlt c _ _ R))). }
  rewrite S4, I1, I2, I3, I4, I5, !length_times. change (length (p_finished p)) with (n5 p).
  split; [apply times_prefix; lia|]. split; [apply times_prefix; lia|].
  split; [eexists; apply times_prefix; lia|]. split; [eexists; apply times_prefix; lia|]. split; [eexists; apply times_prefix; lia|]. lia.
Qed.

Lemma last_map_seq (f : nat -> Z) n d : last (map f (seq 0 (S n))) d = f n.
Proof. rewrite seq_S, map_app. apply last_last. Qed.

Lemma active_cycles prog p t : treach hlt c prog p -> p_active p = Some t ->
  t = last (map r_edone (schedule hlt c prog)) 0.
Proof.
  intros R A. destruct (treach_inv prog p R) as [_ _ _ _ _ _ _ _ _ UA]. rewrite (UA t A).
  destruct (complete_all hlt c prog p t (treach_preach hlt c _ _ R) A) as [F _]. unfold n5. rewrite F, schedule_at, map_map.
  destruct (length (upto_hlt hlt prog)); [reflexivity|]. now rewrite last_map_seq.
Qed.

(** ** Total time *)
Lemma exec_sum_S n : exec_sum c (S n) = exec_sum c n + l_exec c n.
Proof. unfold exec_sum. rewrite seq_S, map_app, zsum_app. cbn. lia. Qed.

Lemma row_lower n : l_fetch c + l_decode c + exec_sum c (S n) <= r_edone (row_at (S n)).
Proof.
  rewrite xS, exec_sum_S. induction n as [|n IH].
  - rewrite eS, dS, gS, fS. cbn. lia.
  - rewrite eS, exec_sum_S. pose proof (xS n). lia.
Qed.

Lemma row_exact n : (forall i, l_fetch c <= l_exec c i) -> (forall i, l_decode c <= l_exec c i) ->
  r_edone (row_at (S n)) = l_fetch c + l_decode c + exec_sum c (S n).
Proof.
  intros HF HD.
  enough (G : r_eget (row_at (S n)) = l_fetch c + l_decode c + exec_sum c n) by (rewrite xS, exec_sum_S; lia).
  induction n as [|n IH].
  - rewrite eS, dS, gS, fS. cbn. lia.
  - pose proof (HF n). pose proof (HD n). pose proof (LE n). rewrite exec_sum_S.
    pose proof (xS n). pose proof (eS n). pose proof (dS n). pose proof (gS n). pose proof (fS n).
    pose proof (eS (S n)). pose proof (dS (S n)). pose proof (gS (S n)). pose proof (fS (S n)).
    lia.
Qed.

Lemma last_edone prog : upto_hlt hlt prog <> [] ->
  last (map r_edone (schedule hlt c prog)) 0 = r_edone (row_at (length (upto_hlt hlt prog))).
Proof.
  intros N. rewrite schedule_at, map_map. destruct (upto_hlt hlt prog) as [|x l]; [congruence|]. cbn [length]. now rewrite last_map_seq.
Qed.

Lemma upto_nonempty prog : existsb hlt prog = true -> exists n, length (upto_hlt hlt prog) = S n.
Proof. destruct prog as [|x l]; cbn; [discriminate|]. intros _. destruct (hlt x); cbn; eauto. Qed.

Lemma total_time prog p t : treach hlt c prog p -> p_active p = Some t ->
  l_fetch c + l_decode c + exec_sum c (length (upto_hlt hlt prog)) <= t /\
  ((forall i, l_fetch c <= l_exec c i) -> (forall i, l_decode c <= l_exec c i) ->
   t = l_fetch c + l_decode c + exec_sum c (length (upto_hlt hlt prog))).
Proof.
  intros R A. rewrite (active_cycles prog p t R A).
  destruct (complete_all hlt c prog p t (treach_preach hlt c _ _ R) A) as [_ H].
  destruct (upto_nonempty prog H) as [n N]. rewrite last_edone by (intros E; rewrite E in N; discriminate). rewrite N.
  split; [apply row_lower|]. intros. now apply row_exact.
Qed.
End Timing.

(** ** For the examples: instructions are numbers, 0 is hlt *)
Definition is0 (x : Z) : bool := x =? 0.
Definition lat235 : plat := MkLat 2 3 (fun i => match i with 0%nat => 5 | 1%nat => 1 | _ => 4 end).
Definition every : list pact := [PFGet; PFWork; PFPut; PDGet; PDWork; PDPut; PEGet; PEWork; PComplete].
