(** Lemmas about the pipeline of a core. *)
From Verif Require Import PyBase PyLemmas PipelineModel PipelineSpec.
From Coq Require Import ZifyBool ZifyNat.
Open Scope Z_scope.

Section Proofs.
Context {op : Type} (hlt : op -> bool).
Variable c : plat.

Definition hold (s : stage op) : list op := match s with SWork x _ | SPut x _ => [x] | _ => [] end.
Definition olist (o : option op) : list op := match o with Some x => [x] | None => [] end.
Definition no_hlt (l : list op) : Prop := Forall (fun x => hlt x = false) l.
Definition st_ok (s : stage op) (q : list op) : Prop :=
  match s with
  | SDone => exists l h, q = l ++ [h] /\ no_hlt l /\ hlt h = true
  | _ => no_hlt q
  end.

Definition q3 (p : pipe op) := p_finished p.
Definition q2 (p : pipe op) := p_finished p ++ hold (p_e p) ++ olist (p_b2 p).
Definition q1 (p : pipe op) := q2 p ++ hold (p_d p) ++ olist (p_b1 p).

Record pinv (prog : list op) (p : pipe op) : Prop := {
  v_all : q1 p ++ hold (p_f p) ++ p_in p = prog;
  v_started : p_started p = p_finished p ++ hold (p_e p);
  v_f : st_ok (p_f p) (q1 p);
  v_d : st_ok (p_d p) (q2 p);
  v_e : st_ok (p_e p) (q3 p);
  v_eput : forall x t, p_e p <> SPut x t;
  v_active : p_active p <> None -> p_f p = SDone /\ p_d p = SDone /\ p_e p = SDone
}.

Lemma st_ok_after x q : no_hlt q -> st_ok (after hlt x) (q ++ [x]).
Proof.
  intros N. unfold after. destruct (hlt x) eqn:E; cbn; [exists q, x; auto|].
  apply Forall_app. split; [assumption|]. repeat constructor. assumption.
Qed.

Lemma hold_after x : hold (after hlt x) = [].
Proof. unfold after. now destruct (hlt x). Qed.

Ltac norm := unfold q1, q2, q3 in *; cbn [p_now p_in p_f p_b1 p_d p_b2 p_e p_active p_started p_finished t_fput t_dget t_dput t_eget t_edone hold olist] in *;
  rewrite ?hold_after, ?app_nil_r, <- ?app_assoc in *; cbn [app] in *.

Lemma pinv_step prog a p p' : pinv prog p -> pstep hlt c a p = Some p' -> pinv prog p'.
Proof.
  intros I H. destruct I as [A B F D E X Y]. destruct p as [now inp f b1 d b2 e act st fin l1 l2 l3 l4 l5].
  destruct a; cbn in H.
  - destruct f; try discriminate. destruct inp as [|x rest]; [discriminate|]. injection H as <-. constructor; norm; auto.
    intros N. destruct (Y N) as [? _]. discriminate.
  - destruct f; try discriminate. destruct (now <? _); [discriminate|]. injection H as <-. constructor; norm; auto.
    intros N. destruct (Y N) as [? _]. discriminate.
  - destruct f; try discriminate. destruct b1; [discriminate|]. injection H as <-. constructor; norm; auto.
    + pose proof (st_ok_after x _ F) as G. now rewrite <- !app_assoc in G.
    + intros N. destruct (Y N) as [? _]. discriminate.
  - destruct d; try discriminate. destruct b1; [|discriminate]. injection H as <-. constructor; norm; auto.
    intros N. destruct (Y N) as (_ & ? & _). discriminate.
  - destruct d; try discriminate. destruct (now <? _); [discriminate|]. injection H as <-. constructor; norm; auto.
    intros N. destruct (Y N) as (_ & ? & _). discriminate.
  - destruct d; try discriminate. destruct b2; [discriminate|]. injection H as <-. constructor; norm; auto.
    + pose proof (st_ok_after x _ D) as G. now rewrite <- !app_assoc in G.
    + intros N. destruct (Y N) as (_ & ? & _). discriminate.
  - destruct e; try discriminate. destruct b2; [|discriminate]. injection H as <-. constructor; norm; auto.
    + now rewrite B.
    + intros; discriminate.
    + intros N. destruct (Y N) as (_ & _ & ?). discriminate.
  - destruct e; try discriminate. destruct (now <? _); [discriminate|]. injection H as <-. constructor; norm; auto.
    + pose proof (st_ok_after x _ E) as G. exact G.
    + intros y t. unfold after. now destruct (hlt x).
    + intros N. destruct (Y N) as (_ & _ & ?). discriminate.
  - destruct f; try discriminate. destruct d; try discriminate. destruct e; try discriminate. destruct act; [discriminate|].
    injection H as <-. constructor; norm; auto.
  - injection H as <-. constructor; norm; auto.
Qed.

Lemma preach_inv prog p : preach hlt c prog p -> pinv prog p.
Proof.
  intros R. induction R as [|a p p' R IH H]; [|now apply (pinv_step prog a p p')].
  constructor; cbn; auto; try constructor; intros; try discriminate; congruence.
Qed.

Lemma treach_preach prog p : treach hlt c prog p -> preach hlt c prog p.
Proof. intros R. induction R; econstructor; eassumption. Qed.

Lemma upto_app l m : no_hlt l -> upto_hlt hlt (l ++ m) = l ++ upto_hlt hlt m.
Proof. intros N. induction N as [|x l H N IH]; cbn; [reflexivity|]. now rewrite H, IH. Qed.

Lemma upto_ends l h m : no_hlt l -> hlt h = true -> upto_hlt hlt ((l ++ [h]) ++ m) = l ++ [h].
Proof. intros N H. rewrite <- app_assoc, upto_app by assumption. cbn. now rewrite H. Qed.

Lemma no_hlt_app l m : no_hlt (l ++ m) <-> no_hlt l /\ no_hlt m.
Proof. apply Forall_app. Qed.

Lemma firstn_app_exact {A} (a b : list A) : firstn (length a) (a ++ b) = a.
Proof. rewrite firstn_app, Nat.sub_diag, firstn_all. cbn. apply app_nil_r. Qed.

(** ** C27 *)
Lemma executed_prefix prog p : preach hlt c prog p ->
  prefix (p_started p) (upto_hlt hlt prog) /\
  (p_started p = p_finished p \/ exists x, p_started p = p_finished p ++ [x]).
Proof.
  intros R. destruct (preach_inv _ _ R) as [A B F D E X Y].
  split.
  - exists (length (p_started p)). rewrite B. unfold q1, q2, q3 in *.
    destruct (p_e p) as [|x t|x t|] eqn:EE; cbn [hold] in *; rewrite <- ?app_assoc in A.
    + rewrite app_nil_r. rewrite <- A. cbn [app]. rewrite upto_app by exact E. symmetry. apply firstn_app_exact.
    + rewrite <- A. rewrite upto_app by exact E. cbn [app upto_hlt].
      match goal with |- context [upto_hlt hlt ?m] => set (M := upto_hlt hlt m) end.
      replace (p_finished p ++ (if hlt x then [x] else x :: M)) with ((p_finished p ++ [x]) ++ (if hlt x then [] else M))
        by (rewrite <- app_assoc; now destruct (hlt x)).
      symmetry. apply firstn_app_exact.
    + exfalso. now apply (X x t).
    + destruct E as (l & h & E & N & H). rewrite app_nil_r. rewrite E in *.
      assert (U : upto_hlt hlt prog = l ++ [h]) by (rewrite <- A; rewrite <- app_assoc; rewrite upto_app by exact N; cbn; now rewrite H).
      rewrite U. symmetry. apply firstn_all.
  - rewrite B. destruct (p_e p); cbn [hold]; [left; apply app_nil_r|right; eexists; reflexivity|right; eexists; reflexivity|left; apply app_nil_r].
Qed.

Lemma complete_all prog p t : preach hlt c prog p -> p_active p = Some t ->
  p_finished p = upto_hlt hlt prog /\ existsb hlt prog = true.
Proof.
  intros R T. destruct (preach_inv _ _ R) as [A B F D E X Y].
  destruct Y as (E1 & E2 & E3); [congruence|]. rewrite E3 in E. destruct E as (l & h & E & N & H).
  unfold q3 in E. rewrite E. unfold q1, q2 in A. rewrite E, <- !app_assoc in A. split.
  - rewrite <- A, upto_app by exact N. cbn. now rewrite H.
  - rewrite <- A. rewrite existsb_app. cbn. rewrite H. cbn. apply orb_true_r.
Qed.

(** ** C28 *)
Lemma no_hlt_never_completes prog p : preach hlt c prog p -> existsb hlt prog = false -> p_active p = None.
Proof.
  intros R N. destruct (p_active p) as [t|] eqn:T; [|reflexivity]. destruct (complete_all _ _ _ R T) as [_ H]. congruence.
Qed.

Lemma no_hlt_existsb l : no_hlt l -> existsb hlt l = false.
Proof. intros N. induction N as [|x l H N IH]; cbn; [reflexivity|now rewrite H]. Qed.

Lemma never_stuck prog p : preach hlt c prog p -> existsb hlt prog = true -> p_active p = None ->
  exists n b p', 0 <= n /\ b <> PTick /\ pstep hlt c b (later n p) = Some p'.
Proof.
  intros R HL NA. destruct (preach_inv _ _ R) as [A B F D E X Y].
  destruct p as [now inp f b1 d b2 e act st fin l1 l2 l3 l4 l5]. cbn in *. subst act. unfold q1, q2, q3 in *. cbn in *.
  destruct e as [|x t|x t|].
  - destruct b2 as [y|]; [exists 0, PEGet; eexists; repeat split; try discriminate; lia|]. cbn in *.
    destruct d as [|x t|x t|].
    + destruct b1 as [y|]; [exists 0, PDGet; eexists; repeat split; try discriminate; lia|]. cbn in *.
      destruct f as [|x t|x t|].
      * destruct inp as [|y inp]; [|exists 0, PFGet; eexists; repeat split; try discriminate; lia].
        exfalso. rewrite !app_nil_r in A. subst prog. apply no_hlt_existsb in E. congruence.
      * exists (Z.max 0 (t + l_fetch c - now)), PFWork. cbn. replace (_ <? _) with false by lia.
        eexists. repeat split; try discriminate; try lia.
      * exists 0, PFPut. eexists. repeat split; try discriminate; try lia.
      * exfalso. destruct F as (l & h & F & N & H). rewrite !app_nil_r in F. rewrite F in E. apply no_hlt_app in E.
        destruct E as [_ E]. inversion E. congruence.
    + exists (Z.max 0 (t + l_decode c - now)), PDWork. cbn. replace (_ <? _) with false by lia.
      eexists. repeat split; try discriminate; try lia.
    + exists 0, PDPut. eexists. repeat split; try discriminate; try lia.
    + exfalso. destruct D as (l & h & D & N & H). rewrite !app_nil_r in D. rewrite D in E. apply no_hlt_app in E.
      destruct E as [_ E]. inversion E. congruence.
  - exists (Z.max 0 (t + l_exec c (length fin) - now)), PEWork. cbn. replace (_ <? _) with false by lia.
    eexists. repeat split; try discriminate; try lia.
  - exfalso. now apply (X x t).
  - destruct E as (l & h & E & N & H).
    assert (CON : forall q, no_hlt (fin ++ q) -> False).
    { intros q Q. rewrite E in Q. apply no_hlt_app in Q. destruct Q as [Q _]. apply no_hlt_app in Q. destruct Q as [_ Q]. inversion Q. congruence. }
    destruct d; try (exfalso; exact (CON _ D)). cbn in *. rewrite <- !app_assoc in F.
    destruct f; try (exfalso; exact (CON _ F)).
    exists 0, PComplete. eexists. repeat split; try discriminate; try lia.
Qed.

(** Steps still to be made. *)
Definition stage_weight (w : Z) (s : stage op) : Z := match s with SWork _ _ => w | SPut _ _ => w - 1 | _ => 0 end.
Definition pweight (p : pipe op) : Z :=
  8 * zlen (p_in p) + stage_weight 7 (p_f p) + 5 * zlen (olist (p_b1 p)) + stage_weight 4 (p_d p)
  + 2 * zlen (olist (p_b2 p)) + stage_weight 1 (p_e p) + match p_active p with None => 1 | Some _ => 0 end.

Lemma stage_weight_after w x : stage_weight w (after hlt x) = 0.
Proof. unfold after. now destruct (hlt x). Qed.

Lemma weight_decreases prog a p p' : preach hlt c prog p -> a <> PTick -> pstep hlt c a p = Some p' -> pweight p' = pweight p - 1.
Proof.
  intros R NT H. pose proof (preach_inv _ _ R) as I. destruct I as [_ _ _ _ _ X _].
  destruct p as [now inp f b1 d b2 e act st fin l1 l2 l3 l4 l5]. unfold pweight. cbn in X.
  destruct a; cbn in H; try congruence.
  - destruct f; try discriminate. destruct inp as [|x rest]; [discriminate|]. injection H as <-. cbn -[Z.mul]. unfold zlen. cbn [length]. lia.
  - destruct f; try discriminate. destruct (now <? _); [discriminate|]. injection H as <-. cbn -[Z.mul]. lia.
  - destruct f; try discriminate. destruct b1; [discriminate|]. injection H as <-. cbn -[Z.mul]. rewrite stage_weight_after. cbn. lia.
  - destruct d; try discriminate. destruct b1; [|discriminate]. injection H as <-. cbn. lia.
  - destruct d; try discriminate. destruct (now <? _); [discriminate|]. injection H as <-. cbn. lia.
  - destruct d; try discriminate. destruct b2; [discriminate|]. injection H as <-. cbn -[Z.mul]. rewrite stage_weight_after. cbn. lia.
  - destruct e; try discriminate. destruct b2; [|discriminate]. injection H as <-. cbn. lia.
  - destruct e; try discriminate. destruct (now <? _); [discriminate|]. injection H as <-. cbn -[Z.mul]. rewrite stage_weight_after. lia.
  - destruct f; try discriminate. destruct d; try discriminate. destruct e; try discriminate. destruct act; [discriminate|].
    injection H as <-. cbn. lia.
Qed.

Lemma weight_nonneg p : 0 <= pweight p.
Proof.
  unfold pweight. pose proof (zlen_nonneg (p_in p)). pose proof (zlen_nonneg (olist (p_b1 p))). pose proof (zlen_nonneg (olist (p_b2 p))).
  destruct (p_f p), (p_d p), (p_e p), (p_active p); cbn [stage_weight]; lia.
Qed.

Lemma psteps_reach prog n p : psteps hlt c prog n p -> preach hlt c prog p.
Proof. intros R. induction R; econstructor; eassumption. Qed.

Lemma steps_bound prog n p : psteps hlt c prog n p -> Z.of_nat n <= 8 * zlen prog + 1.
Proof.
  intros R. enough (G : Z.of_nat n + pweight p = 8 * zlen prog + 1) by (pose proof (weight_nonneg p); lia).
  induction R as [|n a p p' R IH H NT|n p p' R IH H].
  - unfold pweight. cbn [p_in p_f p_b1 p_d p_b2 p_e p_active pipe_init stage_weight olist]. unfold zlen. cbn [length]. lia.
  - pose proof (weight_decreases prog a p p' (psteps_reach _ _ _ R) NT H). lia.
  - cbn in H. injection H as <-. exact IH.
Qed.
End Proofs.
