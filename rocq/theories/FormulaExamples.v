(** Example for the rounding of the report. *)
From Flocq Require Import IEEE754.BinarySingleNaN.
From Coq Require Import QArith Qcanon Reals Qreals String Lia.
From Verif Require Import PyBase PyLemmas FloatModel MvmuModel CoreModel RouterModel SystemModel SystemExamples NodeModel NodeExamples AnalogProofs StatsModel ReportModel ReportSpec ReportExamples FormulaSpec FormulaRound.
Open Scope Z_scope.

(** The parameters of [sampled] in float64. *)
Definition sampled_float : rcfg float_num := MkRcfg (A := float_num) (fun p => Some (f_of_Z (Qnum (sample p)))) 1 4 three.
Lemma sampled_same : same_config sampled_float (sampled three).
Proof.
  split; [|repeat split]. intros p. cbn [g_param sampled_float sampled]. assert (H : exists z, sample p = rational z /\ Qnum (sample p) = z /\ Z.abs z <= 2 ^ 53) by (destruct p; eexists; (split; [reflexivity|]); (split; [vm_compute; reflexivity|lia])).
  destruct H as (z & E & N & B). rewrite N, E, real_int. now apply f_of_Z_correct.
Qed.
Definition moderate_b (q : Qc) : bool := Qeq_bool q 0 || (Qle_bool (/ inject_Z (2 ^ 800)) q && Qle_bool q (inject_Z (2 ^ 800))).
Fixpoint ordinary_b (v : param -> Qc) (f : formula) : bool :=
  match f with
  | XPar p => Qle_bool 0 (v p)
  | XInt z => (0 <=? z) && (z <=? 2 ^ 53)
  | XSum a b | XProd a b => ordinary_b v a && ordinary_b v b && moderate_b (value (A := exact_num) v f)
  | XQuot a b => ordinary_b v a && ordinary_b v b && moderate_b (value (A := exact_num) v f) && negb (Qle_bool (value (A := exact_num) v b) 0)
  end.
Lemma moderate_true q : moderate_b q = true -> moderate_q q.
Proof. unfold moderate_b. intros H. apply orb_true_iff in H as [H|H]; [left; now apply Qeq_bool_eq|right]. apply andb_true_iff in H as (A & B). split; now apply Qle_bool_iff. Qed.
Lemma ordinary_true v f : ordinary_b v f = true -> ordinary v f.
Proof.
  induction f as [p|z|a IHa b IHb|a IHa b IHb|a IHa b IHb]; cbn [ordinary_b ordinary]; intros H.
  - now apply Qle_bool_iff.
  - lia.
  - apply andb_true_iff in H as (H & M). apply andb_true_iff in H as (A & B). split; [now apply IHa|]. split; [now apply IHb|now apply moderate_true].
  - apply andb_true_iff in H as (H & M). apply andb_true_iff in H as (A & B). split; [now apply IHa|]. split; [now apply IHb|now apply moderate_true].
  - apply andb_true_iff in H as (H & P). apply andb_true_iff in H as (H & M). apply andb_true_iff in H as (A & B). split; [now apply IHa|]. split; [now apply IHb|]. split; [now apply moderate_true|].
    apply Qnot_le_lt. intros L. apply Qle_bool_iff in L. rewrite L in P. discriminate P.
Qed.
(** All numbers of the report are ordinary. *)
Definition all_ordinary (v : param -> Qc) (o : res sdict * heap formula_num) : bool :=
  match o with
  | (Ok d, h) => forallb (fun kv : string * nat => let s := deref h (snd kv) in ordinary_b v (s_dyn s) && ordinary_b v (s_leak s) && ordinary_b v (s_area s)) d
  | _ => false
  end.
Lemma report_ordinary : all_ordinary (worth (sampled three)) (sim_report (named (sampled three)) [(mvm_job, mvm_end)] []) = true.
Proof. vm_compute. reflexivity. Qed.
Definition few (m c : nat) (l : list cproc) : bool := (List.length l <=? c)%nat && forallb (fun k => (List.length (co_mvmus (cp_core k)) <=? m)%nat) l.
Lemma few_true m c l : few m c l = true -> (List.length l <= c)%nat /\ Forall (fun k => (List.length (co_mvmus (cp_core k)) <= m)%nat) l.
Proof. unfold few. intros B. apply andb_true_iff in B as (B1 & B2). split; [now apply Nat.leb_le|]. rewrite Forall_forall. rewrite forallb_forall in B2. intros k Ik. now apply Nat.leb_le, B2. Qed.
Lemma mvm_few : forallb (fun i => few 2 1 (t_cores (s_tile (nd_sys mvm_end) i))) [0; 1; 2] = true.
Proof. vm_compute. reflexivity. Qed.
Lemma mvm_at_most : at_most 3 2 1 [(mvm_job, mvm_end)].
Proof.
  apply Forall_cons; [|apply Forall_nil]. intros i I. apply few_true. cbn [snd]. pose proof mvm_few as F. rewrite forallb_forall in F. apply (F i). cbn [In]. lia.
Qed.
Lemma sampled_usual p : usual (worth (sampled three) p).
Proof. right. split; apply Qle_bool_iff; destruct p; vm_compute; reflexivity. Qed.
Fixpoint countable_b (f : formula) : bool :=
  match f with
  | XPar _ => true
  | XInt z => (0 <=? z) && (z <=? 2 ^ 53)
  | XSum a b | XProd a b => countable_b a && countable_b b
  | XQuot a b => countable_b a && match b with XInt z => (0 <? z) && (z <=? 2 ^ 53) | _ => false end
  end.
Lemma countable_true f : countable_b f = true <-> countable f.
Proof.
  induction f as [p|z|a IHa b IHb|a IHa b IHb|a IHa b IHb]; cbn [countable_b countable]; [tauto|lia|rewrite andb_true_iff; tauto|rewrite andb_true_iff; tauto|].
  rewrite andb_true_iff, IHa. destruct b; [intuition discriminate|intuition lia|intuition discriminate..].
Qed.
(** The names of a report of which a formula has a count that is too large. *)
Definition uncountable (o : res sdict * heap formula_num) : list string :=
  match o with
  | (Ok d, h) => map fst (filter (fun kv : string * nat => let s := deref h (snd kv) in negb (countable_b (s_dyn s) && countable_b (s_leak s) && countable_b (s_area s))) d)
  | _ => ["raises"%string]
  end.
