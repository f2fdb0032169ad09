(** Proofs about the parsing of operations. *)
From Verif Require Import PyBase PyLemmas ConfigModel MemoryModel VfuModel FloatModel MvmuModel CoreModel DramModel RouterModel SystemModel LoaderModel LoaderSpec.
From Coq Require Import Ascii String.
Open Scope Z_scope.

Lemma vop_of_name v : vop_of (vop_name v) vop_names = Some v.
Proof. now destruct v. Qed.
Lemma all_ints_map x zs : reasonable x -> all_ints x (map JInt zs) = Some zs.
Proof. intros (R & _). induction zs as [|z zs IH]; [reflexivity|]. cbn. now rewrite R, IH. Qed.

Section Rules.
Context (x : lax) (R : reasonable x) (l : list (string * json)).
Lemma has_need_int k z : has_field l (k, JInt z) -> need_int x l k = Some z.
Proof. unfold has_field, need_int. cbn. intros ->. apply R. Qed.
Lemma has_need_ints k zs : has_field l (k, JList (map JInt zs)) -> need_ints x l k = Some zs.
Proof. unfold has_field, need_ints. cbn [fst snd]. intros ->. now apply all_ints_map. Qed.
Lemma no_need_int k : field l k = None -> need_int x l k = None.
Proof. unfold need_int. now intros ->. Qed.
Lemma no_need_bool k : field l k = None -> need_bool x l k = None.
Proof. unfold need_bool. now intros ->. Qed.
Lemma no_need_ints k : field l k = None -> need_ints x l k = None.
Proof. unfold need_ints. now intros ->. Qed.

Lemma parse_typed t : has_field l ("type"%string, JStr t) -> parse x (JObj l) = parse_as x l t.
Proof. unfold has_field, parse. cbn. now intros ->. Qed.

Lemma describes_parse o : describes l o -> parse x (JObj l) = Some o.
Proof.
  destruct o as [n t i]. intros (N & T & F & X). cbn [o_node o_tile o_instr] in *.
  assert (NN : match field l "node" with None => Some 0 | Some v => as_int x v end = Some n).
  { destruct N as [N|(N & ->)]; [unfold has_field in N; cbn in N; rewrite N; apply R|now rewrite N]. }
  apply has_need_int in T.
  assert (G : forall ty, has_field l ("type"%string, JStr ty) -> parse_body x ty l = Some i -> parse x (JObj l) = Some (MkOp n t i)).
  { intros ty H B. rewrite (parse_typed ty H). unfold parse_as. now rewrite NN, T, B. }
  clear NN N.
  destruct i as [k [d r w v|d r w v|d im v|d r v|xs|f d r r2 v|]|[a tt w v|a s w v|]]; cbn [fields_of] in F; repeat match goal with H : Forall _ (_ :: _) |- _ => inversion_clear H end;
    (eapply G; [eassumption|]); cbn [parse_body String.eqb Ascii.eqb Bool.eqb];
    repeat match goal with H : has_field l (?k, JInt ?z) |- _ => apply has_need_int in H end;
    repeat match goal with H : need_int x l _ = Some _ |- _ => rewrite H end; try reflexivity.
  - destruct X as (b & X). unfold need_bool. unfold has_field in X. cbn in X. rewrite X. now rewrite (proj1 (proj2 R)).
  - match goal with H : has_field l ("xbar"%string, _) |- _ => apply has_need_ints in H; now rewrite H end.
  - destruct X as (X2 & XI).
    assert (E2 : opt_int x l "read_2" = Some r2).
    { unfold opt_int, has_field in *. cbn [fst snd] in *. destruct r2 as [z|]; [rewrite X2; now rewrite (proj1 R)|]. destruct X2 as [X2|X2]; now rewrite X2. }
    assert (EI : exists q, opt_int x l "imm" = Some q).
    { unfold opt_int, has_field in *. cbn [fst snd] in *. destruct XI as [XI|[XI|(z & XI)]]; rewrite XI; eauto. rewrite (proj1 R). eauto. }
    destruct EI as (q & EI). unfold need_vop.
    match goal with H : has_field l ("opcode"%string, _) |- _ => unfold has_field in H; cbn [fst snd] in H; rewrite H end.
    rewrite vop_of_name. now rewrite E2, EI.
Qed.

Lemma parse_required t f : has_field l ("type"%string, JStr t) -> In f (required t) -> field l f = None -> parse x (JObj l) = None.
Proof.
  intros T I N. rewrite (parse_typed t T). unfold parse_as. destruct (match field l "node" with None => _ | Some v => _ end); [|reflexivity].
  destruct (need_int x l "tile") as [i|] eqn:E; [|reflexivity].
  assert (NT : f <> "tile"%string). { intros ->. unfold need_int in E. now rewrite N in E. }
  assert (G : parse_body x t l = None); [|now rewrite G].
  unfold parse_body. cbv zeta.
  repeat match goal with
  | |- (if String.eqb t ?s then _ else _) = None => destruct (String.eqb_spec t s) as [->|_]
  end; [..|destruct (String.eqb_spec t "halt") as [->|_]; [|reflexivity]];
  cbn [required In] in I; repeat match goal with H : _ \/ _ |- _ => destruct H as [H|H] | H : False |- _ => destruct H end; subst f; try (now elim NT);
  repeat match goal with |- (match ?e with Some _ => _ | None => None end) = None => let Q := fresh "Q" in destruct e eqn:Q; [|reflexivity] end;
  exfalso; unfold need_int, need_bool, need_ints, need_vop in *; rewrite N in *; discriminate.
Qed.
Lemma parse_unknown t : has_field l ("type"%string, JStr t) -> ~ In t op_types -> parse x (JObj l) = None.
Proof.
  intros T N. rewrite (parse_typed t T). unfold parse_as. destruct (match field l "node" with None => _ | Some v => _ end); [|reflexivity].
  destruct (need_int x l "tile") as [i|] eqn:E; [|reflexivity].
  assert (G : parse_body x t l = None); [|now rewrite G].
  unfold parse_body.
  repeat match goal with
  | |- (if String.eqb t ?s then _ else _) = None => destruct (String.eqb_spec t s) as [->|_]; [elim N; cbn; tauto|]
  end. reflexivity.
Qed.
Lemma parse_untyped v : field l "type" = Some v -> (forall t, v <> JStr t) -> parse x (JObj l) = None.
Proof. unfold parse. intros -> N. destruct v; try reflexivity. now elim (N s). Qed.
(** An operation that is accepted says so in its fields. *)
Lemma parse_fields t o : has_field l ("type"%string, JStr t) -> parse x (JObj l) = Some o ->
  In t op_types /\ (forall f, In f (required t) -> field l f <> None).
Proof.
  intros T P. split.
  - destruct (in_dec string_dec t op_types) as [Y|Y]; [exact Y|]. now rewrite (parse_unknown t T Y) in P.
  - intros f F N. now rewrite (parse_required t f T F N) in P.
Qed.
End Rules.

(** Without a type: what fits. *)
Lemma parse_missing x l o : reasonable x -> field l "type" = None -> parse x (JObj l) = Some o -> exists t, In t op_types /\ parse_as x l t = Some o.
Proof.
  intros R N P. unfold parse in P. rewrite N in P. apply R in P. apply in_flat_map in P. destruct P as (t & I & P). exists t. split; [exact I|].
  destruct (parse_as x l t); [|contradiction]. cbn in P. destruct P as [->|[]]. reflexivity.
Qed.
Lemma parse_missing_some x l t o : reasonable x -> field l "type" = None -> In t op_types -> parse_as x l t = Some o -> exists o', parse x (JObj l) = Some o'.
Proof.
  intros R N I P. unfold parse. rewrite N. set (c := flat_map _ _).
  assert (In o c) by (apply in_flat_map; exists t; split; [exact I|rewrite P; now left]).
  destruct (pick x c) as [o'|] eqn:E; [eauto|]. exfalso. revert E. apply R. intros E. now rewrite E in H.
Qed.

(** Other fields are ignored. *)
Lemma parse_ext x l l' : (forall k, In k known_fields -> field l k = field l' k) -> parse x (JObj l) = parse x (JObj l').
Proof.
  intros H.
  assert (NI : forall k, In k known_fields -> need_int x l k = need_int x l' k) by (intros k K; unfold need_int; now rewrite H).
  assert (OI : forall k, In k known_fields -> opt_int x l k = opt_int x l' k) by (intros k K; unfold opt_int; now rewrite H).
  assert (B : forall t, parse_body x t l = parse_body x t l').
  { intros t. unfold parse_body, need_bool, need_ints, need_vop.
    rewrite (NI "core"%string), (NI "dest"%string), (NI "read"%string), (NI "width"%string), (NI "vec"%string), (NI "imm"%string), (NI "read_1"%string),
      (NI "mem_addr"%string), (NI "target_tile"%string), (NI "source_tile"%string), (OI "read_2"%string), (OI "imm"%string),
      (H "is_address"%string), (H "xbar"%string), (H "opcode"%string) by (cbn; tauto). reflexivity. }
  assert (A : forall t, parse_as x l t = parse_as x l' t).
  { intros t. unfold parse_as. now rewrite B, (H "node"%string), (NI "tile"%string) by (cbn; tauto). }
  unfold parse. rewrite (H "type"%string) by (cbn; tauto). destruct (field l' "type") as [[]|]; try reflexivity; [apply A|].
  f_equal. apply flat_map_ext. intros t. now rewrite A.
Qed.
Lemma field_app l k v k' : k' <> k -> field (l ++ [(k, v)])%list k' = field l k'.
Proof.
  intros N. induction l as [|[a b] l IH]; cbn [app field]; [|now destruct (String.eqb a k')].
  destruct (String.eqb_spec k k') as [->|]; [now elim N|reflexivity].
Qed.
Lemma parse_extra x l k v : ~ In k known_fields -> parse x (JObj (l ++ [(k, v)])%list) = parse x (JObj l).
Proof. intros N. apply parse_ext. intros k' K. apply field_app. intros ->. contradiction. Qed.
