(** Cases for the statements about the loaders. *)
From Verif Require Import PyBase PyLemmas ConfigModel FloatModel MemoryModel VfuModel MvmuModel MvmuExamples CoreModel DramModel RouterModel SystemModel SystemSpec NodeSpec NodeExamples.
From Verif Require Import LoaderModel LoaderSpec LoaderProofs LoaderWeights LoaderParse LoaderAct LoaderClaims.
From Flocq Require Import IEEE754.BinarySingleNaN.
From Coq Require Import Reals Lra Ascii String.
Open Scope Z_scope.

(** Strict conversions, the first fitting class. *)
Definition strict : lax :=
  MkLax (fun j => match j with JInt z => Some z | _ => None end) (fun j => match j with JBool b => Some b | _ => None end) (fun l => nth_error l 0).
(** The last fitting class. *)
Definition strict_last : lax := MkLax (as_int strict) (as_bool strict) (fun l => nth_error (rev l) 0).
Lemma strict_reasonable : reasonable strict.
Proof.
  repeat split; cbn [as_int as_bool pick strict]; try reflexivity.
  - intros l o E. now apply nth_error_In in E.
  - intros [|o l] N; [now elim N|discriminate].
Qed.
Lemma strict_last_reasonable : reasonable strict_last.
Proof.
  repeat split; cbn [as_int as_bool pick strict strict_last]; try reflexivity.
  - intros l o E. apply nth_error_In in E. now apply in_rev.
  - intros l N E. apply nth_error_None in E. rewrite rev_length in E. destruct l; [now elim N|cbn in E; lia].
Qed.

(** Two nodes, two tiles, two cores, one unit. *)
Definition small : sys_cfg := MkSysCfg (MkNetCfg 2 2 3 8 2) (MkCoreCfg 1 sram3 8 (k_vfu (y_core digital)) 1 2 1 1) 2 8 2.
Lemma small_sized : sized small.
Proof. unfold sized. cbn. lia. Qed.
Definition obj (t : string) (node tile : Z) (l : list (string * json)) : json :=
  JObj (("type"%string, JStr t) :: ("node"%string, JInt node) :: ("tile"%string, JInt tile) :: l).
Definition sample_ops : list json :=
  [obj "set" 1 0 [("core", JInt 1); ("dest", JInt 4); ("imm", JInt 7); ("vec", JInt 2); ("is_address", JBool false)];
   obj "halt" 1 1 [];
   obj "jump" 0 0 [];
   obj "copy" 1 (-2) [("core", JInt (-1)); ("dest", JInt 6); ("read", JInt 4); ("vec", JInt 2)];
   obj "send" 0 1 [("mem_addr", JInt 0); ("target_tile", JInt 0); ("width", JInt 1); ("vec", JInt 1)];
   JNull;
   obj "vfu" 1 0 [("core", JInt 0); ("opcode", JStr "relu"); ("dest", JInt 4); ("read_1", JInt 4); ("vec", JInt 1)];
   obj "hlt" 1 0 [("core", JInt 1)]]%string.
Definition programs (c : sys_cfg) (a : arch) : list (list (list top * list (list cop))) :=
  map (map (fun t => (at_prog t, map snd (at_cores t)))) a.

Lemma negative_accepted :
  exists x c j o, reasonable x /\ sized c /\ parse x j = Some o /\ o_tile o = -1 /\
    exists a, load_operations x (build_architecture c) [j] = (Ok tt, a) /\ at_prog (tile_at a 0 (w_tiles (y_net c) - 1)) = [THalt].
Proof.
  exists strict, small, (obj "halt" 0 (-1) []), (MkOp 0 (-1) (ITile THalt)). split; [exact strict_reasonable|]. split; [exact small_sized|].
  split; [reflexivity|]. split; [reflexivity|]. eexists. split; [reflexivity|]. reflexivity.
Qed.

(** An object without a type. *)
Lemma untyped_halt x : reasonable x -> parse x (JObj [("tile"%string, JInt 0)]) = Some (MkOp 0 0 (ITile THalt)).
Proof.
  intros R. assert (I : forall z, as_int x (JInt z) = Some z) by apply R.
  assert (E : exists o, parse x (JObj [("tile"%string, JInt 0)]) = Some o).
  { apply (parse_missing_some x _ "halt" (MkOp 0 0 (ITile THalt)) R); [reflexivity|cbn; tauto|]. unfold parse_as, need_int. cbn. now rewrite I. }
  destruct E as (o & E). rewrite E. destruct (parse_missing x [("tile"%string, JInt 0)] o R eq_refl E) as (t & T & P). f_equal.
  cbn [op_types In] in T. repeat destruct T as [<-|T]; try contradiction; unfold parse_as, need_int in P; cbn in P; rewrite I in P; congruence.
Qed.
Lemma untyped_ambiguous :
  exists l x x', reasonable x /\ reasonable x' /\ (forall j, as_int x j = as_int x' j) /\
    parse x (JObj l) = Some (MkOp 0 0 (ICore 1 (CLoad 2 3 1 1))) /\ parse x' (JObj l) = Some (MkOp 0 0 (ITile THalt)).
Proof.
  exists [("tile", JInt 0); ("core", JInt 1); ("dest", JInt 2); ("read", JInt 3); ("width", JInt 1); ("vec", JInt 1)]%string, strict, strict_last.
  split; [exact strict_reasonable|]. split; [exact strict_last_reasonable|]. repeat split.
Qed.
(** A misspelt optional field. *)
Lemma misspelt x d r r2 v : reasonable x ->
  parse x (obj "vfu" 0 0 [("core", JInt 0); ("opcode", JStr "add"); ("dest", JInt d); ("read_1", JInt r); ("vec", JInt v); ("read2", JInt r2)]%string)
  = Some (MkOp 0 0 (ICore 0 (CVfu Vadd d r None v))).
Proof.
  intros R. apply (describes_parse x R). unfold describes. cbn [o_node o_tile o_instr fields_of vop_name].
  split; [left; reflexivity|]. split; [reflexivity|]. split; [repeat constructor|]. split; left; reflexivity.
Qed.

(** Two keys for one unit. *)
Lemma two_keys : key_for "node0_tile1_core0_mvmu0" 0 1 0 0 /\ key_for "node00_tile1_core0_mvmu0" 0 1 0 0 /\ "node0_tile1_core0_mvmu0"%string <> "node00_tile1_core0_mvmu0"%string.
Proof. split; [|split; [|discriminate]]; apply key_ids_iff; reflexivity. Qed.
