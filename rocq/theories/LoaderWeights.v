(** Proofs about the keys of a weight file and the loading of weights. *)
From Verif Require Import PyBase PyLemmas ConfigModel MemoryModel VfuModel FloatModel MvmuModel CoreModel DramModel RouterModel SystemModel LoaderModel LoaderSpec LoaderProofs.
From Coq Require Import Ascii String.
Open Scope Z_scope.

(** ** Keys *)
Lemma strip_iff p : forall s r, strip p s = Some r <-> s = (p ++ r)%string.
Proof.
  induction p as [|a p IH]; intros s r; cbn [strip append].
  - split; intros H; [now injection H|now rewrite H].
  - destruct s as [|b s]; [split; discriminate|]. destruct (Ascii.eqb_spec a b) as [->|N].
    + rewrite IH. split; intros H; [now rewrite H|now injection H].
    + split; [discriminate|]. intros H. injection H. intros. now elim N.
Qed.
Definition no_digit (s : string) : Prop := match s with EmptyString => True | String a _ => digit_of a = None end.
Lemma digit_of_digit d : 0 <= d <= 9 -> digit_of (ascii_of_nat (Z.to_nat (48 + d))) = Some d.
Proof.
  intros H. unfold digit_of. rewrite nat_ascii_embedding by lia. rewrite Z2Nat.id by lia.
  destruct ((48 <=? 48 + d) && (48 + d <=? 57)) eqn:E; [f_equal; lia|lia].
Qed.
Lemma digit_of_inv a d : digit_of a = Some d -> 0 <= d <= 9 /\ a = ascii_of_nat (Z.to_nat (48 + d)).
Proof.
  unfold digit_of. destruct ((48 <=? Z.of_nat (nat_of_ascii a)) && (Z.of_nat (nat_of_ascii a) <=? 57)) eqn:E; [|discriminate].
  intros H. assert (D : d = Z.of_nat (nat_of_ascii a) - 48) by congruence. split; [lia|].
  replace (Z.to_nat (48 + d)) with (nat_of_ascii a) by lia. now rewrite ascii_nat_embedding.
Qed.
Lemma digits_some_iff : forall s a z r, digits (Some a) s = Some (z, r) <->
  exists ds, Forall (fun d => 0 <= d <= 9) ds /\ fold_left (fun a d => 10 * a + d) ds a = z /\ s = (text ds ++ r)%string /\ no_digit r.
Proof.
  induction s as [|b s IH]; intros a z r; cbn [digits].
  - split.
    + intros H. injection H as -> <-. exists []. repeat split. constructor.
    + intros (ds & F & E & S & N). destruct ds as [|d ds]; [|discriminate S]. cbn in E, S. now subst.
  - destruct (digit_of b) as [d|] eqn:D.
    + rewrite IH. destruct (digit_of_inv b d D) as (Hd & Hb). split.
      * intros (ds & F & E & S & N). exists (d :: ds). cbn [fold_left text append]. split; [constructor; assumption|]. split; [exact E|]. split; [now rewrite <- Hb, <- S|exact N].
      * intros (ds & F & E & S & N). destruct ds as [|d' ds].
        { cbn in S. subst r. cbn in N. congruence. }
        cbn [text append] in S. assert (Sb : b = ascii_of_nat (Z.to_nat (48 + d'))) by congruence. assert (Ss : s = (text ds ++ r)%string) by congruence. inversion F as [|x l Fd Fl]; subst x l.
        assert (d' = d) by (rewrite Sb, digit_of_digit in D by exact Fd; congruence). subst d'. exists ds. repeat split; auto.
    + split.
      * intros H. injection H as <- <-. exists []. cbn. repeat split; auto.
      * intros (ds & F & E & S & N). destruct ds as [|d' ds].
        { cbn in S, E. now subst. }
        cbn [text append] in S. assert (Sb : b = ascii_of_nat (Z.to_nat (48 + d'))) by congruence. assert (Ss : s = (text ds ++ r)%string) by congruence. inversion F as [|x l Fd Fl]; subst x l. rewrite Sb, digit_of_digit in D by exact Fd. discriminate D.
Qed.
Lemma digits_iff s z r : digits None s = Some (z, r) <-> exists ds, numeral ds /\ number ds = z /\ s = (text ds ++ r)%string /\ no_digit r.
Proof.
  destruct s as [|b s].
  - cbn [digits]. split; [discriminate|]. intros (ds & (NE & _) & _ & S & _). destruct ds; [now elim NE|discriminate S].
  - cbn [digits]. destruct (digit_of b) as [d|] eqn:D.
    + rewrite digits_some_iff. destruct (digit_of_inv b d D) as (Hd & Hb). split.
      * intros (ds & F & E & S & N). exists (d :: ds). split; [split; [discriminate|constructor; assumption]|]. split; [exact E|]. split; [|exact N]. cbn [text append]. now rewrite <- Hb, <- S.
      * intros (ds & (NE & F) & E & S & N). destruct ds as [|d' ds]; [now elim NE|].
        cbn [text append] in S. assert (Sb : b = ascii_of_nat (Z.to_nat (48 + d'))) by congruence. assert (Ss : s = (text ds ++ r)%string) by congruence. inversion F as [|x l Fd Fl]; subst x l.
        assert (d' = d) by (rewrite Sb, digit_of_digit in D by exact Fd; congruence). subst d'. exists ds. repeat split; auto.
    + split; [discriminate|]. intros (ds & (NE & F) & E & S & N). destruct ds as [|d' ds]; [now elim NE|].
      cbn [text append] in S. assert (Sb : b = ascii_of_nat (Z.to_nat (48 + d'))) by congruence. assert (Ss : s = (text ds ++ r)%string) by congruence. inversion F as [|x l Fd Fl]; subst x l. rewrite Sb, digit_of_digit in D by exact Fd. discriminate D.
Qed.
Lemma strip_app p r : strip p (p ++ r)%string = Some r.
Proof. now apply strip_iff. Qed.
Lemma digits_app ds r : numeral ds -> no_digit r -> digits None (text ds ++ r)%string = Some (number ds, r).
Proof. intros. apply digits_iff. exists ds. auto. Qed.
Lemma string_app_assoc (a b c : string) : ((a ++ b) ++ c = a ++ b ++ c)%string.
Proof. induction a as [|x a IH]; cbn; [reflexivity|now rewrite IH]. Qed.
Lemma string_app_nil (a : string) : (a ++ "" = a)%string.
Proof. induction a as [|x a IH]; cbn; [reflexivity|now rewrite IH]. Qed.

Lemma key_ids_iff key n t k m : key_ids key = Some (n, t, k, m) <-> key_for key n t k m.
Proof.
  split.
  - unfold key_ids. destruct (strip "node" key) as [s1|] eqn:E1; [|discriminate]. destruct (digits None s1) as [[n1 s2]|] eqn:E2; [|discriminate].
    destruct (strip "_tile" s2) as [s3|] eqn:E3; [|discriminate]. destruct (digits None s3) as [[t1 s4]|] eqn:E4; [|discriminate].
    destruct (strip "_core" s4) as [s5|] eqn:E5; [|discriminate]. destruct (digits None s5) as [[k1 s6]|] eqn:E6; [|discriminate].
    destruct (strip "_mvmu" s6) as [s7|] eqn:E7; [|discriminate]. destruct (digits None s7) as [[m1 s8]|] eqn:E8; [|discriminate].
    apply strip_iff in E1, E3, E5, E7. apply digits_iff in E2, E4, E6, E8.
    destruct E2 as (dn & Nn & Vn & S2 & _), E4 as (dt & Nt & Vt & S4 & _), E6 as (dk & Nk & Vk & S6 & _), E8 as (dm & Nm & Vm & S8 & _).
    intros H. destruct (String.eqb s8 "" || String.eqb s8 (String (ascii_of_nat 10) "")) eqn:E; [|discriminate H].
    injection H as <- <- <- <-. exists dn, dt, dk, dm. repeat (split; [assumption|]). cbv zeta.
    subst s1 s2 s3 s4 s5 s6 s7. apply orb_true_iff in E. destruct E as [E|E]; apply String.eqb_eq in E; subst s8; [left|right].
    + rewrite E1. now rewrite string_app_nil.
    + rewrite E1. now rewrite !string_app_assoc.
  - intros (dn & dt & dk & dm & Nn & Nt & Nk & Nm & <- & <- & <- & <- & K). cbv zeta in K.
    assert (exists e, key = ("node" ++ text dn ++ "_tile" ++ text dt ++ "_core" ++ text dk ++ "_mvmu" ++ text dm ++ e)%string /\ (e = "" \/ e = String (ascii_of_nat 10) "")%string) as (e & -> & He).
    { destruct K as [->| ->]; [exists ""%string|exists (String (ascii_of_nat 10) "")]; (split; [|auto]); [now rewrite string_app_nil|now rewrite !string_app_assoc]. }
    unfold key_ids. rewrite strip_app. rewrite digits_app; [|exact Nn|reflexivity]. rewrite strip_app. rewrite digits_app; [|exact Nt|reflexivity].
    rewrite strip_app. rewrite digits_app; [|exact Nk|reflexivity]. rewrite strip_app. rewrite digits_app; [|exact Nm|destruct He as [->| ->]; [exact I|reflexivity]].
    destruct He as [->| ->]; reflexivity.
Qed.
Lemma number_nonneg ds : numeral ds -> 0 <= number ds.
Proof.
  intros (_ & F). unfold number. assert (G : forall a, 0 <= a -> 0 <= fold_left (fun a d => 10 * a + d) ds a); [|now apply G].
  induction F as [|d ds Hd F IH]; intros a Ha; cbn [fold_left]; [exact Ha|]. apply IH. lia.
Qed.
Lemma key_for_nonneg key n t k m : key_for key n t k m -> 0 <= n /\ 0 <= t /\ 0 <= k /\ 0 <= m.
Proof.
  intros (dn & dt & dk & dm & Nn & Nt & Nk & Nm & <- & <- & <- & <- & _). repeat split; now apply number_nonneg.
Qed.

(** ** One array *)
Lemma get_mvmu_in c k m : zlen (co_mvmus k) = k_mvmus c -> 0 <= m < k_mvmus c -> get_mvmu k m = Ok (znth (mvmu_init (k_mv c)) (co_mvmus k) m).
Proof.
  intros L H. unfold get_mvmu. rewrite L. destruct ((m <? 0) || (k_mvmus c <=? m)) eqn:E; [lia|].
  destruct (nth_error (co_mvmus k) (Z.to_nat m)) eqn:F.
  - unfold znth. now rewrite (nth_error_nth _ _ _ F).
  - apply nth_error_None in F. unfold zlen in L. lia.
Qed.
Lemma is_unit_dec c n t k m : is_unit c n t k m \/ ~ is_unit c n t k m.
Proof. unfold is_unit, is_core, is_tile. lia. Qed.
Lemma load_unit_out c a n t k m w : complete c a -> 0 <= n -> 0 <= t -> 0 <= k -> 0 <= m -> ~ is_unit c n t k m -> load_unit c a (n, t, k, m) w = a.
Proof.
  intros C Hn Ht Hk Hm N. unfold load_unit. pose proof C as (L & LT & LC & LM).
  assert (D : (reaches (w_nodes (y_net c)) n /\ reaches (w_tiles (y_net c)) t) \/ ~ (reaches (w_nodes (y_net c)) n /\ reaches (w_tiles (y_net c)) t)) by (unfold reaches; lia).
  destruct D as [(Rn & Rt)|D]; [|now rewrite (modify_tile_out c)].
  assert (En : place_of (w_nodes (y_net c)) n = n) by (unfold place_of; destruct (n <? 0) eqn:?; lia).
  assert (Et : place_of (w_tiles (y_net c)) t = t) by (unfold place_of; destruct (t <? 0) eqn:?; lia).
  rewrite (modify_tile c) by assumption. rewrite En, Et. unfold reaches in *. assert (T : is_tile c n t) by (split; lia).
  assert (D2 : reaches (y_cores c) k \/ ~ reaches (y_cores c) k) by (unfold reaches; lia).
  destruct D2 as [Rk|Rk]; [|now rewrite py_modify_out by (rewrite LC by exact T; exact Rk)].
  assert (Ek : place_of (y_cores c) k = k) by (unfold place_of; destruct (k <? 0) eqn:?; lia).
  assert (K : is_core c n t k) by (split; [exact T|unfold reaches in Rk; lia]). pose proof (LM n t k K) as EL.
  rewrite (py_modify_raise (core_init (y_core c), []) _ _ _ IndexError); [reflexivity|rewrite LC by exact T; exact Rk|].
  rewrite LC by exact T. rewrite Ek. fold (core_at c a n t k). unfold get_mvmu. rewrite EL.
  destruct ((m <? 0) || (k_mvmus (y_core c) <=? m)) eqn:E; [reflexivity|]. elim N. split; [exact K|lia].
Qed.
Lemma load_unit_in c a n t k m w : complete c a -> is_unit c n t k m ->
  load_unit c a (n, t, k, m) w =
  put_tile a n t (MkATile (at_prog (tile_at a n t))
    (upd (at_cores (tile_at a n t)) (Z.to_nat k)
       (set_mvmu (fst (core_at c a n t k)) m (snd (load_weights (k_mv (y_core c)) (unit_at c a n t k m) w)), snd (core_at c a n t k)))).
Proof.
  intros C U. pose proof U as ((T & Hk) & Hm). pose proof T as (Hn & Ht). pose proof C as (L & LT & LC & LM). unfold load_unit.
  assert (Rn : reaches (w_nodes (y_net c)) n) by (unfold reaches; lia).
  assert (Rt : reaches (w_tiles (y_net c)) t) by (unfold reaches; lia).
  assert (Rk : reaches (y_cores c) k) by (unfold reaches; lia).
  assert (En : place_of (w_nodes (y_net c)) n = n) by (unfold place_of; destruct (n <? 0) eqn:?; lia).
  assert (Et : place_of (w_tiles (y_net c)) t = t) by (unfold place_of; destruct (t <? 0) eqn:?; lia).
  assert (Ek : place_of (y_cores c) k = k) by (unfold place_of; destruct (k <? 0) eqn:?; lia).
  rewrite (modify_tile c) by assumption. rewrite En, Et.
  erewrite (py_modify_in (core_init (y_core c), [])); rewrite ?LC, ?Ek by exact T; [reflexivity|exact Rk|].
  fold (core_at c a n t k). rewrite (get_mvmu_in (y_core c)); [reflexivity|apply LM; now split|exact Hm].
Qed.
Lemma load_unit_effect c a n t k m w : complete c a -> 0 <= n -> 0 <= t -> 0 <= k -> 0 <= m ->
  let b := load_unit c a (n, t, k, m) w in
  complete c b /\
  (forall n t, is_tile c n t -> at_prog (tile_at b n t) = at_prog (tile_at a n t)) /\
  (forall n t k, is_core c n t k ->
     snd (core_at c b n t k) = snd (core_at c a n t k) /\
     co_cache (fst (core_at c b n t k)) = co_cache (fst (core_at c a n t k)) /\
     co_vfu (fst (core_at c b n t k)) = co_vfu (fst (core_at c a n t k))) /\
  (forall n' t' k' m', is_unit c n' t' k' m' ->
     unit_at c b n' t' k' m' = if (n' =? n) && (t' =? t) && (k' =? k) && (m' =? m) then snd (load_weights (k_mv (y_core c)) (unit_at c a n t k m) w) else unit_at c a n' t' k' m').
Proof.
  intros C Hn Ht Hk Hm b. destruct (is_unit_dec c n t k m) as [U|U].
  2:{ unfold b. rewrite load_unit_out by assumption. split; [exact C|]. split; [auto|]. split; [auto|]. intros n' t' k' m' U'.
      destruct ((n' =? n) && (t' =? t) && (k' =? k) && (m' =? m)) eqn:E; [|reflexivity]. elim U.
      replace n with n' by lia. replace t with t' by lia. replace k with k' by lia. now replace m with m' by lia. }
  unfold b. rewrite load_unit_in by assumption. set (x := snd (load_weights _ _ _)). pose proof U as ((T & Rk) & Rm). pose proof C as (L & LT & LC & LM).
  assert (CO : forall k', 0 <= k' < y_cores c ->
    znth (core_init (y_core c), []) (upd (at_cores (tile_at a n t)) (Z.to_nat k) (set_mvmu (fst (core_at c a n t k)) m x, snd (core_at c a n t k))) k' =
    if k' =? k then (set_mvmu (fst (core_at c a n t k)) m x, snd (core_at c a n t k)) else core_at c a n t k').
  { intros k' Hk'. rewrite znth_upd; [reflexivity|rewrite LC by exact T; lia|lia]. }
  split; [|split; [|split]].
  - apply complete_put; cbn [at_cores]; rewrite ?zlen_upd; auto. intros k' Hk'. rewrite CO by exact Hk'.
    destruct (k' =? k) eqn:E; [cbn [fst set_mvmu co_mvmus]; rewrite zlen_upd|]; apply LM; (split; [exact T|lia]).
  - intros n' t' T'. rewrite (tile_at_put c) by assumption. destruct ((n' =? n) && (t' =? t)) eqn:E; [|reflexivity].
    replace n' with n by lia. now replace t' with t by lia.
  - intros n' t' k' (T' & Hk'). rewrite (core_at_put c) by assumption. destruct ((n' =? n) && (t' =? t)) eqn:E; [|auto].
    replace n' with n by lia. replace t' with t by lia. cbn [at_cores]. rewrite CO by exact Hk'. destruct (Z.eqb_spec k' k) as [->|]; [|auto]. cbn. auto.
  - intros n' t' k' m' ((T' & Hk') & Hm'). unfold unit_at at 1. rewrite (core_at_put c) by assumption.
    destruct ((n' =? n) && (t' =? t)) eqn:E; cbn [andb]; [|reflexivity].
    replace n' with n by lia. replace t' with t by lia. cbn [at_cores]. rewrite CO by exact Hk'. destruct (Z.eqb_spec k' k) as [->|]; cbn [andb]; [|reflexivity].
    cbn [fst set_mvmu co_mvmus]. rewrite znth_upd; [reflexivity| |lia]. rewrite (LM n t k); [exact Rm|now split].
Qed.

(** ** The whole file *)
Lemma load_file_ok c : forall file a, complete c a -> with_weights c a file (load_weight_file c a file).
Proof.
  induction file as [|[key w] rest IH]; intros a C.
  - split; [exact C|]. split; [auto|]. split; [auto|]. intros n t k m ws U A. now inversion A.
  - change (load_weight_file c a ((key, w) :: rest)) with (load_weight_file c (match key_ids key with Some ids => load_unit c a ids w | None => a end) rest).
    destruct (key_ids key) as [[[[n t] k] m]|] eqn:K.
    + apply key_ids_iff in K. destruct (key_for_nonneg _ _ _ _ _ K) as (Hn & Ht & Hk & Hm).
      destruct (load_unit_effect c a n t k m w C Hn Ht Hk Hm) as (C1 & P1 & O1 & U1). destruct (IH _ C1) as (C2 & P2 & O2 & U2).
      split; [exact C2|]. split; [|split].
      * intros n' t' T. now rewrite P2, P1.
      * intros n' t' k' T. destruct (O1 n' t' k' T) as (A1 & A2 & A3), (O2 n' t' k' T) as (B1 & B2 & B3). repeat split; congruence.
      * intros n' t' k' m' ws U A. inversion A as [|key' w' rest' ws' K' A'|key' w' rest' ws' K' A']; subst.
        -- rewrite (U2 _ _ _ _ _ U A'). rewrite U1 by exact U.
           assert (E : (n', t', k', m') = (n, t, k, m)) by (apply key_ids_iff in K, K'; congruence). injection E as -> -> -> ->.
           rewrite !Z.eqb_refl. reflexivity.
        -- rewrite (U2 _ _ _ _ _ U A'). rewrite U1 by exact U.
           destruct ((n' =? n) && (t' =? t) && (k' =? k) && (m' =? m)) eqn:E; [|reflexivity]. elim K'.
           replace n' with n by lia. replace t' with t by lia. replace k' with k by lia. now replace m' with m by lia.
    + destruct (IH a C) as (C2 & P2 & O2 & U2). split; [exact C2|]. split; [exact P2|]. split; [exact O2|].
      intros n' t' k' m' ws U A. inversion A as [|key' w' rest' ws' K' A'|key' w' rest' ws' K' A']; subst.
      * apply key_ids_iff in K'. congruence.
      * now apply U2.
Qed.
(** Every file has its arrays for a unit. *)
Lemma arrays_for_total n t k m file : exists ws, arrays_for n t k m file ws.
Proof.
  induction file as [|[key w] rest (ws & IH)]; [eexists; constructor|].
  destruct (key_ids key) as [[[[n' t'] k'] m']|] eqn:K.
  - destruct ((n' =? n) && (t' =? t) && (k' =? k) && (m' =? m)) eqn:E.
    + exists (w :: ws). apply AFTake; [|exact IH]. apply key_ids_iff. replace n with n' by lia. replace t with t' by lia. replace k with k' by lia. now replace m with m' by lia.
    + exists ws. apply AFSkip; [|exact IH]. intros F. apply key_ids_iff in F. rewrite K in F. injection F as -> -> -> ->. lia.
  - exists ws. apply AFSkip; [|exact IH]. intros F. apply key_ids_iff in F. congruence.
Qed.

(** ** An array replaces the earlier ones *)
Lemma later_wins c u w w' : fst (load_weights c u w) = Ok tt ->
  snd (load_weights c (snd (load_weights c u w')) w) = snd (load_weights c u w).
Proof.
  intros O. assert (G : forall v, mv_in v = mv_in u -> mv_out v = mv_out u -> mv_stat v = mv_stat u ->
    (have_rram (c_storage c) = false -> rram_pos v = rram_pos u /\ rram_neg v = rram_neg u) ->
    (have_sram (c_storage c) = false -> sram_pos v = sram_pos u /\ sram_neg v = sram_neg u) ->
    snd (load_weights c v w) = snd (load_weights c u w)).
  { intros v E1 E2 E3 E4 E5. unfold load_weights in *. destruct (negb _); [discriminate O|]. destruct (map2d_res _ w); [|discriminate O].
    destruct (map_res _ _); [|discriminate O]. cbn [snd]. rewrite E1, E2, E3.
    destruct (have_rram (c_storage c)), (have_sram (c_storage c)); try (destruct E4 as (-> & ->); [reflexivity|]); try (destruct E5 as (-> & ->); [reflexivity|]); reflexivity. }
  apply G; unfold load_weights; destruct (negb _); try reflexivity; try (split; reflexivity); destruct (map2d_res _ w'); try reflexivity; try (split; reflexivity);
    destruct (map_res _ _); try reflexivity; try (split; reflexivity); cbn [snd rram_pos rram_neg sram_pos sram_neg]; intros ->; split; reflexivity.
Qed.
Lemma load_weights_keeps c u w : mv_in (snd (load_weights c u w)) = mv_in u /\ mv_out (snd (load_weights c u w)) = mv_out u /\ mv_stat (snd (load_weights c u w)) = mv_stat u.
Proof. unfold load_weights. destruct (negb _); [auto|]. destruct (map2d_res _ w); [|auto]. destruct (map_res _ _); auto. Qed.
Lemma loaded_keeps c ws : forall u, mv_in (loaded c ws u) = mv_in u /\ mv_out (loaded c ws u) = mv_out u /\ mv_stat (loaded c ws u) = mv_stat u.
Proof.
  induction ws as [|w ws IH]; intros u; [auto|]. cbn [loaded fold_left]. destruct (IH (snd (load_weights c u w))) as (A & B & D), (load_weights_keeps c u w) as (A' & B' & D').
  unfold loaded in *. repeat split; congruence.
Qed.
Lemma fst_load_weights c u v w : fst (load_weights c u w) = fst (load_weights c v w).
Proof. unfold load_weights. destruct (negb _); [reflexivity|]. destruct (map2d_res _ w); [|reflexivity]. destruct (map_res _ _); reflexivity. Qed.
Lemma last_wins c ws w u : fst (load_weights c u w) = Ok tt -> loaded c (ws ++ [w]) u = snd (load_weights c u w).
Proof.
  intros O. unfold loaded. rewrite fold_left_app. cbn [fold_left]. fold (loaded c ws u). revert u O.
  induction ws as [|w' ws IH] using rev_ind; intros u O; [reflexivity|].
  unfold loaded. rewrite fold_left_app. cbn [fold_left]. fold (loaded c ws u). rewrite later_wins; [now apply IH|].
  now rewrite (fst_load_weights c _ u).
Qed.
Lemma bad_array c u w : fst (load_weights c u w) <> Ok tt -> snd (load_weights c u w) = u.
Proof. unfold load_weights. destruct (negb _); [auto|]. destruct (map2d_res _ w); [|auto]. destruct (map_res _ _); [|auto]. cbn. now intros N. Qed.
