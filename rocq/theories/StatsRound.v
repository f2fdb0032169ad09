(** Rounding in the merging of statistics. *)
From Verif Require Import PyBase PyLemmas FloatModel AnalogProofs NoiseAnalog StatsModel ReportSpec StatsProofs StatsRoundSpec.
From Flocq Require Import IEEE754.BinarySingleNaN Core Relative Plus_error.
From Coq Require Import String Permutation Reals Lra Psatz ZifyNat ZifyBool.

(** ** Any arithmetic: what is shown for a name is a sum of the values given for it *)
Section Any.
Context {A : arith}.
Inductive added : list (stats A) -> stats A -> Prop :=
| ad_one s : added [s] s
| ad_two l r a b : added l a -> added r b -> added (l ++ r) (smerge a b).
Lemma added_some l s : added l s -> l <> [].
Proof. induction 1 as [|l r a b _ IH _ _]; [discriminate|]. destruct l; [contradiction|discriminate]. Qed.
Definition fits (l : list (stats A)) (v : option (stats A)) : Prop := match v with Some s => added l s | None => l = [] end.
Lemma fits_plus l r a b : fits l a -> fits r b -> fits (l ++ r) (oplus a b).
Proof. destruct a as [a|], b as [b|]; cbn [fits oplus]; intros H1 H2; subst; rewrite ?app_nil_r; try assumption; [now constructor|reflexivity]. Qed.
Lemma given_absent {B} k (l : list (string * B)) : ~ In k (map fst l) -> given k l = [].
Proof.
  unfold given. induction l as [|[x y] l IH]; [reflexivity|]. cbn [map fst filter In]. intros N. destruct (String.eqb_spec x k) as [->|]; [exfalso; apply N; now left|]. apply IH. tauto.
Qed.
Lemma fresh_fits l : forall h : heap A, NoDup (map fst l) -> let '(d, h') := fresh_dict h l in keeps h h' /\ own h d h' /\ map fst d = map fst l /\ forall k, fits (given k l) (val_of d h' k).
Proof.
  induction l as [|[k0 s] l IH]; intros h ND; cbn [fresh_dict].
  - split; [apply keeps_refl|]. split; [split; [constructor|split; constructor]|]. split; reflexivity.
  - cbn [map fst] in ND. inversion ND as [|? ? NI ND']; subst. cbn [new]. specialize (IH (h ++ [s]) ND'). destruct (fresh_dict (h ++ [s]) l) as [d h']. destruct IH as (K & (O1 & O2 & O3) & M & V).
    pose proof (new_keeps h s) as KN. pose proof (keeps_trans _ _ _ KN K) as KT. assert (LH : List.length (h ++ [s]) = S (List.length h)) by (rewrite app_length; cbn; lia).
    split; [exact KT|]. split; [split; [|split]|split].
    + cbn. rewrite M. exact ND.
    + cbn. constructor; [|exact O2]. intros H. apply in_map_iff in H as (kv & E & Hkv). rewrite Forall_forall in O3. specialize (O3 kv Hkv). lia.
    + constructor; [cbn; destruct K; lia|]. eapply Forall_impl; [|exact O3]. cbn. intros; lia.
    + cbn. now rewrite M.
    + intros k. rewrite val_of_cons. destruct (String.eqb_spec k0 k) as [->|N].
      * unfold given. cbn [filter fst]. rewrite String.eqb_refl. cbn [map snd]. change (map snd (filter (fun x => String.eqb (fst x) k) l)) with (given k l). rewrite (given_absent k l NI).
        rewrite (proj2 K) by lia. rewrite deref_new. constructor.
      * unfold given. cbn [filter fst]. destruct (String.eqb_spec k0 k); [contradiction|]. apply V.
Qed.
Lemma evaluate_fits t : forall h : heap A, each_leaf (fun l => NoDup (map fst l)) t -> let '(d, h') := evaluate t h in keeps h h' /\ own h d h' /\ forall k, fits (given k (leaves t)) (val_of d h' k).
Proof.
  induction t as [l|a IHa b IHb]; intros h; cbn [each_leaf evaluate leaves].
  - intros ND. pose proof (fresh_fits l h ND) as F. destruct (fresh_dict h l) as [d h']. tauto.
  - intros [Ha Hb]. specialize (IHa h Ha). destruct (evaluate a h) as [d h1]. destruct IHa as (K1 & O1 & V1). specialize (IHb h1 Hb). destruct (evaluate b h1) as [o h2]. destruct IHb as (K2 & O2 & V2).
    pose proof (merge_own h h1 h2 d o K1 O1 K2 O2) as M. destruct (dmerge d h2 o) as [d' h']. destruct M as (M1 & M2 & M3). split; [exact M1|]. split; [exact M2|]. intros k. rewrite M3, given_app. now apply fits_plus.
Qed.
Lemma entries_added t (h : heap A) d h' : each_leaf (fun l => NoDup (map fst l)) t -> evaluate t h = (d, h') -> NoDup (map fst d) /\
  (forall k s, In (k, s) (entries h' d) -> added (given k (leaves t)) s) /\ (forall k, In k (map fst (leaves t)) -> In k (map fst d)).
Proof.
  intros L E. pose proof (evaluate_fits t h L) as F. rewrite E in F. destruct F as (_ & (ND & _ & _) & V). split; [exact ND|]. split.
  - intros k s I. unfold entries in I. apply in_map_iff in I. destruct I as ([x r] & [= <- <-] & I). cbn [snd fst] in *. specialize (V x). unfold val_of in V. rewrite (dget_some _ _ _ ND I) in V. exact V.
  - intros k I. destruct (in_dec string_dec k (map fst d)) as [|N]; [assumption|]. exfalso. specialize (V k). rewrite (val_of_none _ _ _ N) in V. cbn [fits] in V.
    apply in_map_iff in I. destruct I as ([x v] & E1 & I). cbn [fst] in E1. subst x. assert (H : In v (given k (leaves t))); [|rewrite V in H; exact H].
    unfold given. apply in_map_iff. exists (k, v). split; [reflexivity|]. apply filter_In. split; [exact I|]. apply String.eqb_refl.
Qed.
(** The values of all names together. *)
Lemma given_all {B} (l : list (string * B)) : forall ks, NoDup ks -> (forall k, In k (map fst l) -> In k ks) -> Permutation (flat_map (fun k => given k l) ks) (map snd l).
Proof.
  induction l as [|[k0 v] l IH]; intros ks ND C.
  - induction ks as [|k ks IHK]; [constructor|]. inversion ND; subst. cbn. apply IHK; [assumption|intros ? []].
  - cbn [map snd]. rewrite <- (IH ks ND) by (intros k K; apply C; now right). assert (I : In k0 ks) by (apply C; now left). clear IH C.
    induction ks as [|k ks IHK]; [destruct I|]. inversion ND as [|? ? NI ND']; subst. cbn [flat_map]. unfold given at 1. cbn [filter fst]. destruct (String.eqb_spec k0 k) as [->|N].
    + cbn [map snd app]. constructor. apply Permutation_app_head. clear - NI. induction ks as [|x ks IH]; [reflexivity|]. cbn [flat_map]. rewrite IH by (intros H; apply NI; now right).
      unfold given at 1. cbn [filter fst]. destruct (String.eqb_spec k x) as [->|]; [exfalso; apply NI; now left|reflexivity].
    + change (map snd (filter (fun x => String.eqb (fst x) k) l)) with (given k l). destruct I as [->|I]; [contradiction|]. rewrite (IHK ND' I). symmetry. apply Permutation_middle.
Qed.
Lemma added_count l s : added l s -> s_count s = zsum (map s_count l).
Proof. induction 1 as [s|l r a b _ IH _ JH]; [cbn; lia|]. cbn [smerge s_count]. rewrite IH, JH, map_app, zsum_app. reflexivity. Qed.
End Any.

(** ** float64 *)
Open Scope R_scope.
Notation tot := exact_total.
Lemma tot_app a b : tot (a ++ b) = tot a + tot b.
Proof. unfold exact_total. induction a as [|x a IH]; cbn [app map fold_right]; [lra|]. rewrite IH. lra. Qed.
Lemma tot_perm a b : Permutation a b -> tot a = tot b.
Proof. unfold exact_total. induction 1; cbn [map fold_right] in *; lra. Qed.
Lemma tot_nonneg l : Forall (fun x => is_finite x = true /\ 0 <= B2R x) l -> 0 <= tot l.
Proof. unfold exact_total. induction 1 as [|x l (_ & H) _ IH]; cbn [map fold_right]; lra. Qed.
Lemma fadd_rel x y : fin x -> fin y -> Rabs (B2R x + B2R y) <= bpow radix2 900 -> fin (fadd x y) /\ Rabs (B2R (fadd x y) - (B2R x + B2R y)) <= u64 * Rabs (B2R x + B2R y).
Proof.
  intros Fx Fy B. pose proof (Bplus_correct prec64 emax64 _ _ mode_NE x y Fx Fy) as C. cbn [round_mode] in C. rewrite rnd64_fits in C by exact B. destruct C as (E & F & _). split; [exact F|]. unfold fadd. rewrite E.
  destruct (FLT_plus_error_N_ex radix2 (3 - emax64 - prec64) prec64 (fun z => negb (Z.even z)) (B2R x) (B2R y) (generic_format_B2R _ _ x) (generic_format_B2R _ _ y)) as (eps & HE & HR).
  change (Znearest (fun z => negb (Z.even z))) with ZnearestE in HR. unfold SpecFloat.fexp, SpecFloat.emin. fold (FLT_exp (3 - emax64 - prec64) prec64). rewrite HR.
  replace ((B2R x + B2R y) * (1 + eps) - (B2R x + B2R y)) with (eps * (B2R x + B2R y)) by ring. rewrite Rabs_mult. apply Rmult_le_compat_r; [apply Rabs_pos|]. eapply Rle_trans; [exact HE|].
  assert (U : u_ro radix2 prec64 = u64) by (unfold u_ro, u64; change (- prec64 + 1)%Z with (-52)%Z; change (-53)%Z with (-52 + -1)%Z; rewrite bpow_plus; cbn; lra). rewrite U.
  assert (0 < u64) by apply bpow_gt_0. apply Rmult_le_reg_r with (1 + u64); [lra|]. field_simplify; nra.
Qed.
Lemma u_two : bpow radix2 (-52) = 2 * u64.
Proof. unfold u64. change (-52)%Z with (1 + -53)%Z. rewrite bpow_plus. reflexivity. Qed.
Definition near (n : Z) (a : R) (y : f64) : Prop := fin y /\ Rabs (B2R y - a) <= IZR n * bpow radix2 (-52) * a.
Lemma near_add n m N a b x y : 0 <= a -> 0 <= b -> a + b <= bpow radix2 800 -> (0 <= n < N)%Z -> (0 <= m < N)%Z -> (N <= 2 ^ 50)%Z -> near n a x -> near m b y -> near N (a + b) (fadd x y).
Proof.
  intros Ha Hb B Hn Hm HN (Fx & Ex) (Fy & Ey). rewrite u_two in Ex, Ey. set (M := IZR (N - 1)). assert (U : 0 < u64) by apply bpow_gt_0.
  assert (M0 : 0 <= M) by (apply IZR_le; lia). assert (U2 : M * (2 * u64) <= 1).
  { assert (MM : M <= bpow radix2 50) by (change (bpow radix2 50) with (IZR (2 ^ 50)); apply IZR_le; lia). unfold u64. replace 1 with (bpow radix2 50 * (bpow radix2 (-50))) by (rewrite <- bpow_plus; reflexivity).
    apply Rmult_le_compat; [exact M0| |exact MM|]; replace (2 * bpow radix2 (-53)) with (bpow radix2 (1 + -53)) by (rewrite bpow_plus; reflexivity); [apply bpow_ge_0|apply bpow_le; lia]. }
  assert (Ex' : Rabs (B2R x - a) <= M * (2 * u64) * a) by (eapply Rle_trans; [exact Ex|]; apply Rmult_le_compat_r; [exact Ha|]; apply Rmult_le_compat_r; [lra|]; apply IZR_le; lia).
  assert (Ey' : Rabs (B2R y - b) <= M * (2 * u64) * b) by (eapply Rle_trans; [exact Ey|]; apply Rmult_le_compat_r; [exact Hb|]; apply Rmult_le_compat_r; [lra|]; apply IZR_le; lia).
  set (g := M * (2 * u64)) in *. assert (G0 : 0 <= g) by (apply Rmult_le_pos; lra).
  assert (S : Rabs (B2R x + B2R y - (a + b)) <= g * (a + b)). { replace (B2R x + B2R y - (a + b)) with ((B2R x - a) + (B2R y - b)) by ring. eapply Rle_trans; [apply Rabs_triang|]. lra. }
  assert (SB : Rabs (B2R x + B2R y) <= (1 + g) * (a + b)). { replace (B2R x + B2R y) with ((B2R x + B2R y - (a + b)) + (a + b)) by ring. eapply Rle_trans; [apply Rabs_triang|]. rewrite (Rabs_pos_eq (a + b)) by lra. lra. }
  destruct (fadd_rel x y Fx Fy) as (F & E).
  { eapply Rle_trans; [exact SB|]. eapply Rle_trans; [apply Rmult_le_compat_r with (r2 := 2); lra|]. eapply Rle_trans; [apply Rmult_le_compat_l; [lra|exact B]|]. change 2 with (bpow radix2 1). rewrite <- bpow_plus. apply bpow_le. lia. }
  split; [exact F|]. rewrite u_two. replace (B2R (fadd x y) - (a + b)) with ((B2R (fadd x y) - (B2R x + B2R y)) + (B2R x + B2R y - (a + b))) by ring. eapply Rle_trans; [apply Rabs_triang|].
  eapply Rle_trans; [apply Rplus_le_compat; [eapply Rle_trans; [exact E|apply Rmult_le_compat_l; [lra|exact SB]]|exact S]|].
  replace (IZR N) with (M + 1) by (unfold M; rewrite <- plus_IZR; f_equal; lia). replace ((M + 1) * (2 * u64)) with (g + 2 * u64) by (unfold g; ring).
  assert (0 <= a + b) by lra. assert (u64 * g <= u64) by (rewrite <- (Rmult_1_r u64) at 2; apply Rmult_le_compat_l; lra). nra.
Qed.
Lemma near_weak n m a y : 0 <= a -> (n <= m)%Z -> near n a y -> near m a y.
Proof. intros Ha H (F & E). split; [exact F|]. eapply Rle_trans; [exact E|]. apply Rmult_le_compat_r; [exact Ha|]. apply Rmult_le_compat_r; [apply bpow_ge_0|]. now apply IZR_le. Qed.
Lemma proper_app a b : proper_amounts (a ++ b) -> proper_amounts a /\ proper_amounts b.
Proof.
  intros (F & T & N). apply Forall_app in F. destruct F as (Fa & Fb). rewrite tot_app in T. pose proof (tot_nonneg _ Fa). pose proof (tot_nonneg _ Fb). rewrite app_length in N.
  split; (split; [assumption|]; split; [lra|lia]).
Qed.
Lemma amount_merge f : In f amounts -> forall a b, f (smerge a b) = fadd (f a) (f b).
Proof. intros [<-|[<-|[<-|[]]]]; reflexivity. Qed.
Lemma amount_zero f : In f amounts -> f stats0 = f0.
Proof. intros [<-|[<-|[<-|[]]]]; apply B2SF_inj; vm_compute; reflexivity. Qed.
Lemma added_near f : In f amounts -> forall l s, added l s -> proper_amounts (map f l) -> near (Z.of_nat (List.length l) - 1) (tot (map f l)) (f s).
Proof.
  intros I l s H. induction H as [s|l r a b HL IH HR JH]; intros P.
  - destruct P as (F & _). inversion F as [|? ? (Fs & _) _]; subst. split; [exact Fs|]. unfold exact_total. cbn. rewrite Rplus_0_r, Rminus_eq_0, Rabs_R0. lra.
  - rewrite map_app in *. destruct (proper_app _ _ P) as (Pl & Pr). rewrite tot_app, (amount_merge f I), app_length. apply added_some in HL, HR. destruct P as (_ & T & N). rewrite tot_app in T. rewrite app_length, !map_length in N.
    destruct l as [|? l]; [contradiction|]. destruct r as [|? r]; [contradiction|]. cbn [List.length] in *.
    eapply near_add; [apply tot_nonneg, Pl|apply tot_nonneg, Pr|exact T| | | |now apply IH|now apply JH]; lia.
Qed.
Lemma fold_near f : In f amounts -> forall (es : list (list (stats float_num) * stats float_num)) done acc, Forall (fun e => added (fst e) (snd e)) es ->
  proper_amounts (map f (done ++ flat_map fst es)) -> near (Z.of_nat (List.length done)) (tot (map f done)) (f acc) ->
  near (Z.of_nat (List.length (done ++ flat_map fst es))) (tot (map f (done ++ flat_map fst es))) (f (fold_left smerge (map snd es) acc)).
Proof.
  intros I es. induction es as [|(l, s) es IH]; intros done acc H P N; [cbn; now rewrite app_nil_r|]. inversion H as [|? ? HA HS]; subst. cbn [flat_map map snd fst fold_left] in *. cbn [fst snd] in HA.
  rewrite app_assoc in *. apply IH; [exact HS|exact P|]. rewrite map_app in P. apply proper_app in P. destruct P as (P & _). rewrite map_app in P |- *. destruct (proper_app _ _ P) as (Pd & Pl).
  destruct P as (_ & T & L). rewrite tot_app in *. rewrite (amount_merge f I). rewrite app_length, !map_length in L. pose proof (added_some _ _ HA) as NE. destruct l as [|x l]; [contradiction|]. rewrite app_length.
  eapply near_add; [apply tot_nonneg, Pd|apply tot_nonneg, Pl|exact T| | | |exact N|exact (added_near f I _ _ HA Pl)]; cbn [List.length] in *; lia.
Qed.

Theorem names_rounded t (h : heap float_num) d h' : each_leaf (fun l => NoDup (map fst l)) t -> evaluate t h = (d, h') ->
  NoDup (map fst d) /\ (forall k, In k (map fst d) <-> In k (map fst (leaves t))) /\
  forall k s, In (k, s) (entries h' d) -> s_count s = zsum (map s_count (given k (leaves t))) /\
    forall f, In f amounts -> let l := map f (given k (leaves t)) in proper_amounts l -> near_total (zlen l - 1) l (f s).
Proof.
  intros L E. destruct (entries_added t h d h' L E) as (ND & AD & CO). split; [exact ND|]. split.
  - intros k. split; [|apply CO]. intros I. apply in_map_iff in I. destruct I as ((x, r) & <- & I). cbn [fst]. destruct (in_dec string_dec x (map fst (leaves t))) as [|N]; [assumption|]. exfalso.
    apply (added_some (A := float_num) _ (deref h' r) (AD x _ (in_map (fun kv => (fst kv, deref h' (snd kv))) _ _ I))). now apply given_absent.
  - intros k s I. specialize (AD k s I). split; [exact (added_count _ _ AD)|]. intros f IF l P. unfold zlen, l. rewrite map_length. exact (added_near f IF _ _ AD P).
Qed.
Theorem summary_rounded t (h : heap float_num) d h' : each_leaf (fun l => NoDup (map fst l)) t -> evaluate t h = (d, h') ->
  s_count (summary h' d) = zsum (map (fun x => s_count (snd x)) (leaves t)) /\
  forall f, In f amounts -> let l := map (fun x => f (snd x)) (leaves t) in proper_amounts l -> near_total (zlen l) l (f (summary h' d)).
Proof.
  intros L E. destruct (entries_added t h d h' L E) as (ND & AD & CO). set (es := map (fun kv => (given (fst kv) (leaves t), deref h' (snd kv))) d).
  assert (HE : Forall (fun e => added (A := float_num) (fst e) (snd e)) es). { apply Forall_map, Forall_forall. intros (k, r) I. cbn [fst snd]. apply AD. exact (in_map (fun kv => (fst kv, deref h' (snd kv))) _ _ I). }
  assert (HP : Permutation (flat_map fst es) (map snd (leaves t))).
  { rewrite <- (given_all (leaves t) (map fst d) ND CO). unfold es. clear. induction d as [|kv d IH]; [reflexivity|]. cbn [map flat_map fst]. now rewrite IH. }
  assert (HS : summary h' d = fold_left smerge (map snd es) stats0). { unfold summary, es. rewrite map_map. cbn [snd]. generalize (stats0 (A := float_num)) as z. clear. induction d as [|kv d IH]; intros z; [reflexivity|]. cbn [map fold_left]. apply IH. }
  split.
  - rewrite HS. transitivity (zsum (map s_count (flat_map fst es))).
    + assert (G : forall acc, s_count (fold_left smerge (map snd es) acc) = (s_count acc + zsum (map s_count (flat_map fst es)))%Z); [|rewrite G; cbn [stats0 s_count]; lia]. clear HP HS.
      induction HE as [|(l, s) es HA _ IH]; intros acc; cbn [map flat_map fold_left fst snd]; [cbn; lia|]. rewrite IH, map_app, zsum_app. cbn [smerge s_count]. cbn [fst snd] in HA. rewrite (added_count _ _ HA). lia.
    + rewrite <- (map_map snd s_count). clear - HP. generalize (Permutation_map s_count HP). generalize (map s_count (flat_map fst es)) as a, (map s_count (map snd (leaves t))) as b. unfold zsum. induction 1; cbn [fold_right] in *; lia.
  - intros f I l P. assert (HM : Permutation (map f (flat_map fst es)) l) by (unfold l; rewrite <- (map_map snd f); now apply Permutation_map).
    assert (P' : proper_amounts (map f ([] ++ flat_map fst es))). { destruct P as (F & T & N). cbn [app]. split; [eapply Permutation_Forall; [symmetry; exact HM|exact F]|]. rewrite (tot_perm _ _ HM), (Permutation_length HM). now split. }
    assert (N0 : near (Z.of_nat (List.length (@nil (stats float_num)))) (tot (map f [])) (f stats0)). { rewrite (amount_zero f I). split; [reflexivity|]. cbn. rewrite Rminus_0_r, Rabs_R0. lra. }
    pose proof (fold_near f I es [] stats0 HE P' N0) as Q. cbn [app] in Q. rewrite <- HS, (tot_perm _ _ HM) in Q. rewrite <- (map_length f), (Permutation_length HM) in Q. exact Q.
Qed.

(** The values of C54_rounding_refuted. *)
Lemma three_proper : proper_amounts (map (fun z => f_of_Z z) [9007199254740992; 1; 1]%Z).
Proof.
  destruct (f_of_Z_correct 9007199254740992) as (F & E); [cbn; lia|]. destruct (f_of_Z_correct 1) as (F1 & E1); [cbn; lia|]. split; [|split].
  - cbn [map]. apply Forall_cons; [rewrite E; split; [exact F|lra]|]. do 2 (apply Forall_cons; [rewrite E1; split; [exact F1|lra]|]). constructor.
  - unfold exact_total. cbn [map fold_right]. rewrite E, E1. apply Rle_trans with (bpow radix2 60); [|apply bpow_le; lia]. change (bpow radix2 60) with (IZR (2 ^ 60)). cbn. lra.
  - cbn. lia.
Qed.
