(** Merging of statistics. *)
From Verif Require Import PyBase PyLemmas ConfigModel MemoryModel VfuModel FloatModel MvmuModel CoreModel DramModel RouterModel SystemModel NodeModel
  StatsModel ReportModel ReportSpec.
From Coq Require Import QArith Qcanon String Lia.
From Coq Require Import Permutation.
Open Scope Z_scope.

(** ** The sum of statistics *)
Notation smg := (@smerge exact_num).
Lemma r0 : rational 0 = 0%Qc. Proof. reflexivity. Qed.
Lemma smerge_assoc a b c : smg a (smg b c) = smg (smg a b) c.
Proof. unfold smerge; cbn. f_equal; (lia || apply Qcplus_assoc). Qed.
Lemma smerge_comm a b : smg a b = smg b a.
Proof. unfold smerge; cbn. f_equal; (lia || apply Qcplus_comm). Qed.
Lemma smerge_0_l a : smg (@stats0 exact_num) a = a.
Proof. destruct a. unfold smerge; cbn. rewrite r0. f_equal; (lia || apply Qcplus_0_l). Qed.
Lemma smerge_0_r a : smg a (@stats0 exact_num) = a.
Proof. rewrite smerge_comm. apply smerge_0_l. Qed.

Lemma sum_stats_cons s l : sum_stats (s :: l) = smg s (sum_stats l).
Proof. reflexivity. Qed.
Lemma sum_stats_nil : sum_stats [] = @stats0 exact_num. Proof. reflexivity. Qed.
Lemma sum_stats_one s : sum_stats [s] = s.
Proof. rewrite sum_stats_cons, sum_stats_nil. apply smerge_0_r. Qed.
Lemma sum_stats_app a b : sum_stats (a ++ b) = smg (sum_stats a) (sum_stats b).
Proof.
  induction a as [|x a IH]; [symmetry; apply smerge_0_l|]. cbn [app]. rewrite !sum_stats_cons, IH. apply smerge_assoc.
Qed.
Lemma sum_stats_perm a b : Permutation a b -> sum_stats a = sum_stats b.
Proof.
  induction 1 as [|x l l' _ IH|x y l|l l' l'' _ IH1 _ IH2]; [reflexivity| | |congruence].
  - now rewrite !sum_stats_cons, IH.
  - rewrite !sum_stats_cons, !smerge_assoc. f_equal. apply smerge_comm.
Qed.

(** ** Lookup *)
Definition val_of {A : arith} (d : sdict) (h : heap A) (k : string) : option (stats A) := option_map (deref h) (dget d k).
Definition oplus {A : arith} (a b : option (stats A)) : option (stats A) :=
  match a, b with Some x, Some y => Some (smerge x y) | Some x, None => Some x | None, y => y end.
Definition total (k : string) (l : list (string * xstats)) : option xstats :=
  match given k l with [] => None | vs => Some (sum_stats vs) end.

Lemma given_app {B} k (a b : list (string * B)) : given k (a ++ b) = given k a ++ given k b.
Proof. unfold given. now rewrite filter_app, map_app. Qed.
Lemma total_app k a b : total k (a ++ b) = oplus (total k a) (total k b).
Proof.
  unfold total. rewrite given_app. destruct (given k a) as [|x xs]; [reflexivity|]. destruct (given k b) as [|y ys].
  - rewrite app_nil_r. reflexivity.
  - cbn [app oplus]. now rewrite <- sum_stats_app.
Qed.
Lemma oplus_assoc (a b c : option xstats) : oplus a (oplus b c) = oplus (oplus a b) c.
Proof. destruct a, b, c; cbn; try reflexivity. now rewrite smerge_assoc. Qed.

Lemma dget_none d k : dget d k = None <-> ~ In k (map fst d).
Proof.
  induction d as [|[x r] d IH]; cbn; [tauto|]. destruct (String.eqb_spec x k) as [->|N].
  - split; [discriminate|]. intros H. exfalso. apply H. now left.
  - rewrite IH. split; [intros H [E|E]; [now apply N|now apply H]|tauto].
Qed.
Lemma dget_in d k r : dget d k = Some r -> In (k, r) d.
Proof.
  induction d as [|[x y] d IH]; cbn; [discriminate|]. destruct (String.eqb_spec x k) as [->|N]; [intros [= ->]; now left|].
  intros E. right. now apply IH.
Qed.
Lemma dget_some d k r : NoDup (map fst d) -> In (k, r) d -> dget d k = Some r.
Proof.
  induction d as [|[x y] d IH]; cbn; [tauto|]. intros ND [E|E]; inversion ND as [|? ? NI ND']; subst.
  - injection E as -> ->. now rewrite String.eqb_refl.
  - destruct (String.eqb_spec x k) as [->|N]; [|now apply IH]. exfalso. apply NI. apply in_map_iff. now exists (k, r).
Qed.
Lemma dget_app d e k : dget (d ++ e) k = match dget d k with Some r => Some r | None => dget e k end.
Proof. induction d as [|[x r] d IH]; cbn; [reflexivity|]. now destruct (String.eqb x k). Qed.

Lemma given_entries {A : arith} (h : heap A) d k : NoDup (map fst d) ->
  given k (entries h d) = match val_of d h k with Some v => [v] | None => [] end.
Proof.
  unfold given, entries, val_of. induction d as [|[x r] d IH]; cbn; [reflexivity|]. intros ND. inversion ND as [|? ? NI ND']; subst.
  destruct (String.eqb_spec x k) as [->|N]; cbn.
  - f_equal. rewrite IH by assumption. apply dget_none in NI. now rewrite NI.
  - now apply IH.
Qed.
Lemma shows_iff d h l : NoDup (map fst d) -> (shows d h l <-> forall k, val_of d h k = total k l).
Proof.
  intros ND. unfold shows, total. split; intros H k; specialize (H k); rewrite given_entries in * by assumption.
  - destruct (val_of d h k) as [v|], (given k l) as [|x xs]; try discriminate; [|reflexivity]. now injection H as ->.
  - rewrite H. now destruct (given k l).
Qed.

(** ** Lists without repetition *)
Lemma nodup_l {B} (a b : list B) : NoDup (a ++ b) -> NoDup a.
Proof.
  induction a as [|x a IH]; cbn; [constructor|]. intros H. inversion H as [|? ? N1 N2]; subst.
  constructor; [|now apply IH]. intros H'. apply N1. apply in_or_app. now left.
Qed.
Lemma nodup_both {B} (a b : list B) x : NoDup (a ++ b) -> In x a -> In x b -> False.
Proof.
  induction a as [|y a IH]; cbn; [tauto|]. intros H [->|E] F; inversion H as [|? ? N1 N2]; subst.
  - apply N1. apply in_or_app. now right.
  - now apply IH.
Qed.
Lemma nodup_app {B} (a b : list B) : NoDup a -> NoDup b -> (forall x, In x a -> In x b -> False) -> NoDup (a ++ b).
Proof.
  intros Ha Hb H. induction a as [|x a IH]; [exact Hb|]. cbn. inversion Ha as [|? ? N1 N2]; subst. constructor.
  - intros F. apply in_app_or in F as [F|F]; [now apply N1|]. apply (H x); [now left|exact F].
  - apply IH; [exact N2|]. intros y Hy. apply H. now right.
Qed.

(** ** The heap *)
Lemma deref_upd {A : arith} (h : heap A) r s i : (r < List.length h)%nat -> deref (upd h r s) i = if (i =? r)%nat then s else deref h i.
Proof. intros H. unfold deref. now apply nth_upd. Qed.

Lemma keeps_refl {A : arith} (h : heap A) : keeps h h. Proof. split; auto. Qed.
Lemma keeps_trans {A : arith} (a b c : heap A) : keeps a b -> keeps b c -> keeps a c.
Proof. intros [L1 H1] [L2 H2]. split; [lia|]. intros i Hi. rewrite H2 by lia. auto. Qed.

Lemma val_of_ext {A : arith} d (h h' : heap A) k : (forall r, In r (map snd d) -> deref h' r = deref h r) -> val_of d h' k = val_of d h k.
Proof.
  intros H. unfold val_of. destruct (dget d k) as [r|] eqn:E; [|reflexivity]. cbn. f_equal. apply H.
  apply dget_in in E. apply in_map_iff. now exists (k, r).
Qed.

Lemma val_of_upd {A : arith} d (h : heap A) k0 r s k : NoDup (map snd d) -> dget d k0 = Some r -> (r < List.length h)%nat ->
  val_of d (upd h r s) k = if String.eqb k0 k then Some s else val_of d h k.
Proof.
  intros ND E L. unfold val_of. destruct (String.eqb_spec k0 k) as [<-|N].
  - rewrite E. cbn. f_equal. rewrite deref_upd, Nat.eqb_refl by assumption. reflexivity.
  - destruct (dget d k) as [r'|] eqn:E'; [|reflexivity]. cbn. f_equal. rewrite deref_upd by assumption.
    destruct (Nat.eqb_spec r' r) as [->|]; [|reflexivity]. exfalso. apply N.
    apply dget_in in E, E'. clear - ND E E'. induction d as [|[x y] d IH]; [destruct E|]. cbn in ND. inversion ND as [|? ? NI ND']; subst.
    destruct E as [E|E], E' as [E'|E'].
    + congruence.
    + injection E as -> ->. exfalso. apply NI. apply in_map_iff. now exists (k, r).
    + injection E' as -> ->. exfalso. apply NI. apply in_map_iff. now exists (k0, r).
    + now apply IH.
Qed.

Lemma val_of_cons {A : arith} k0 r d (h : heap A) k : val_of ((k0, r) :: d) h k = if String.eqb k0 k then Some (deref h r) else val_of d h k.
Proof. unfold val_of. cbn. now destruct (String.eqb k0 k). Qed.
Lemma val_of_app {A : arith} d e (h : heap A) k : val_of (d ++ e) h k = match val_of d h k with Some v => Some v | None => val_of e h k end.
Proof. unfold val_of. rewrite dget_app. now destruct (dget d k). Qed.
Lemma val_of_none {A : arith} d (h : heap A) k : ~ In k (map fst d) -> val_of d h k = None.
Proof. intros H. apply dget_none in H. unfold val_of. now rewrite H. Qed.

Lemma merge_spec {A : arith} o : forall d (h : heap A),
  NoDup (map fst d) -> NoDup (map fst o) -> NoDup (map snd d ++ map snd o) ->
  (forall r, In r (map snd d ++ map snd o) -> (r < List.length h)%nat) ->
  let '(d', h') := dmerge d h o in
  NoDup (map fst d') /\ NoDup (map snd d') /\ (forall r, In r (map snd d') -> In r (map snd d ++ map snd o)) /\
  List.length h' = List.length h /\ (forall i, ~ In i (map snd d ++ map snd o) -> deref h' i = deref h i) /\
  forall k, val_of d' h' k = oplus (val_of d h k) (val_of o h k).
Proof.
  induction o as [|[k0 r0] o IH]; intros d h K1 K2 ND L.
  { cbn. cbn in ND, L. rewrite app_nil_r in *. repeat split; auto. intros k. now destruct (val_of d h k). }
  cbn [map fst snd] in *. inversion K2 as [|? ? NI K2']; subst.
  pose proof (NoDup_remove_1 _ _ _ ND) as ND1. pose proof (NoDup_remove_2 _ _ _ ND) as NI1.
  destruct (dget d k0) as [r|] eqn:E.
  - assert (IR : In r (map snd d)) by (apply dget_in in E; apply in_map_iff; now exists (k0, r)).
    assert (LR : (r < List.length h)%nat) by (apply L; apply in_or_app; now left).
    assert (NR : r0 <> r). { intros ->. apply NI1. apply in_or_app. now left. }
    assert (NDd : NoDup (map snd d)) by (exact (nodup_l _ _ ND1)).
    set (h1 := upd h r (smerge (deref h r) (deref h r0))).
    assert (DM : dmerge d h ((k0, r0) :: o) = dmerge d h1 o) by (unfold dmerge; cbn; now rewrite E).
    rewrite DM.
    assert (L1 : List.length h1 = List.length h) by apply length_upd.
    specialize (IH d h1 K1 K2' ND1).
    destruct (dmerge d h1 o) as [d' h']. cbv iota beta in IH.
    destruct IH as (A1 & A2 & A3 & A4 & A5 & A6).
    { intros x Hx. rewrite L1. apply L. apply in_app_or in Hx. apply in_or_app. destruct Hx; [now left|right; now right]. }
    split; [exact A1|]. split; [exact A2|]. split.
    { intros x Hx. apply A3 in Hx. apply in_app_or in Hx. apply in_or_app. destruct Hx; [now left|right; now right]. }
    split; [congruence|]. split.
    { intros i Hi. rewrite A5.
      - unfold h1. rewrite deref_upd by assumption. destruct (Nat.eqb_spec i r) as [->|]; [|reflexivity].
        exfalso. apply Hi. apply in_or_app. now left.
      - intros H. apply Hi. apply in_app_or in H. apply in_or_app. destruct H; [now left|right; now right]. }
    intros k. rewrite A6. unfold h1. rewrite (val_of_upd d h k0 r _ k NDd E LR).
    assert (EO : val_of o (upd h r (smerge (deref h r) (deref h r0))) k = val_of o h k).
    { apply val_of_ext. intros x Hx. rewrite deref_upd by assumption. destruct (Nat.eqb_spec x r) as [->|]; [|reflexivity].
      exfalso. exact (nodup_both _ _ _ ND1 IR Hx). }
    rewrite EO, val_of_cons. destruct (String.eqb_spec k0 k) as [<-|N]; [|reflexivity].
    rewrite (val_of_none o h k0 NI). unfold val_of. rewrite E. reflexivity.
  - assert (NK : ~ In k0 (map fst d)) by (now apply dget_none).
    specialize (IH (d ++ [(k0, r0)]) h).
    assert (DM : dmerge d h ((k0, r0) :: o) = dmerge (d ++ [(k0, r0)]) h o) by (unfold dmerge; cbn; now rewrite E).
    rewrite DM. destruct (dmerge (d ++ [(k0, r0)]) h o) as [d' h']. cbv iota beta in IH.
    rewrite !map_app in IH. cbn [map fst snd] in IH. rewrite <- app_assoc in IH. cbn [app] in IH.
    destruct IH as (A1 & A2 & A3 & A4 & A5 & A6).
    + apply nodup_app; [exact K1|constructor; [intros []|constructor]|]. intros x Hx [<-|[]]. now apply NK.
    + exact K2'.
    + exact ND.
    + exact L.
    + split; [exact A1|]. split; [exact A2|]. split; [exact A3|]. split; [exact A4|]. split; [exact A5|].
      intros k. rewrite A6, val_of_app, !val_of_cons. cbn [val_of dget option_map].
      destruct (String.eqb_spec k0 k) as [<-|N].
      * rewrite (val_of_none d h k0 NK), (val_of_none o h k0 NI). reflexivity.
      * unfold val_of at 2. cbn. now destruct (val_of d h k).
Qed.

(** Merging two dictionaries of their own objects. *)
Lemma merge_own {A : arith} (h0 h1 h2 : heap A) d o : keeps h0 h1 -> own h0 d h1 -> keeps h1 h2 -> own h1 o h2 ->
  let '(d', h') := dmerge d h2 o in
  keeps h0 h' /\ own h0 d' h' /\ forall k, val_of d' h' k = oplus (val_of d h1 k) (val_of o h2 k).
Proof.
  intros KP0 (K1 & N1 & R1) KP (K2 & N2 & R2). rewrite Forall_forall in R1, R2.
  assert (R1' : forall r, In r (map snd d) -> (List.length h0 <= r < List.length h1)%nat).
  { intros r Hr. apply in_map_iff in Hr as (kv & <- & Hkv). now apply R1. }
  assert (R2' : forall r, In r (map snd o) -> (List.length h1 <= r < List.length h2)%nat).
  { intros r Hr. apply in_map_iff in Hr as (kv & <- & Hkv). now apply R2. }
  pose proof (proj1 KP0) as L0. pose proof (proj1 KP) as L1.
  assert (R : forall r, In r (map snd d ++ map snd o) -> (List.length h0 <= r < List.length h2)%nat).
  { intros r Hr. apply in_app_or in Hr as [Hr|Hr]; [specialize (R1' r Hr)|specialize (R2' r Hr)]; lia. }
  pose proof (merge_spec o d h2 K1 K2) as M. destruct (dmerge d h2 o) as [d' h'].
  destruct M as (A1 & A2 & A3 & A4 & A5 & A6).
  - apply nodup_app; auto. intros r H1 H2. specialize (R1' r H1). specialize (R2' r H2). lia.
  - intros r Hr. apply (R r Hr).
  - split; [|split].
    + split; [lia|]. intros i Hi. rewrite A5.
      * rewrite (proj2 KP) by lia. now apply (proj2 KP0).
      * intros H. specialize (R i H). lia.
    + split; [exact A1|]. split; [exact A2|]. apply Forall_forall. intros kv Hkv. rewrite A4. apply R, A3. now apply in_map.
    + intros k. rewrite A6. f_equal. apply val_of_ext. intros r Hr. apply (proj2 KP). now apply R1'.
Qed.

(** ** New dictionaries *)
Lemma new_keeps {A : arith} (h : heap A) s : keeps h (h ++ [s]).
Proof. split; [rewrite app_length; cbn; lia|]. intros i Hi. unfold deref. now rewrite app_nth1. Qed.
Lemma deref_new {A : arith} (h : heap A) s : deref (h ++ [s]) (List.length h) = s.
Proof. unfold deref. rewrite app_nth2 by lia. now rewrite Nat.sub_diag. Qed.

Lemma own_weaken {A : arith} (a b : heap A) d h : (List.length a <= List.length b)%nat -> own b d h -> own a d h.
Proof. intros L (H1 & H2 & H3). split; [exact H1|]. split; [exact H2|]. eapply Forall_impl; [|exact H3]. cbn. intros; lia. Qed.

Lemma total_cons k0 s l k : NoDup (k0 :: map fst l) -> total k ((k0, s) :: l) = if String.eqb k0 k then Some s else total k l.
Proof.
  intros ND. inversion ND as [|? ? NI _]; subst. unfold total, given. cbn [filter fst]. destruct (String.eqb_spec k0 k) as [->|N]; [|reflexivity].
  cbn [map snd]. assert (F : filter (fun x => String.eqb (fst x) k) l = []).
  { clear ND. induction l as [|[x y] l IH]; [reflexivity|]. cbn. destruct (String.eqb_spec x k) as [->|].
    - exfalso. apply NI. now left.
    - apply IH. intros H. apply NI. now right. }
  rewrite F. cbn [map]. now rewrite sum_stats_one.
Qed.

Lemma fresh_spec l : forall h : heap exact_num, NoDup (map fst l) ->
  let '(d, h') := fresh_dict h l in
  keeps h h' /\ own h d h' /\ map fst d = map fst l /\ forall k, val_of d h' k = total k l.
Proof.
  induction l as [|[k0 s] l IH]; intros h ND; cbn [fresh_dict].
  - split; [apply keeps_refl|]. split; [split; [constructor|split; constructor]|]. split; reflexivity.
  - cbn [map fst] in ND. inversion ND as [|? ? NI ND']; subst. cbn [new]. specialize (IH (h ++ [s]) ND').
    destruct (fresh_dict (h ++ [s]) l) as [d h']. destruct IH as (K & (O1 & O2 & O3) & M & V).
    pose proof (new_keeps h s) as KN. pose proof (keeps_trans _ _ _ KN K) as KT.
    assert (LH : List.length (h ++ [s]) = S (List.length h)) by (rewrite app_length; cbn; lia).
    split; [exact KT|]. split; [split; [|split]|split].
    + cbn. rewrite M. exact ND.
    + cbn. constructor; [|exact O2]. intros H. apply in_map_iff in H as (kv & E & Hkv). rewrite Forall_forall in O3. specialize (O3 kv Hkv). lia.
    + constructor; [cbn; destruct K; lia|]. eapply Forall_impl; [|exact O3]. cbn. intros; lia.
    + cbn. now rewrite M.
    + intros k. refine (eq_trans _ (eq_sym (total_cons k0 s l k ND))). rewrite val_of_cons, V. destruct (String.eqb k0 k); [|reflexivity].
      f_equal. rewrite (proj2 K) by lia. apply deref_new.
Qed.

(** ** Any grouping *)
Lemma evaluate_spec t : forall h : heap exact_num, each_leaf (fun l => NoDup (map fst l)) t ->
  let '(d, h') := evaluate t h in
  keeps h h' /\ own h d h' /\ forall k, val_of d h' k = total k (leaves t).
Proof.
  induction t as [l|a IHa b IHb]; intros h; cbn [each_leaf evaluate leaves].
  - intros ND. pose proof (fresh_spec l h ND) as F. destruct (fresh_dict h l) as [d h']. tauto.
  - intros [Ha Hb]. specialize (IHa h Ha). destruct (evaluate a h) as [d h1]. destruct IHa as (K1 & O1 & V1).
    specialize (IHb h1 Hb). destruct (evaluate b h1) as [o h2]. destruct IHb as (K2 & O2 & V2).
    pose proof (merge_own h h1 h2 d o K1 O1 K2 O2) as M. destruct (dmerge d h2 o) as [d' h']. destruct M as (M1 & M2 & M3).
    split; [exact M1|]. split; [exact M2|]. intros k. rewrite M3, V1, V2. symmetry. apply total_app.
Qed.

Lemma tree_merge t (h : heap exact_num) : each_leaf (fun l => NoDup (map fst l)) t ->
  exists d h', evaluate t h = (d, h') /\ keeps h h' /\ own h d h' /\ shows d h' (leaves t).
Proof.
  intros H. pose proof (evaluate_spec t h H) as E. destruct (evaluate t h) as [d h']. destruct E as (E1 & E2 & E3).
  exists d, h'. repeat split; try apply E1; try apply E2. apply shows_iff; [apply E2|exact E3].
Qed.

Lemma shows_perm d h l l' : Permutation l l' -> shows d h l -> shows d h l'.
Proof.
  intros P S k. rewrite (S k). assert (G : Permutation (given k l) (given k l')).
  { unfold given. apply Permutation_map. clear S. induction P; cbn.
    - constructor.
    - destruct (String.eqb _ k); [now constructor|assumption].
    - destruct (String.eqb (fst y) k), (String.eqb (fst x) k); try reflexivity. constructor.
    - etransitivity; eassumption. }
  destruct (given k l) as [|x xs], (given k l') as [|y ys]; auto.
  - apply Permutation_nil in G. discriminate.
  - symmetry in G. apply Permutation_nil in G. discriminate.
  - f_equal. now apply sum_stats_perm.
Qed.

(** ** Summary *)
Lemma summary_sum (h : heap exact_num) d : summary h d = sum_stats (map snd (entries h d)).
Proof.
  unfold summary, entries. rewrite map_map. cbn [snd].
  assert (G : forall acc, fold_left (fun acc kv => smg acc (deref h (snd kv))) d acc = smg acc (sum_stats (map (fun kv => deref h (snd kv)) d))).
  { induction d as [|kv d IH]; intros acc; cbn [fold_left map].
    - symmetry. apply smerge_0_r.
    - rewrite IH, sum_stats_cons. symmetry. apply smerge_assoc. }
  rewrite G. apply smerge_0_l.
Qed.
