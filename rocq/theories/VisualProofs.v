(** Proofs about the summary. *)
From Verif Require Import PyBase PyLemmas VisualModel VisualSpec.
From Coq Require Import String Permutation Sorted ZifyBool ZifyNat.
Open Scope Z_scope.

Definition under (k : nat) (v : visit) : visit := (k :: fst (fst v), snd (fst v), snd v).
Definition named (i : option Z) (v : visit) : visit := (fst (fst v), i :: snd (fst v), snd v).
Section Visits.
Context (f : comp -> list visit).
Fixpoint visits_with (k : nat) (l : list comp) : list visit := match l with [] => [] | y :: r => map (under k) (f y) ++ visits_with (S k) r end.
End Visits.
Fixpoint visit_of (x : comp) : list visit :=
  let 'MkComp t i s q := x in
  ([], [i], x) :: map (named i) match q with
    | Some l => (fix go (k : nat) (l : list comp) : list visit := match l with [] => [] | y :: r => map (under k) (visit_of y) ++ go (S k) r end) 0%nat l
    | None => []
    end.
Notation visits := (visits_with visit_of).
Lemma visit_eq x : visit_of x = ([], [cid x], x) :: map (named (cid x)) (visits 0 (cparts x)).
Proof. now destruct x as [t i s [l|]]. Qed.
Lemma comp_rec' (P : comp -> Prop) : (forall x, Forall P (cparts x) -> P x) -> forall x, P x.
Proof.
  intros H. fix F 1. intros [t i s [l|]]; apply H; cbn [cparts]; [|constructor]. induction l as [|y r IH]; constructor; [apply F|exact IH].
Qed.

(** The visits are the places. *)
Definition found (x : comp) : Prop := forall p ids z, In (p, ids, z) (visit_of x) <-> (p = [] /\ ids = [cid x] /\ z = x) \/ exists ids', ids = cid x :: ids' /\ place (cparts x) p ids' z.
Lemma visits_found l : Forall found l -> forall k p ids z, In (p, ids, z) (visits k l) <-> exists j p', p = (k + j)%nat :: p' /\ place l (j :: p') ids z.
Proof.
  induction 1 as [|y r HY _ IH]; intros k p ids z; cbn [visits_with].
  - split; [intros []|]. intros (j & p' & _ & H). inversion H as [? ? ? E|? ? ? ? ? ? E]; subst; destruct j; discriminate E.
  - rewrite in_app_iff, in_map_iff, (IH (S k)). split.
    + intros [(v & E & I)|(j & p' & -> & H)].
      * destruct v as ((q, jds), w). cbn in E. injection E as <- <- <-. exists 0%nat, q. split; [f_equal; lia|]. apply HY in I. destruct I as [(-> & -> & ->)|(ids' & -> & H)]; [now constructor|].
        apply (place_in _ _ y); [reflexivity|exact H].
      * exists (S j), p'. split; [f_equal; lia|]. inversion H as [? ? ? E|? ? ? ? ? ? E PL]; subst; [now constructor|now apply (place_in _ _ y0)].
    + intros ([|j] & p' & -> & H).
      * left. exists (p', ids, z). split; [unfold under; cbn; do 2 f_equal; f_equal; lia|]. apply HY. inversion H as [? ? ? E|? ? ? ? ? ? E PL]; subst; cbn in E; injection E as ->; [left; auto|right; eauto].
      * right. exists j, p'. split; [f_equal; lia|]. inversion H as [? ? ? E|? ? ? ? ? ? E PL]; subst; [now constructor|now apply (place_in _ _ y0)].
Qed.
Lemma all_found x : found x.
Proof.
  induction x as [x IH] using comp_rec'. intros p ids z. rewrite visit_eq. cbn [In]. rewrite in_map_iff. split.
  - intros [E|(((q, jds), w) & E & I)]; [left; injection E as <- <- <-; auto|right]. cbn in E. injection E as <- <- <-. apply (visits_found _ IH) in I. destruct I as (j & p' & -> & H).
    exists jds. split; [reflexivity|exact H].
  - intros [(-> & -> & ->)|(ids' & -> & H)]; [now left|right]. exists (p, ids', z). split; [reflexivity|]. apply (visits_found _ IH).
    assert (exists j p', p = j :: p') as (j & p' & ->) by (inversion H; eauto). exists j, p'. auto.
Qed.
Lemma places_visits l p ids z : In (p, ids, z) (visits 0 l) <-> place l p ids z.
Proof.
  assert (F : Forall found l) by (apply Forall_forall; intros; apply all_found). rewrite (visits_found _ F). split; [intros (j & p' & -> & H); exact H|].
  intros H. assert (exists j p', p = j :: p') as (j & p' & ->) by (inversion H; eauto). exists j, p'. auto.
Qed.

(** They are sorted. *)
Notation path := (fun v : visit => fst (fst v)).
Lemma sorted_app (l r : list (list nat)) : StronglySorted before l -> StronglySorted before r -> (forall a b, In a l -> In b r -> before a b) -> StronglySorted before (l ++ r).
Proof.
  induction 1 as [|a l SL IH FA]; intros SR H; [exact SR|]. cbn [app]. constructor; [apply IH; [exact SR|intros; apply H; cbn; auto]|].
  apply Forall_app. split; [exact FA|]. apply Forall_forall. intros b B. apply H; [now left|exact B].
Qed.
Lemma sorted_under k l : StronglySorted before l -> StronglySorted before (map (cons k) l).
Proof. induction 1 as [|a l _ IH FA]; cbn; constructor; [exact IH|]. apply Forall_map. eapply Forall_impl; [|exact FA]. intros b B. now constructor. Qed.
Lemma path_under k l : map path (map (under k) l) = map (cons k) (map path l).
Proof. rewrite !map_map. reflexivity. Qed.
Lemma path_named i l : map path (map (named i) l) = map path l.
Proof. rewrite !map_map. reflexivity. Qed.
Lemma visits_heads l : forall k p, In p (map path (visits k l)) -> exists j q, p = j :: q /\ (k <= j)%nat.
Proof.
  induction l as [|y r IH]; intros k p; cbn [visits_with map]; [intros []|]. rewrite map_app, in_app_iff, path_under, in_map_iff. intros [(q & <- & _)|I]; [eauto|].
  destruct (IH _ _ I) as (j & q & -> & L). exists j, q. split; [reflexivity|lia].
Qed.
Lemma visits_sorted l : Forall (fun x => StronglySorted before (map path (visit_of x))) l -> forall k, StronglySorted before (map path (visits k l)).
Proof.
  induction 1 as [|y r HY _ IH]; intros k; cbn [visits_with map]; [constructor|]. rewrite map_app, path_under. apply sorted_app; [now apply sorted_under|apply IH|].
  intros a b A B. apply in_map_iff in A. destruct A as (q & <- & _). destruct (visits_heads _ _ _ B) as (j & q' & -> & L). constructor. lia.
Qed.
Lemma visit_sorted x : StronglySorted before (map path (visit_of x)).
Proof.
  induction x as [x IH] using comp_rec'. rewrite visit_eq. cbn [map]. rewrite path_named. constructor; [now apply visits_sorted|]. apply Forall_forall. intros p I.
  destruct (visits_heads _ _ _ I) as (j & q & -> & _). constructor.
Qed.
Lemma all_sorted k l : StronglySorted before (map path (visits k l)).
Proof. apply visits_sorted, Forall_forall. intros. apply visit_sorted. Qed.
Lemma filter_sorted (g : visit -> bool) l : StronglySorted before (map path l) -> StronglySorted before (map path (filter g l)).
Proof.
  induction l as [|a l IH]; intros H; [constructor|]. cbn [map] in H. inversion H as [|? ? SL FA]; subst. cbn [filter]. destruct (g a); [|now apply IH]. cbn [map]. constructor; [now apply IH|].
  apply Forall_forall. intros p I. apply in_map_iff in I. destruct I as (v & <- & I). apply filter_In in I. rewrite Forall_forall in FA. apply FA, (in_map path). tauto.
Qed.

(** Rows. *)
Lemma total_counted s : op_total s = counted s.
Proof. unfold op_total, counted, counts_of. destruct (o_counts s) as [l|]; [|reflexivity]. unfold zsum. induction l as [|y l IH]; [reflexivity|]. cbn [map fold_right]. now rewrite IH. Qed.
Lemma total_operations x : op_total (cstats x) = operations x.
Proof. apply total_counted. Qed.
Fixpoint rows_to (d : nat) (l : list comp) : list (list (option Z) * Z) :=
  match d with
  | O => []
  | S d => flat_map (fun x => ([cid x], operations x) :: map (fun r => (cid x :: fst r, snd r)) (rows_to d (cparts x))) l
  end.
Lemma flat_map_map {A B C} (f : A -> list B) (g : B -> C) l : map g (flat_map f l) = flat_map (fun x => map g (f x)) l.
Proof. induction l as [|a l IH]; [reflexivity|]. cbn. now rewrite map_app, IH. Qed.
Lemma flat_ext {A B} (f g : A -> list B) l : (forall x, f x = g x) -> flat_map f l = flat_map g l.
Proof. intros H. induction l as [|a l IH]; [reflexivity|]. cbn. now rewrite H, IH. Qed.
Lemma flat_single {A B} (f : A -> B) l : flat_map (fun x => [f x]) l = map f l.
Proof. induction l as [|a l IH]; [reflexivity|]. cbn. now rewrite IH. Qed.
Lemma rows_three l : all_rows l = rows_to 3 l.
Proof.
  unfold all_rows. cbn [rows_to]. apply flat_ext. intros x. unfold node_rows. rewrite total_operations, flat_map_map. f_equal. apply flat_ext. intros y. unfold tile_rows. rewrite total_operations. cbn [map fst snd]. f_equal.
  rewrite map_map. cbn [map]. rewrite flat_single, map_map. apply map_ext. intros z. unfold core_row. now rewrite total_operations.
Qed.
Definition within (d : nat) (v : visit) : bool := (List.length (fst (fst v)) <=? d)%nat.
Lemma filter_under d k l : map row_of (filter (within (S d)) (map (under k) l)) = map row_of (filter (within d) l).
Proof. induction l as [|v l IH]; [reflexivity|]. cbn [map filter]. change (within (S d) (under k v)) with (within d v). destruct (within d v); cbn [map]; now rewrite IH. Qed.
Lemma filter_named d i l : map row_of (filter (within d) (map (named i) l)) = map (fun r => (i :: fst r, snd r)) (map row_of (filter (within d) l)).
Proof. induction l as [|v l IH]; [reflexivity|]. cbn [map filter]. change (within d (named i v)) with (within d v). destruct (within d v); cbn [map]; now rewrite IH. Qed.
Lemma rows_visits d : forall l k, map row_of (filter (within d) (visits k l)) = rows_to d l.
Proof.
  induction d as [|d IH]; intros l k.
  - assert (E : filter (within 0) (visits k l) = []); [|now rewrite E]. generalize (visits_heads l k). generalize (visits k l) as vs. induction vs as [|v vs IH]; intros H; [reflexivity|]. cbn [filter].
    destruct (H (path v) (or_introl eq_refl)) as (j & q & E & _). unfold within. rewrite E. cbn [List.length Nat.leb]. apply IH. intros p I. apply H. now right.
  - revert k. induction l as [|y r IHL]; intros k; [reflexivity|]. cbn [visits_with rows_to flat_map]. rewrite filter_app, map_app, filter_under. f_equal; [|apply IHL].
    rewrite visit_eq. cbn [filter within fst List.length Nat.leb map]. change (within d ([], [cid y], y)) with true. cbn [map]. f_equal. rewrite filter_named, IH. reflexivity.
Qed.
Theorem rows_tour l : exists vs, tour (fun d => (d <= 3)%nat) l vs /\ all_rows l = map row_of vs.
Proof.
  exists (filter (within 3) (visits 0 l)). split; [|now rewrite rows_visits, rows_three]. split; [|apply filter_sorted, all_sorted].
  intros p ids x. rewrite filter_In, places_visits. unfold within. cbn [fst]. rewrite Nat.leb_le. reflexivity.
Qed.

(** Printed lines. *)
Definition lines_at (indent : nat) (v : visit) : list line :=
  let d := (indent + List.length (path v))%nat in
  [LName d (ctype (snd v)) (cid (snd v)); LOps (d + 1) (operations (snd v)); LTime (d + 1) (or_zero (o_time (cstats (snd v))))].
Lemma print_go indent q : Forall (fun x => forall n, print_comp n x = flat_map (lines_at n) (visit_of x)) q -> forall k,
  flat_map (print_comp (indent + 1)) q = flat_map (lines_at indent) (visits k q).
Proof.
  induction 1 as [|y r HY _ IH]; intros k; [reflexivity|]. cbn [flat_map visits_with]. rewrite flat_map_app, (IH (S k)), HY. f_equal. clear HY. induction (visit_of y) as [|v vs IHV]; [reflexivity|]. cbn [map flat_map]. rewrite IHV. f_equal.
  unfold lines_at, under. cbn [fst snd List.length]. now replace (indent + S (List.length (path v)))%nat with (indent + 1 + List.length (path v))%nat by lia.
Qed.
Lemma print_named n i l : flat_map (lines_at n) (map (named i) l) = flat_map (lines_at n) l.
Proof. induction l as [|v l IH]; [reflexivity|]. cbn [map flat_map]. now rewrite IH. Qed.
Lemma print_eq n x : print_comp n x = LName n (ctype x) (cid x) :: LOps (n + 1) (operations x) :: LTime (n + 1) (or_zero (o_time (cstats x))) :: flat_map (print_comp (n + 1)) (cparts x).
Proof.
  rewrite <- total_operations. now destruct x as [t i s [l|]].
Qed.
Lemma print_visits x : forall n, print_comp n x = flat_map (lines_at n) (visit_of x).
Proof.
  induction x as [x IH] using comp_rec'. intros n. rewrite print_eq, visit_eq. cbn [flat_map]. rewrite print_named, (print_go n _ IH 0). unfold lines_at at 2. cbn [fst snd List.length]. rewrite Nat.add_0_r. reflexivity.
Qed.
Theorem print_tour l : exists vs, tour (fun _ => True) l vs /\ print_all l = flat_map lines_of vs.
Proof.
  exists (visits 0 l). split; [split; [intros; rewrite places_visits; tauto|apply all_sorted]|]. unfold print_all. generalize 0%nat at 2 as k. induction l as [|y r IH]; intros k; [reflexivity|].
  cbn [flat_map visits_with]. rewrite flat_map_app, <- (IH (S k)), print_visits. f_equal. induction (visit_of y) as [|v vs IHV]; [reflexivity|]. cbn [map flat_map]. rewrite <- IHV. f_equal.
  unfold lines_at, lines_of, under. cbn [fst snd List.length]. now rewrite Nat.sub_succ, Nat.sub_0_r, Nat.add_1_r.
Qed.

(** The ten busiest. *)
Lemma sorted_split (f : nat -> Z) l r : StronglySorted Z.le (map f (l ++ r)) -> forall a b, In a l -> In b r -> f a <= f b.
Proof.
  induction l as [|x l IH]; intros H a b; [intros []|]. cbn [app map] in H. inversion H as [|? ? SL FA]; subst. intros [->|A] B; [|now apply IH]. rewrite Forall_forall in FA. apply FA, in_map, in_or_app. now right.
Qed.
Theorem top_busiest argsort rows : sorts argsort -> busiest rows (top_rows argsort rows).
Proof.
  intros S. unfold top_rows. destruct (Nat.ltb_spec 10 (List.length rows)) as [L|L]; [|exists []; rewrite app_nil_r; split; [reflexivity|]; split; [now left|intros ? ? _ []]].
  destruct (S (map snd rows)) as (P & O). set (o := argsort (map snd rows)) in *. clearbody o. rewrite map_length in P. pose proof (Permutation_length P) as LO. rewrite seq_length in LO.
  set (n := (List.length o - 10)%nat). set (at_ := fun i => nth i rows ([], 0)). exists (map at_ (firstn n o)). split; [|split; [right; rewrite map_length, skipn_length; lia|]].
  - rewrite <- map_app. transitivity (map at_ o); [|apply Permutation_map; rewrite Permutation_app_comm, firstn_skipn; reflexivity]. transitivity (map at_ (seq 0 (List.length rows))); [|apply Permutation_map; now symmetry].
    replace (map at_ (seq 0 (List.length rows))) with rows; [reflexivity|]. apply nth_ext with (d := ([], 0)) (d' := at_ 0%nat); [now rewrite map_length, seq_length|]. intros i I.
    rewrite (map_nth at_), seq_nth by exact I. reflexivity.
  - intros a b A B. apply in_map_iff in A, B. destruct A as (i & <- & I), B as (j & <- & J). rewrite <- (firstn_skipn n o) in O. pose proof (sorted_split _ _ _ O j i J I) as Q.
    assert (N : forall k, nth k (map snd rows) 0 = snd (at_ k)) by (intros k; exact (map_nth snd rows ([], 0) k)). cbv beta in Q. rewrite !N in Q. exact Q.
Qed.

(** When it raises. *)
Theorem summary_raises argsort s l d : find_entry d "stats" = Some (EStats s) -> find_entry d "components" = Some (EParts l) -> empty_stats s = false -> l <> [] ->
  let types := List.length (match o_counts s with Some x => x | None => [] end) in
  snd (summarize argsort d) = if (types =? 1)%nat || (types =? 4)%nat then Ok tt else Raise ValueError.
Proof.
  intros HS P E N. unfold summarize. destruct d as [|x d]; [discriminate HS|]. rewrite HS. unfold the_parts. rewrite P. unfold visualize. rewrite E. destruct l as [|y l]; [contradiction|]. cbn [orb].
  destruct (o_counts s) as [[|a [|b q]]|]; try reflexivity. cbn [map averages fst]. cbn [List.length]. change (List.length (avg_times s)) with 4%nat. rewrite map_length.
  change (S (S (List.length q)) =? 1)%nat with false. cbn [orb]. destruct (S (S (List.length q)) =? 4)%nat; reflexivity.
Qed.
Theorem summary_shows argsort s l d out f : find_entry d "stats" = Some (EStats s) -> find_entry d "components" = Some (EParts l) -> empty_stats s = false -> l <> [] ->
  summarize argsort d = (out, f, Ok tt) -> sorts argsort ->
  exists g vs ws, f = Some g /\ tour (fun n => (n <= 3)%nat) l vs /\ busiest (map row_of vs) (f_rows g) /\ tour (fun _ => True) l ws /\
    out = [LResults; LOps 0 (counted s); LTime 0 (time_of s); LComponents] ++ flat_map lines_of ws /\ f_counts g = counts_of s /\ f_timeline g = o_done s.
Proof.
  intros S P E N H SO. unfold summarize in H. destruct d as [|x d]; [discriminate S|]. rewrite S in H. unfold the_parts in H. rewrite P in H. unfold visualize in H. rewrite E in H. destruct l as [|y l]; [contradiction|].
  cbn [orb] in H. destruct (averages _ _) as [a|e]; [|discriminate H]. injection H as <- <-. destruct (rows_tour (y :: l)) as (vs & T & R). destruct (print_tour (y :: l)) as (ws & T' & R').
  eexists _, vs, ws. split; [reflexivity|]. split; [exact T|]. split; [cbn [f_rows]; rewrite <- R; now apply top_busiest|]. split; [exact T'|]. rewrite <- R', <- total_counted. now repeat split.
Qed.
Theorem summary_quiet argsort s d : find_entry d "stats" = Some (EStats s) -> empty_stats s = true \/ find_entry d "components" = None \/ find_entry d "components" = Some (EParts []) ->
  summarize argsort d = ([LResults; LOps 0 (counted s); LTime 0 (time_of s)], None, Ok tt).
Proof.
  intros HS Q. unfold summarize. destruct d as [|x d]; [discriminate HS|]. rewrite HS, total_counted. unfold the_parts, visualize.
  destruct Q as [Q|[Q|Q]]; rewrite Q, ?orb_true_r; reflexivity.
Qed.
Theorem summary_object argsort d e : find_entry d "stats" = Some e -> (forall s, e <> EStats s) -> summarize argsort d = ([LResults], None, Raise AttributeError).
Proof. intros F N. unfold summarize. destruct d as [|x d]; [discriminate F|]. rewrite F. destruct e as [|s|l]; [reflexivity|now destruct (N s)|reflexivity]. Qed.
Theorem summary_averages argsort s l d out g : find_entry d "stats" = Some (EStats s) -> find_entry d "components" = Some (EParts l) -> summarize argsort d = (out, Some g, Ok tt) ->
  let z (t : option Z) := match t with Some n => n | None => 0 end in
  match map fst (counts_of s) with
  | [a] => f_averages g = [(a, z (o_load s)); (a, z (o_set s)); (a, z (o_alu s)); (a, z (o_mvm s))]
  | [a; b; c; e] => f_averages g = [(a, z (o_load s)); (b, z (o_set s)); (c, z (o_alu s)); (e, z (o_mvm s))]
  | _ => False
  end.
Proof.
  intros S P H. unfold summarize in H. destruct d as [|x d]; [discriminate S|]. rewrite S in H. unfold the_parts in H. rewrite P in H. unfold visualize in H. fold (counts_of s) in H. destruct (empty_stats s || _); [discriminate H|].
  destruct (map fst (counts_of s)) as [|a [|b [|c [|e [|q r]]]]]; cbn in H; try discriminate H; injection H as _ <-; reflexivity.
Qed.
