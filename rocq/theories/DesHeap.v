(** The sorted queue of DesModel is simpy's heap. *)
From Coq Require Import Permutation Sorting.Sorted.
From Verif Require Import PyBase PyLemmas CoreModel DramModel RouterModel SystemModel DesModel DesSpec DesHeapSpec.

Definition drop (x : item) : entry ev := (it_time x, (if it_prio x =? 0 then Urgent else Normal), it_ev x).
Definition legal (x : item) : Prop := it_prio x = 0 \/ it_prio x = 1.
Fixpoint put_in (x : item) (l : list item) : list item :=
  match l with
  | [] => [x]
  | y :: r => if sooner (drop x) (drop y) then x :: l else y :: put_in x r
  end.
Lemma put_in_perm x l : Permutation (put_in x l) (x :: l).
Proof. induction l as [|y l IH]; cbn; [constructor; constructor|]. destruct (sooner _ _); [reflexivity|]. rewrite IH. constructor. Qed.
Lemma put_in_drop x l : map drop (put_in x l) = insert (drop x) (map drop l).
Proof. induction l as [|y l IH]; [reflexivity|]. cbn. destruct (sooner _ _); [reflexivity|]. cbn. now rewrite IH. Qed.
Lemma less_trans x y z : less x y -> less y z -> less x z.
Proof. unfold less. lia. Qed.
Lemma less_irrefl x : ~ less x x.
Proof. unfold less. lia. Qed.
Lemma sooner_less x y : legal x -> legal y -> sooner (drop x) (drop y) = true -> less x y.
Proof. unfold legal, sooner, less, drop. cbn. destruct (Z.eqb_spec (it_prio x) 0), (Z.eqb_spec (it_prio y) 0); cbn; lia. Qed.
Lemma not_sooner_less x y : legal x -> legal y -> it_eid y < it_eid x -> sooner (drop x) (drop y) = false -> less y x.
Proof. unfold legal, sooner, less, drop. cbn. destruct (Z.eqb_spec (it_prio x) 0), (Z.eqb_spec (it_prio y) 0); cbn; lia. Qed.
Lemma put_in_sorted x l : legal x -> Forall legal l -> Forall (fun y => it_eid y < it_eid x) l -> StronglySorted less l -> StronglySorted less (put_in x l).
Proof.
  intros HX. induction l as [|y l IH]; intros HL HE HS; cbn; [constructor; constructor|]. inversion HL; subst. inversion HE; subst. inversion HS; subst.
  destruct (sooner (drop x) (drop y)) eqn:E.
  - apply sooner_less in E; auto. constructor; [exact HS|]. constructor; [exact E|]. eapply Forall_impl; [|eassumption]. intros z. now apply less_trans.
  - apply not_sooner_less in E; auto. constructor; [now apply IH|]. apply Forall_forall. intros z HZ. apply (Permutation_in _ (put_in_perm x l)) in HZ. destruct HZ as [<-|HZ]; [exact E|].
    rewrite Forall_forall in *. auto.
Qed.
Record kept (l : list item) (eid : Z) (q : list (entry ev)) : Prop := {
  kp_drop : map drop l = q; kp_legal : Forall legal l; kp_eid : Forall (fun y => it_eid y < eid) l; kp_sorted : StronglySorted less l }.
Lemma kept_new now new : forall l eid q, kept l eid q -> exists l', Permutation l' (pushed now eid new ++ l) /\ kept l' (eid + zlen new) (schedule now new q).
Proof.
  induction new as [|[[d p] e] new IH]; intros l eid q [K1 K2 K3 K4].
  - exists l. split; [reflexivity|]. unfold zlen. cbn. rewrite Z.add_0_r. now constructor.
  - cbn [pushed]. set (x := (now + d, prio_number p, eid, e) : item).
    assert (LX : legal x) by (unfold legal, x; destruct p; cbn; auto).
    assert (DX : drop x = (now + d, p, e)) by (unfold drop, x; destruct p; reflexivity).
    destruct (IH (put_in x l) (eid + 1) (insert (now + d, p, e) q)) as (l' & HP & HK).
    + constructor.
      * rewrite put_in_drop, K1, DX. reflexivity.
      * eapply Permutation_Forall; [symmetry; apply put_in_perm|]. now constructor.
      * eapply Permutation_Forall; [symmetry; apply put_in_perm|]. constructor; [cbn; lia|]. eapply Forall_impl; [|exact K3]. cbn. intros. lia.
      * now apply put_in_sorted.
    + exists l'. split.
      * rewrite HP. rewrite put_in_perm. symmetry. cbn. apply Permutation_middle.
      * replace (eid + zlen ((d, p, e) :: new)) with (eid + 1 + zlen new) by (unfold zlen; cbn [length]; lia). exact HK.
Qed.
Lemma least_unique (x x0 : item) rest l : StronglySorted less (x0 :: l) -> Permutation (x0 :: l) (x :: rest) -> (forall y, In y rest -> less x y) -> x = x0 /\ Permutation l rest.
Proof.
  intros HS HP HL. inversion HS as [|? ? _ H]; subst. rewrite Forall_forall in H. assert (E : x = x0).
  { assert (I1 : In x (x0 :: l)) by (apply (Permutation_in _ (Permutation_sym HP)); now left). assert (I2 : In x0 (x :: rest)) by (apply (Permutation_in _ HP); now left).
    destruct I1 as [I1|I1]; [auto|]. destruct I2 as [I2|I2]; [auto|]. exfalso. apply (less_irrefl x). eapply less_trans; [apply HL; exact I2|auto]. }
  subst x0. split; [reflexivity|]. eapply Permutation_cons_inv; eauto.
Qed.
Lemma tagless_drop l : Forall legal l -> map tagless l = map (fun x => (e_time x, prio_number (e_prio x), e_ev x)) (map drop l).
Proof.
  intros H. rewrite map_map. apply map_ext_in. intros x HX. rewrite Forall_forall in H. apply H in HX. unfold tagless, drop, e_time, e_prio, e_ev. cbn. destruct HX as [-> | ->]; reflexivity.
Qed.

Section Heap.
Variables (c : sys_cfg) (j : job) (t0 : Z).
Definition linked (h : heap_sim) (s : sim) : Prop :=
  h_now h = w_now s /\ h_node h = w_node s /\ exists l, Permutation l (h_items h) /\ kept l (h_eid h) (w_queue s).
Lemma linked_alike h s : linked h s -> alike h s.
Proof.
  intros (E1 & E2 & l & HP & [K1 K2 K3 K4]). split; [exact E1|]. split; [exact E2|]. rewrite <- K1, <- tagless_drop by exact K2. apply Permutation_map. now symmetry.
Qed.
Lemma step_cases s s' : des_step (real c) c s = NStep s' -> z_fin (w_node s) <> FEnd /\ exists x q n new, w_queue s = x :: q /\ fire (real c) c (e_time x) (e_ev x) (w_node s) = DGo n new /\ s' = MkDes (e_time x) (schedule (e_time x) new q) n.
Proof.
  unfold des_step. intros HS. split; [intros E; rewrite E in HS; discriminate|].
  destruct (z_fin (w_node s)); try discriminate; (destruct (w_queue s) as [|x q]; [discriminate|]; destruct (fire (real c) c (e_time x) (e_ev x) (w_node s)) as [n new| |] eqn:E; try discriminate; injection HS as <-; eauto 8).
Qed.
Lemma heap_to_queue h h' s : linked h s -> heap_step c h h' -> exists s', des_step (real c) c s = NStep s' /\ linked h' s'.
Proof.
  intros (E1 & E2 & l & HP & HK) HS. destruct HS as [h x rest n new items HF HI HL HG HN]. destruct HK as [K1 K2 K3 K4].
  rewrite HI in HP. destruct l as [|x0 l]; [apply Permutation_nil in HP; discriminate|].
  destruct (least_unique x x0 rest l K4 HP HL) as [<- HR]. cbn in K1. inversion K2; subst. inversion K3; subst. inversion K4; subst.
  destruct (kept_new (it_time x) new l (h_eid h) (map drop l)) as (l' & HP' & HK'); [now constructor|].
  exists (MkDes (it_time x) (schedule (it_time x) new (map drop l)) n). split.
  - unfold des_step. rewrite <- E2, <- K1. replace (e_time (drop x)) with (it_time x) by reflexivity. replace (e_ev (drop x)) with (it_ev x) by reflexivity. rewrite HG. destruct (z_fin (h_node h)); congruence.
  - split; [reflexivity|]. split; [reflexivity|]. exists l'. split; [|exact HK']. cbn. rewrite HP', HN, HR. reflexivity.
Qed.
Lemma queue_to_heap h s s' : linked h s -> des_step (real c) c s = NStep s' -> exists h', heap_step c h h' /\ linked h' s'.
Proof.
  intros (E1 & E2 & l & HP & [K1 K2 K3 K4]) HS. apply step_cases in HS as (HF & x & q & n & new & EQ & HG & ->). rewrite EQ in K1. destruct l as [|y l]; [discriminate|]. cbn in K1. injection K1 as <- <-.
  inversion K2; subst. inversion K3; subst. inversion K4; subst.
  destruct (kept_new (it_time y) new l (h_eid h) (map drop l)) as (l' & HP' & HK'); [now constructor|].
  exists (MkHeapSim (it_time y) (pushed (it_time y) (h_eid h) new ++ l) (h_eid h + zlen new) n). split.
  - apply (heap_pops c h y l n new); [now rewrite E2|now symmetry| |now rewrite E2|reflexivity]. rewrite Forall_forall in *. auto.
  - split; [reflexivity|]. split; [reflexivity|]. exists l'. split; [exact HP'|exact HK'].
Qed.
Lemma first_linked eid items : Permutation items (pushed t0 eid (start VMonitor :: map (fun i => start (VTile i)) (zrange (w_tiles (y_net c))) ++ (if w_tiles (y_net c) <=? 0 then [soon VAllTiles] else []))) ->
  linked (MkHeapSim t0 items (eid + 1 + Z.max 0 (w_tiles (y_net c)) + (if w_tiles (y_net c) <=? 0 then 1 else 0))
                    (MkDNode (map (fun i => tile_new (cells_new c (j_activation j) i) (j_cores j i) (j_prog j i)) (zrange (w_tiles (y_net c)))) t0 t0 0 true FRunning)) (des_first c t0 j).
Proof.
  intros HI. split; [reflexivity|]. split; [reflexivity|].
  destruct (kept_new t0 (start VMonitor :: map (fun i => start (VTile i)) (zrange (w_tiles (y_net c))) ++ (if w_tiles (y_net c) <=? 0 then [soon VAllTiles] else [])) [] eid []) as (l & HP & HK); [constructor; constructor|].
  exists l. split; [cbn [h_items]; rewrite HP, HI; now rewrite app_nil_r|]. cbn [h_eid].
  assert (L : length (zrange (w_tiles (y_net c))) = Z.to_nat (w_tiles (y_net c))) by apply length_zrange.
  replace (eid + 1 + _ + _) with (eid + zlen (start VMonitor :: map (fun i => start (VTile i)) (zrange (w_tiles (y_net c))) ++ (if w_tiles (y_net c) <=? 0 then [soon VAllTiles] else []))).
  - unfold des_first, des_begin. cbn [w_queue]. replace (map (fun i => start (VTile (Z.of_nat i))) _) with (map (fun i => start (VTile i)) (zrange (w_tiles (y_net c)))).
    + replace (match map _ _ with [] => [soon VAllTiles] | _ => [] end) with (if w_tiles (y_net c) <=? 0 then [soon VAllTiles] else []); [exact HK|].
      destruct (zrange (w_tiles (y_net c))) eqn:E; cbn in L |- *; destruct (Z.leb_spec (w_tiles (y_net c)) 0); auto; lia.
    + rewrite map_length, L. unfold zrange. rewrite map_map. reflexivity.
  - unfold zlen. cbn [length]. rewrite app_length, map_length, L. destruct (Z.leb_spec (w_tiles (y_net c)) 0); cbn [length]; lia.
Qed.
Theorem heap_simulated h : heap_reach c j t0 h -> exists s, sim_reach c j t0 s /\ alike h s.
Proof.
  intros H. enough (exists s, sim_reach c j t0 s /\ linked h s) as (s & H1 & H2) by (exists s; split; [exact H1|now apply linked_alike]).
  induction H as [eid items tiles -> HI|h h' H (s & IH1 & IH2) HS].
  - exists (des_first c t0 j). split; [constructor|]. now apply first_linked.
  - destruct (heap_to_queue _ _ _ IH2 HS) as (s' & H1 & H2). exists s'. split; [econstructor; eauto|exact H2].
Qed.
Theorem queue_simulated s : sim_reach c j t0 s -> exists h, heap_reach c j t0 h /\ alike h s.
Proof.
  intros H. enough (exists h, heap_reach c j t0 h /\ linked h s) as (h & H1 & H2) by (exists h; split; [exact H1|now apply linked_alike]).
  induction H as [|s s' H (h & IH1 & IH2) HS].
  - eexists. split; [apply (heap_first c j t0 0); reflexivity|]. apply first_linked. reflexivity.
  - destruct (queue_to_heap _ _ _ IH2 HS) as (h' & H1 & H2). exists h'. split; [econstructor; eauto|exact H2].
Qed.
End Heap.
