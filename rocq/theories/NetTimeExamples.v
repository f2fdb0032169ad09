(** One concrete execution for the theorems about times. *)
From Verif Require Import PyBase PyLemmas RouterModel RouterSpec RouterProofs NetTimeSpec NetTime.
From Coq Require Import ZifyBool.

(** Tile 2 of four submits three packets as fast as it can (the data memory takes 2 cycles) and the network delivers one every 3. *)
Definition steady_cfg : net_cfg := MkNetCfg 4 2 3 8 2.
Definition steady : list (Z * nact) :=
  [(0, NSubmit 2 3 [1; 2]); (0, NTake 2); (2, NAdded 2); (2, NSubmit 2 1 [7]);
   (3, NTravel 2); (3, NStore 2); (3, NCount 2); (3, NDone 2); (3, NTake 2);
   (4, NAdded 2); (4, NSubmit 2 0 [8]); (6, NAdded 2); (6, NTravel 2); (6, NStore 2); (6, NCount 2); (6, NDone 2); (6, NTake 2);
   (9, NTravel 2); (9, NStore 2)].

(** A decision procedure for [urgent]. *)
Definition routine (i : Z) : list nact := [NAdded i; NTake i; NTravel i; NStore i; NCount i; NDone i; NPop i; NGot i; NPoll i; NStopped i].
Definition quiet (c : net_cfg) (t0 t : Z) (s : net) : bool :=
  forallb (fun t' => forallb (fun i => forallb (fun b => match nstep c t' b s with None => true | Some _ => false end) (routine i)) (zrange (w_tiles c)))
    (map (Z.add t0) (zrange (t - t0))).
Fixpoint urgentb (c : net_cfg) (t0 : Z) (l : list (Z * nact)) (s : net) : bool :=
  match l with
  | [] => true
  | (t, a) :: l' => quiet c t0 t s && match nstep c t a s with Some s' => urgentb c t l' s' | None => false end
  end.
Lemma routine_in b : tile_call b = false -> In b (routine (tile_of b)).
Proof. destruct b; cbn; intros; try discriminate; tauto. Qed.
Lemma quiet_spec c t0 t s : quiet c t0 t s = true -> forall t' b, t0 <= t' < t -> tile_call b = false -> nstep c t' b s = None.
Proof.
  intros Q t' b L T. unfold quiet in Q. rewrite forallb_forall in Q. specialize (Q t'). rewrite forallb_forall in Q.
  destruct (known_router c (tile_of b)) eqn:K.
  - assert (I : In t' (map (Z.add t0) (zrange (t - t0)))).
    { apply in_map_iff. exists (t' - t0). split; [lia|]. apply in_zrange. lia. }
    specialize (Q I (tile_of b)). rewrite forallb_forall in Q.
    assert (J : In (tile_of b) (zrange (w_tiles c))) by (apply in_zrange; unfold known_router in K; lia).
    specialize (Q J b (routine_in b T)). now destruct (nstep c t' b s).
  - unfold nstep, nstep_cap. destruct (n_crash s); [reflexivity|]. now rewrite K.
Qed.
Lemma urgentb_spec c l : forall t0 s, urgentb c t0 l s = true -> urgent c t0 l s.
Proof.
  induction l as [|(t & a) l IH]; intros t0 s H; cbn in *; [exact I|]. apply andb_prop in H as (H1 & H2). split; [now apply quiet_spec|].
  destruct (nstep c t a s); [now apply IH|discriminate].
Qed.

Lemma steady_counts : nrun steady_cfg steady net_init <> None /\
  map (fun t => (until (call_of 2) t steady, until (arrival_of 2) t steady)) [0; 2; 3; 4; 6; 9] = [(1, 0); (2, 0); (2, 1); (3, 1); (3, 2); (3, 3)].
Proof.
  split; [|vm_compute; reflexivity]. intros H.
  assert (B : match nrun steady_cfg steady net_init with None => false | Some _ => true end = true) by (vm_compute; reflexivity).
  now rewrite H in B.
Qed.
Lemma steady_rate : until (arrival_of 2) 9 steady - 2 = 1 /\ until (call_of 2) (9 - 3 * 3) steady = 1 /\ until (arrival_of 2) 8 steady - 2 = 0.
Proof. vm_compute. repeat split; reflexivity. Qed.
Lemma steady_calls : until (call_of 2) 2 steady = 2 /\ until (call_of 2) 0 steady = 1 /\ until (call_of 2) 1 steady = 1.
Proof. vm_compute. repeat split; reflexivity. Qed.
Lemma steady_urgent : urgent steady_cfg 0 steady net_init /\ end_of 0 steady = 9 /\
  map (fun t => (until (take_of 2) t steady, until (travel_of 2) (t + 3) steady)) [0; 1; 3; 4; 5] = [(1, 1); (1, 1); (2, 2); (2, 2); (2, 2)].
Proof. split; [apply urgentb_spec; vm_compute; reflexivity|]. vm_compute. split; reflexivity. Qed.
