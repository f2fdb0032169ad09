(** The program of the example on symbolic values. *)
From Verif Require Import PyBase VfuModel MvmuModel CoreModel DramModel DramSpec RouterModel SystemModel LoaderModel LoaderSpec SymMachine MlpProgram.
From Coq Require Import ZifyBool String.
Open Scope Z_scope.

(** Conversions of pydantic that are needed, and no others. *)
Definition strict : lax :=
  MkLax (fun v => match v with JInt z => Some z | _ => None end) (fun v => match v with JBool b => Some b | _ => None end) (fun _ => None).
Definition mlp_list : list op := Eval vm_compute in valid_ops strict mlp_ops.
Definition of_tile (t : Z) (l : list op) : list top :=
  flat_map (fun o => match o_instr o with ITile i => if o_tile o =? t then [i] else [] | _ => [] end) l.
Definition of_core (t k : Z) (l : list op) : list cop :=
  flat_map (fun o => match o_instr o with ICore k' i => if (o_tile o =? t) && (k' =? k) then [i] else [] | _ => [] end) l.

(** Unit number [u] (of 98) and its output [j]. *)
Definition unit_out (u j : Z) : sv := VU (2 + u / 48) (u mod 48 / 6) (u mod 6) j.
Fixpoint sum_from (u : Z) (rest : nat) (j : Z) (acc : sv) : sv :=
  match rest with O => acc | S r => sum_from (u + 1) r j (VAdd (unit_out u j) acc) end.
Definition sum_units (first parts j : Z) : sv := sum_from (first + 1) (Z.to_nat (parts - 1)) j (unit_out first j).
(** Entry [e] of the output of a layer. *)
Definition layer_out (first parts e : Z) : sv := VRelu (sum_units (first + e / 128 * parts) parts (e mod 128)).
Definition ins (size : Z) (f : Z -> sv) (p : Z) : list sv := map (fun j => if 128 * p + j <? size then f (128 * p + j) else VC 0) (zrange 128).
Definition unit_in (u : Z) : list sv :=
  if u <? 56 then ins 784 VIn (u mod 7)
  else if u <? 88 then ins 1024 (layer_out 0 7) ((u - 56) mod 8)
  else if u <? 96 then ins 512 (layer_out 56 8) ((u - 88) mod 4)
  else ins 200 (layer_out 88 4) (u - 96).
Definition unit_no (t k u : Z) : Z := 48 * (t - 2) + 6 * k + u.
Definition used_unit (t k u : Z) : bool := (2 <=? t) && (0 <=? k) && (k <? 8) && (0 <=? u) && (u <? 6) && (unit_no t k u <? 98).
Definition mlp_geo : geo :=
  MkGeo 128 6 4096 4200 5 1 (fun t k u => if used_unit t k u then Some (unit_in (unit_no t k u)) else None).

Definition mlp_core (t k : Z) : score := MkSCore (repeat (VC 0) (Z.to_nat 5632)) (of_core t k mlp_list) SReady.
Definition mlp_tile (t : Z) : stile :=
  MkSTile (map (fun a => if (t =? 0) && (a <? 784) then Some (VIn a) else None) (zrange 4200)) [] [] 0
    (map (mlp_core t) (zrange 8)) (of_tile t mlp_list) SNext None true.
Definition mlp_start : ssys := map mlp_tile (zrange 5).

(** A schedule with which all programs complete. *)
Definition mlp_schedule : list (big * Z) := [
  (BXfer 0, 7); (BCore 0 0, 1); (BCore 0 1, 1); (BCore 0 2, 1); (BCore 0 3, 1); (BCore 0 4, 1); (BCore 0 5, 1); (BCore 0 6, 1); (BCore 0 7, 1);
   (BCore 1 0, 1); (BCore 1 1, 1); (BCore 1 2, 1); (BCore 1 3, 1); (BCore 1 4, 1); (BCore 1 5, 1); (BCore 1 6, 1); (BCore 1 7, 1); (BCore 2 0, 1);
   (BCore 2 1, 1); (BCore 2 2, 1); (BCore 2 3, 1); (BCore 2 4, 1); (BCore 2 5, 1); (BCore 2 6, 1); (BCore 2 7, 1); (BCore 3 0, 31); (BCore 3 1, 22);
   (BCore 3 2, 1); (BCore 3 3, 6); (BCore 3 4, 1); (BCore 3 5, 1); (BCore 3 6, 6); (BCore 3 7, 1); (BCore 4 0, 1); (BCore 4 1, 1); (BCore 4 2, 1);
   (BCore 4 3, 1); (BCore 4 4, 1); (BCore 4 5, 1); (BCore 4 6, 1); (BCore 4 7, 1); (BXfer 3, 1); (BCore 3 0, 15); (BCore 2 0, 5); (BCore 2 7, 5);
   (BXfer 3, 5); (BCore 2 0, 31); (BCore 2 1, 30); (BCore 2 2, 24); (BCore 2 3, 18); (BCore 2 4, 12); (BCore 2 5, 7); (BCore 2 7, 31); (BXfer 2, 1);
   (BXfer 3, 1); (BCore 3 0, 6); (BCore 3 3, 5); (BCore 3 6, 5); (BCore 2 1, 11); (BCore 2 2, 17); (BCore 2 3, 23); (BCore 2 4, 29); (BCore 2 5, 35);
   (BCore 2 6, 41); (BXfer 2, 6); (BCore 3 1, 24); (BCore 3 2, 41); (BCore 3 3, 31); (BCore 3 4, 36); (BCore 3 5, 41); (BCore 3 6, 31);
   (BCore 3 7, 38); (BXfer 3, 2); (BCore 4 0, 12); (BXfer 4, 1); (BHalt 0, 1); (BHalt 1, 1); (BHalt 2, 1); (BHalt 3, 1); (BHalt 4, 1)].
(** A schedule after which nothing can happen any more. *)
Definition hang_schedule : list (big * Z) := [
  (BCore 4 3, 1); (BCore 1 2, 1); (BCore 2 1, 1); (BCore 0 1, 1); (BXfer 0, 1); (BCore 3 7, 1); (BCore 2 7, 1); (BCore 3 7, 1); (BCore 0 6, 1);
   (BCore 2 4, 1); (BCore 0 2, 1); (BCore 2 7, 1); (BCore 3 0, 1); (BCore 1 7, 1); (BCore 3 2, 1); (BCore 1 5, 1); (BXfer 0, 1); (BCore 2 4, 1);
   (BCore 4 1, 1); (BCore 2 1, 1); (BCore 3 2, 1); (BCore 0 7, 1); (BCore 4 6, 1); (BCore 3 3, 1); (BXfer 0, 1); (BCore 3 0, 5); (BCore 2 5, 2);
   (BXfer 0, 1); (BCore 1 4, 1); (BCore 3 3, 1); (BCore 1 3, 1); (BCore 3 0, 5); (BXfer 0, 1); (BCore 3 0, 5); (BCore 4 2, 1); (BCore 3 0, 1);
   (BCore 4 4, 1); (BCore 4 0, 1); (BXfer 0, 2); (BCore 3 0, 15); (BCore 3 1, 1); (BCore 2 0, 1); (BCore 4 0, 1); (BCore 4 7, 1); (BCore 3 1, 5);
   (BCore 0 5, 1); (BCore 3 5, 1); (BCore 2 6, 1); (BCore 3 5, 1); (BCore 2 6, 1); (BCore 3 1, 5); (BCore 2 2, 2); (BCore 3 4, 2); (BCore 0 0, 1);
   (BCore 4 5, 1); (BCore 2 0, 1); (BCore 1 0, 1); (BCore 3 1, 5); (BCore 0 3, 1); (BCore 2 3, 1); (BCore 0 4, 1); (BHalt 0, 1); (BCore 3 6, 1);
   (BCore 1 6, 1); (BCore 1 1, 1); (BCore 3 1, 2); (BCore 3 3, 5); (BCore 2 3, 1); (BCore 3 1, 2); (BCore 3 0, 15); (BCore 3 6, 6); (BCore 3 1, 3);
   (BXfer 3, 2); (BCore 2 1, 5); (BCore 2 7, 10); (BCore 2 0, 4); (BXfer 3, 1); (BCore 2 1, 5); (BCore 2 2, 5); (BCore 2 0, 10); (BXfer 3, 1);
   (BCore 2 1, 5); (BCore 2 3, 4); (BCore 2 0, 5); (BXfer 3, 1); (BCore 2 4, 5); (BCore 2 1, 4); (BCore 2 7, 4); (BCore 2 1, 1); (BCore 2 7, 11);
   (BCore 2 3, 6); (BXfer 3, 1); (BCore 2 5, 4); (BCore 2 1, 7); (BCore 2 5, 3); (BCore 2 1, 2); (BCore 2 7, 8); (BCore 2 1, 1); (BCore 2 7, 2);
   (BCore 2 4, 7); (BCore 2 2, 9); (BXfer 2, 1); (BCore 3 0, 5); (BCore 3 3, 5); (BCore 2 3, 7); (BCore 2 2, 10); (BCore 2 0, 5); (BCore 2 3, 1);
   (BCore 2 0, 9); (BXfer 3, 1); (BCore 2 2, 9); (BCore 2 1, 5); (BCore 2 2, 7); (BCore 2 5, 34); (BCore 2 4, 28); (BCore 2 3, 4); (BSend 2, 1);
   (BCore 2 0, 2); (BCore 2 1, 5); (BCore 2 3, 10); (BCore 2 6, 14); (BCore 2 3, 8); (BCore 2 6, 26); (BXfer 2, 1); (BCore 3 3, 5); (BCore 3 4, 5);
   (BXfer 2, 1); (BCore 3 3, 5); (BCore 3 6, 4); (BXfer 2, 1); (BCore 3 5, 4); (BCore 3 4, 9); (BCore 3 5, 1); (BCore 3 4, 1); (BXfer 2, 1);
   (BCore 3 5, 5); (BXfer 2, 1); (BCore 3 2, 5); (BCore 3 6, 5); (BCore 3 4, 9); (BCore 3 6, 5); (BCore 3 4, 1); (BCore 3 6, 1); (BXfer 2, 1);
   (BCore 3 2, 21); (BCore 3 3, 4); (BCore 3 2, 6); (BCore 3 5, 4); (BCore 3 3, 16); (BCore 3 5, 14); (BCore 3 4, 8); (BCore 3 5, 5); (BSend 3, 1);
   (BCore 3 4, 2); (BCore 3 5, 7); (BCore 3 6, 6); (BHalt 2, 1); (BCore 3 6, 2); (BCore 3 7, 15); (BCore 3 1, 9); (BCore 3 6, 6); (BCore 3 1, 14);
   (BCore 3 2, 8); (BCore 3 7, 16); (BXfer 3, 1); (BCore 4 0, 5); (BSend 3, 1); (BWaitRecv 1, 1); (BWaitRecv 4, 1)].

(** What is to be seen in the end: the programs are completed and the results are in the first cells of tile 1. *)
Definition mlp_done (s : ssys) : bool :=
  forallb (fun t => match st_prog t with [] => true | _ => false end) s &&
  match tile_no mlp_geo s 1 with
  | Some t => forallb (fun j => match znth None (st_mem t) j with Some v => sv_eqb v (sum_units 96 2 j) | None => false end) (zrange 10)
  | None => false
  end.
(** Nothing is under way on the tile, and all processes have ended or wait. *)
Definition waits (t : stile) (id : Z) : bool := existsb (fun r => q_id r =? id) (st_pend t).
Definition tile_stuck (t : stile) : bool :=
  match st_queue t with [] => true | _ => false end &&
  forallb (fun s => match sc_ph s with SReady => false | SWait id _ => waits t id | SHalted => true end) (st_cores t) &&
  match st_prog t, st_ph t, st_cl t with
  | [], _, _ => true
  | TSend _ _ _ _ :: _, SSendRead id, _ => waits t id
  | TRecv _ _ _ _ :: _, SRecv _, Some _ => true
  | _, _, _ => false
  end.
Definition mlp_stuck (s : ssys) : bool :=
  forallb tile_stuck s &&
  match tile_no mlp_geo s 3 with
  | Some t => existsb (fun r => is_read r && inside mlp_geo (q_start r) (q_length r) && sready (st_mem t) r) (st_pend t) && negb (zlen (st_prog t) =? 0)
  | None => false
  end.
Definition holds_in (p : ssys -> bool) (s : option ssys) : bool := match s with Some s => p s | None => false end.
