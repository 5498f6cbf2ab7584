(** Equidistant sectors of client sites (terragraph_planner/optimization/topology_preparation.py 521-580).
    Floats are exact rationals.  A neighbour is its bearing. *)
From Coq Require Import QArith Qround Qabs.
From Verif Require Import Base QLib TopologyModel SetupModel SecPlaceModel.
Local Open Scope Q_scope.
Local Open Scope list_scope.

(** round and np.round: the nearest integer, halves to even *)
Definition round_even (x : Q) : Z :=
  let f := Qfloor x in
  if lt_q (x - inject_Z f) (1 # 2) then f
  else if lt_q (1 # 2) (x - inject_Z f) then (f + 1)%Z
  else if Z.even f then f else (f + 1)%Z.
(** 563-569: the deviation of a link for a rotation, FULL when no node sees it *)
Definition equi_delta (num_nodes : nat) (arc node rot angle : Q) : Q :=
  let id := (round_even ((angle - rot) / arc) mod Z.of_nat num_nodes)%Z in
  let d := angle - inject_Z id * arc - rot in
  if lt_q (node / 2) (Qabs d) then FULL else d.
(** 570 *)
Definition equi_met (num_nodes : nat) (arc node : Q) (angles : list Q) (rot : Q) : Q :=
  sum_q (map (fun a => equi_delta num_nodes arc node rot a * equi_delta num_nodes arc node rot a) angles).
(** argmin: the first of the smallest *)
Fixpoint first_min (f : Q -> Q) (best : Q) (l : list Q) : Q :=
  match l with
  | [] => best
  | x :: t => first_min f (if lt_q (f x) (f best) then x else best) t
  end.
(** 521-580 *)
Definition find_best_equidistant_sectors (angles : list Q) (number_of_nodes nspn : nat) (hsr : Q) : result (list (list Q)) :=
  let node := hsr * inject_Z (Z.of_nat nspn) in
  if Qeq_bool node 0 then Err PyZeroDivision
  else
    let num_nodes := Z.to_nat (Z.min (Qfloor (FULL / node)) (Z.of_nat number_of_nodes)) in
    if Nat.eqb num_nodes 0 then Err PyZeroDivision
    else
      let arc := FULL / inject_Z (Z.of_nat num_nodes) in
      if Nat.eqb (List.length angles) 0 then Ok []
      else
        let num_rotations := Z.to_nat (round_even (arc / DEFAULT_POINTING_PRECISION)) in
        let rotations := map (fun k => inject_Z (Z.of_nat k) * arc / inject_Z (Z.of_nat num_rotations)) (seq 0 num_rotations) in
        match rotations with
        | [] => Err PyValueError
        | r :: t =>
          let best := first_min (equi_met num_nodes arc node angles) r t in
          mapM (fun i => get_sector_azimuths_from_node_center (best + inject_Z (Z.of_nat i) * arc) nspn hsr) (seq 0 num_nodes)
        end.
