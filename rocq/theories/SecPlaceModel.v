(** Placement of the sectors of a site (terragraph_planner/optimization/topology_preparation.py 583-995).
    Floats are exact rationals.  A neighbour site is its bearing, its distance and whether it is a DN or
    POP; which pairs of links are too close together (law_of_cosines_spherical and the limits, 700-727) is
    an oracle.  Distances are taken to be positive (with all of them 0, line 911 divides by 0). *)
From Coq Require Import QArith Qround Qabs.
From Verif Require Import Base Dict QLib TopologyModel SetupModel.
Local Open Scope Q_scope.
Local Open Scope list_scope.

(** common/constants.py 10-12, 15 *)
Definition DEFAULT_POINTING_PRECISION : Q := 3.
Definition FULL : Q := 360.
Definition lt_q (a b : Q) : bool := negb (Qle_bool b a).
Definition sum_q (l : list Q) : Q := fold_right Qplus 0 l.

(** x % 360.0 *)
Definition mod360 (x : Q) : Q := x - FULL * inject_Z (Qfloor (x / FULL)).
(** np.arange for a positive step *)
Definition arange (start stop step : Q) : list Q :=
  map (fun i => start + inject_Z (Z.of_nat i) * step) (seq 0 (Z.to_nat (Qceiling ((stop - start) / step)))).

(** 583-629 *)
Definition get_sector_azimuths_from_node_center (center : Q) (n : nat) (hsr : Q) : result (list Q) :=
  if Nat.eqb n 0 then Ok []
  else
    let half := if Nat.even n then inject_Z (Z.of_nat n) / 2 - (1 # 2) else inject_Z (Z.of_nat (Nat.div2 n)) in
    let start := center - hsr * half in
    let end_ := center + hsr * half in
    let positions := map mod360 (arange start (end_ + hsr / 2) hsr) in
    do _ <- guard (Nat.eqb (List.length positions) n) OptExn ;
    Ok positions.

(** a neighbour: bearing, distance, DN or POP *)
Record neighbor := mkNb { nb_angle : Q; nb_dist : Q; nb_dist_type : bool }.
(** 786-794: the angle between a sector and a link, in [0, 180] *)
Definition delta (az angle : Q) : Q := FULL / 2 - Qabs (FULL / 2 - Qabs (az - angle)).
(** itertools.combinations(l, 2) *)
Fixpoint pairs {A} (l : list A) : list (A * A) :=
  match l with [] => [] | a :: r => map (fun b => (a, b)) r ++ pairs r end.

(** [sector_azimuth_link_mat[k][i][j]] and [node_azimuth_link_mat[k][j]] *)
Definition smat := nat -> nat -> nat -> bool.
Definition nmat := nat -> nat -> bool.
(** 829-844: two links with different channels seen by one sector (node) are dropped from both *)
Definition drop2 (m : nat -> bool) (p : nat * nat) : nat -> bool :=
  if m (fst p) && m (snd p) then fun j => if Nat.eqb j (fst p) || Nat.eqb j (snd p) then false else m j else m.
Definition prune_same (ps : list (nat * nat)) (m : nat -> bool) : nat -> bool := fold_left drop2 ps m.
(** 851-866 and 867-881: two links that must share a sector (node) but are seen by different ones *)
Definition clear {A} (eqb : A -> A -> bool) (m : A -> nat -> bool) (a : A) (j : nat) : A -> nat -> bool :=
  fun x y => if eqb x a && Nat.eqb y j then false else m x y.
Definition split_step {A} (eqb : A -> A -> bool) (j1 j2 : nat) (m : A -> nat -> bool) (p : A * A) : A -> nat -> bool :=
  let '(a, b) := p in
  let m := if m a j1 && negb (m a j2) && negb (m b j1) && m b j2 then clear eqb (clear eqb m a j1) b j2 else m in
  if m b j1 && negb (m b j2) && negb (m a j1) && m a j2 then clear eqb (clear eqb m b j1) a j2 else m.
Definition prune_diff {A} (eqb : A -> A -> bool) (cells : list A) (ps : list (nat * nat)) (m : A -> nat -> bool) : A -> nat -> bool :=
  fold_left (fun m p => fold_left (split_step eqb (fst p) (snd p)) (pairs cells) m) ps m.
Definition pair_eqb (a b : nat * nat) : bool := Nat.eqb (fst a) (fst b) && Nat.eqb (snd a) (snd b).

(** a candidate position of a node left after 899-916: its azimuth, its metric and whether the node sees
    any link *)
Record cand := mkCand { c_az : Q; c_met : Q; c_sees : bool }.

Section Dp.
(** 918-978.  [width] is horizontal_scan_range * number_of_sectors_per_node.  A row of the tables [mets] and
    [prev_sector] is a function; None is (inf, -1). *)
Variables (cands : list cand) (width : Q).
Definition az (i : nat) : Q := c_az (nth i cands (mkCand 0 0 false)).
Definition met (i : nat) : Q := c_met (nth i cands (mkCand 0 0 false)).
Definition row := nat -> option (Q * nat).
Definition upd (r : row) (i : nat) (v : Q * nat) : row := fun j => if Nat.eqb j i then Some v else r j.
(** 940-969: the loop over next_candidate_idx *)
Fixpoint relax (first c : nat) (m : Q) (nexts : list nat) (r : row) : row :=
  match nexts with
  | [] => r
  | x :: t =>
    if lt_q (az x - az c) width then relax first c m t r
    else if lt_q (az first + FULL - az x) width then r
    else
      let v := m + met x in
      relax first c m t (match r x with
                         | Some (old, _) => if lt_q v old then upd r x (v, c) else r
                         | None => upd r x (v, c)
                         end)
  end.
(** 938-939: the loop over candidate_idx, from one row to the next *)
Definition next_row (first : nat) (r : row) : row :=
  fold_left (fun nr c => match r c with
                         | Some (m, _) => relax first c m (seq (S c) (List.length cands - S c)) nr
                         | None => nr
                         end) (seq 0 (List.length cands)) (fun _ => None).
(** 932-937: the rows for [k] more nodes, last one first *)
Fixpoint rows (first : nat) (k : nat) : list row :=
  match k with
  | O => [fun j => if Nat.eqb j first then Some (met first, O) else None]
  | S k' => match rows first k' with
            | r :: t => next_row first r :: r :: t
            | [] => []
            end
  end.
(** 970, 973: min(mets[-1]) and its first index *)
Fixpoint argmin (r : row) (l : list nat) (best : option (Q * nat)) : option (Q * nat) :=
  match l with
  | [] => best
  | i :: t => argmin r t (match r i, best with
                          | Some (m, _), Some (b, _) => if lt_q m b then Some (m, i) else best
                          | Some (m, _), None => Some (m, i)
                          | None, _ => best
                          end)
  end.
(** 974-977: best_position, already reversed as in 992 *)
Fixpoint backtrack (rs : list row) (i : nat) (acc : list nat) : list nat :=
  match rs with
  | [] => acc
  | r :: t => backtrack t (match r i with Some (_, c) => c | None => O end) (i :: acc)
  end.
(** 922-977 for a number of nodes of at least 1 *)
Fixpoint rounds (num_nodes : nat) (firsts : list nat) (best_met : Q) (best_position : option (list nat)) : option (list nat) :=
  match firsts with
  | [] => best_position
  | f :: t =>
    if Qle_bool (FULL - inject_Z (Z.of_nat num_nodes - 1) * width) (az f) then best_position
    else
      let rs := rows f (num_nodes - 1) in
      match rs with
      | [] => best_position
      | last :: _ =>
        match argmin last (seq 0 (List.length cands)) None with
        | Some (m, i) => if lt_q m best_met then rounds num_nodes t m (Some (backtrack rs i []))
                         else rounds num_nodes t best_met best_position
        | None => rounds num_nodes t best_met best_position
        end
      end
  end.
End Dp.

Section Place.
Variables (nbs : list neighbor) (number_of_nodes nspn : nat) (hsr : Q).
(** dn_dn_sector_limit, dn_total_sector_limit, backhaul_link_type_weight *)
Variables (dn_dn_limit dn_total_limit : option Z) (backhaul_weight : option Q).
(** [angle_violation_pairs] (698-727) and [sector_channel_list] *)
Variables (too_close : nat -> nat -> bool) (sector_channels : option (list (string * Z))).

Definition num_neighbors : nat := List.length nbs.
Definition nb (j : nat) : neighbor := nth j nbs (mkNb 0 0 false).
Definition width : Q := hsr * inject_Z (Z.of_nat nspn).
Definition link_pairs : list (nat * nat) := pairs (seq 0 num_neighbors).
(** 729-744; an index past the end of the list raises *)
Definition violation_pairs : result (list (nat * nat) * list (nat * nat)) :=
  match sector_channels with
  | Some l =>
    if (num_neighbors <=? 1)%nat || (num_neighbors <=? List.length l)%nat then
      let sec j := fst (nth j l (""%string, 0%Z)) in
      let chan j := snd (nth j l (""%string, 0%Z)) in
      Ok (filter (fun p => beq (sec (fst p)) (sec (snd p))) link_pairs,
          filter (fun p => negb (Z.eqb (chan (fst p)) (chan (snd p)))) link_pairs)
    else Err PyIndexError
  | None => Ok (filter (fun p => too_close (fst p) (snd p)) link_pairs, [])
  end.
(** 750 *)
Definition PENALTY : Q := 1000000 * inject_Z (Z.of_nat num_neighbors).
(** 751-753, 757-760 *)
Definition num_candidates : nat := Z.to_nat (Qfloor (FULL / DEFAULT_POINTING_PRECISION)).
Definition grid (k : nat) : Q := inject_Z (Z.of_nat k) * DEFAULT_POINTING_PRECISION.
(** 883-892 *)
Definition link_weight (x : neighbor) : Q :=
  if nb_dist_type x then match backhaul_weight with Some w => if Qeq_bool w 0 then 1 else w | None => 1 end else 1.
Definition max_dist : Q := fold_right (fun x m => if Qle_bool m (nb_dist x) then nb_dist x else m) 0 nbs.

(** 898-906: the number of links a sector sees, against a limit *)
Definition count_b (f : nat -> bool) (l : list nat) : Z := Z.of_nat (List.length (filter f l)).
Definition limit_of (l : option Z) : Z := match l with Some z => z | None => Z.of_nat num_neighbors end.
(** 684-995.  [secs k] are the azimuths of the sectors of a node at [grid k]. *)
Definition candidates (secs : nat -> list Q) (sm : smat) (nm : nmat) : list cand :=
  let links := seq 0 num_neighbors in
  let sectors := seq 0 nspn in
  flat_map (fun k =>
    if forallb (fun i => (count_b (sm k i) links <=? limit_of dn_total_limit)%Z) sectors &&
       forallb (fun i => (count_b (fun j => sm k i j && nb_dist_type (nb j)) links <=? limit_of dn_dn_limit)%Z) sectors
    then [mkCand (grid k)
            (sum_q (map (fun i => sum_q (map (fun j =>
               if sm k i j then delta (nth i (secs k) 0) (nb_angle (nb j)) * delta (nth i (secs k) 0) (nb_angle (nb j))
                                * nb_dist (nb j) / max_dist * link_weight (nb j)
               else PENALTY) links)) sectors))
            (existsb (nm k) links)]
    else []) (seq 0 num_candidates).
Definition find_best_sectors : result (list (list Q)) :=
  if Nat.eqb num_neighbors 0 then Ok []
  else if Qeq_bool width 0 then Err PyZeroDivision
  else
    let num_nodes := Z.to_nat (Z.min (Qfloor (FULL / width)) (Z.of_nat number_of_nodes)) in
    do vp <- violation_pairs ;
    let '(diff_pairs, same_pairs) := vp in
    do secs <- mapM (fun k => get_sector_azimuths_from_node_center (grid k) nspn hsr) (seq 0 num_candidates) ;
    let sec k := nth k secs [] in
    let sm0 : smat := fun k i j => lt_q (delta (nth i (sec k) 0) (nb_angle (nb j))) (hsr / 2) in
    let nm0 : nmat := fun k j => lt_q (delta (grid k) (nb_angle (nb j))) (width / 2) in
    let sm1 : smat := fun k i => prune_same same_pairs (sm0 k i) in
    let nm1 : nmat := fun k => prune_same same_pairs (nm0 k) in
    let cells := flat_map (fun k => map (fun i => (k, i)) (seq 0 nspn)) (seq 0 num_candidates) in
    let sm2 := prune_diff pair_eqb cells diff_pairs (fun c j => sm1 (fst c) (snd c) j) in
    let nm2 := prune_diff Nat.eqb (seq 0 num_candidates) diff_pairs nm1 in
    let cs := candidates sec (fun k i j => sm2 (k, i) j) nm2 in
    if Nat.eqb (List.length cs) 0 then Ok []
    else if Nat.eqb num_nodes 0 then Err PyIndexError
    else
      let bound := (inject_Z (Z.of_nat (num_nodes * nspn * num_neighbors)) + 1) * (PENALTY * PENALTY) in
      match rounds cs width num_nodes (seq 0 (List.length cs)) bound None with
      | None => Err OptExn
      | Some pos =>
        let chosen := filter c_sees (map (fun i => nth i cs (mkCand 0 0 false)) pos) in
        mapM (fun c => get_sector_azimuths_from_node_center (c_az c) nspn hsr) chosen
      end.
End Place.
