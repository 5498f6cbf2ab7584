(** The check of the sectors a site already has (terragraph_planner/optimization/topology_preparation.py
    370-488; called from 170 and 228).  Floats are exact rationals. *)
From Coq Require Import QArith Qabs.
From Verif Require Import Base Dict QLib TopologyModel SetupModel GeoModel.
Local Open Scope Q_scope.
Local Open Scope list_scope.

(** common/constants.py 23 *)
Definition ANGLE_TOLERANCE : Q := 1 # 100.
(** the fields of a Sector read here; sites are compared by identity (384), here by id *)
Record vsector := mkVs { v_site : string; v_node : Z; v_pos : Z; v_az : Q }.
(** a < b *)
Definition qless (a b : Q) : bool := negb (Qle_bool b a).
Definition qsort (l : list Q) : list Q := TopologyModel.sort_by qless l.

Section Check.
(** the device of the site: nodes per site, sectors per node, horizontal scan range (374-378) *)
Variables (number_of_nodes nspn : nat) (hsr : Q).
(** math.degrees(math.atan2(sum of sines, sum of cosines)) % 360 (413-415) *)
Variable circ_mean : list Q -> Q.

(** 379-395 *)
Fixpoint collect (site : string) (l : list vsector) (azs : dict Z (list Q)) (poss : dict Z (list Z)) : result (dict Z (list Q)) :=
  match l with
  | [] => Ok azs
  | s :: r =>
    do _ <- guard (beq (v_site s) site) OptExn ;
    let p := match dget poss (v_node s) with Some p => p | None => [] end in
    let a := match dget azs (v_node s) with Some a => a | None => [] end in
    do _ <- guard (negb (mem (v_pos s) p)) OptExn ;
    collect site r (dset azs (v_node s) (a ++ [v_az s])) (dset poss (v_node s) (p ++ [v_pos s]))
  end.
(** 416-428: first the half before the mean, then the half after it *)
Definition before (m a : Q) : bool := (Qle_bool a m && qless (m - 180) a) || qless (m + 180) a.
Definition after (m a : Q) : bool := (qless m a && Qle_bool a (m + 180)) || Qle_bool a (m - 180).
Definition arrange (l : list Q) : list Q :=
  let m := circ_mean l in qsort (filter (before m) l) ++ qsort (filter (after m) l).
(** 404-428 *)
Definition arrange_node (azs : list Q) : result (list Q) :=
  do _ <- guard (Nat.eqb (List.length azs) nspn) OptExn ;
  Ok (arrange azs).
(** 432-446: the sectors of a node are the scan range apart *)
Fixpoint spacing (l : list Q) : result unit :=
  match l with
  | a :: ((b :: _) as t) =>
    do _ <- guard (qless (Qabs (Qabs (angle_delta a b) - hsr)) ANGLE_TOLERANCE) OptExn ;
    spacing t
  | _ => Ok tt
  end.
(** 453-458 *)
Definition inside (p s e : Q) : bool :=
  if Qle_bool s e then Qle_bool s p && Qle_bool p e else Qle_bool s p || Qle_bool p e.
(** azimuths[0] and azimuths[-1] *)
Definition ends_of (l : list Q) : result (Q * Q) :=
  match l with
  | [] => Err PyIndexError
  | a :: t => Ok (a, List.last t a)
  end.
Definition qmin (a b : Q) : Q := if qless b a then b else a.
(** 464-488 *)
Definition check_pair (x y : list Q) : result unit :=
  do e <- ends_of x ;
  do f <- ends_of y ;
  let d1 := Qabs (angle_delta (fst e) (fst f)) in
  let d2 := Qabs (angle_delta (snd e) (fst f)) in
  let d3 := Qabs (angle_delta (fst e) (snd f)) in
  let d4 := Qabs (angle_delta (snd e) (snd f)) in
  do _ <- guard (Qle_bool hsr (qmin (qmin (qmin d1 d2) d3) d4)) OptExn ;
  guard (negb (inside (fst f) (fst e) (snd e) || inside (snd f) (fst e) (snd e) ||
               inside (fst e) (fst f) (snd f) || inside (snd e) (fst f) (snd f))) OptExn.
Fixpoint each {A} (f : A -> result unit) (l : list A) : result unit :=
  match l with
  | [] => Ok tt
  | a :: r => do _ <- f a ; each f r
  end.
(** 370-488 *)
Definition validate_site_sectors (l : list vsector) : result unit :=
  match l with
  | [] => Ok tt
  | s :: _ =>
    do azs <- collect (v_site s) l [] [] ;
    do _ <- guard (List.length azs <=? number_of_nodes)%nat OptExn ;
    do arranged <- mapM (fun p => do x <- arrange_node (snd p) ; Ok (fst p, x)) azs ;
    do _ <- (if (1 <? nspn)%nat then each (fun p => spacing (snd p)) arranged else Ok tt) ;
    each (fun p => each (fun q => if Z.eqb (fst p) (fst q) then Ok tt else check_pair (snd p) (snd q)) arranged) arranged
  end.
End Check.

(** 190-202 and 245-256: the sectors made from the azimuths chosen for the nodes of a site *)
Fixpoint enumerate {A} (i : Z) (l : list A) : list (Z * A) :=
  match l with [] => [] | a :: r => (i, a) :: enumerate (i + 1)%Z r end.
Definition make_sectors (site : string) (nodes : list (list Q)) : list vsector :=
  flat_map (fun n => map (fun s => mkVs site (fst n) (fst s) (snd s)) (enumerate 0 (snd n))) (enumerate 0 nodes).
