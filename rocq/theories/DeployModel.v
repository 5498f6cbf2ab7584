(** Deployment rules (terragraph_planner/optimization/deployment_rules.py) and the sector
    connectivity they read (common/topology_models/topology.py 59-74). *)
From Coq Require Import QArith.
From Verif Require Import Base Dict TopologyModel.
Local Open Scope list_scope.

(** topology.py 59-74 *)
Definition sector_connectivity (t : topo) : dict string (dict string string) :=
  fold_left (fun d q => match l_sectors (snd q) with None => d | Some (a, b) => set2 d (key_id a) (key_id b) (l_id (snd q)) end) (t_links t) [].

(** deployment_rules.py 86-101.  The dictionary is keyed by site objects, here by their ids. *)
Definition use_link (act : bool) (l : link) : bool := l_wireless l && ((act && active (l_status l)) || negb act).
Fixpoint add_links (act : bool) (ls : list link) (d : dict string (list link)) : result (dict string (list link)) :=
  match ls with
  | [] => Ok d
  | l :: r =>
    if use_link act l then
      match dget d (l_tx l) with Some v => add_links act r (dset d (l_tx l) (v ++ [l])) | None => Err PyKeyError end
    else add_links act r d
  end.
Definition adjacency (t : topo) (act : bool) : result (dict string (list link)) :=
  add_links act (dvals (t_links t)) (map (fun q => (fst q, [])) (t_sites t)).
(** [itertools.combinations(l, 2)] *)
Fixpoint pairs {A} (l : list A) : list (A * A) :=
  match l with [] => [] | x :: r => map (fun y => (x, y)) r ++ pairs r end.

Section Angles.
(** [law_of_cosines_spherical] of the three sites: angle and length ratio; it asserts that no
    distance from the common site is zero *)
Variable geom : string -> string -> string -> result (Q * Q).
(** [sector.channel], by sector id *)
Variable channel : string -> Z.
Variables (diff_limit nf_limit nf_ratio : Q) (act : bool).
Definition tx_sec (l : link) : option string := match l_sectors l with Some (a, _) => Some (key_id a) | None => None end.
Notation triple := (string * string * string)%type.
(** 51-83: one pair of links.  Reading [channel] of a missing sector is an AttributeError, here PyTypeError. *)
Definition check_pair (i : string) (q : link * link) : result (option bool) :=
  let (l1, l2) := q in
  do g <- geom i (l_rx l1) (l_rx l2) ;
  do c <- (if beq (tx_sec l1) (tx_sec l2) then Ok false
           else if negb act then Ok true
           else match tx_sec l1, tx_sec l2 with Some a, Some b => Ok (Z.eqb (channel a) (channel b)) | _, _ => Err PyTypeError end) ;
  Ok (if c then
        if Qle_bool (fst g) diff_limit then Some true
        else if Qle_bool (fst g) nf_limit && Qle_bool nf_ratio (snd g) then Some false
        else None
      else None).
Definition min_s (a b : string) := if str_ltb b a then b else a.
Definition max_s (a b : string) := if str_ltb a b then b else a.
Definition triple_of (i : string) (q : link * link) : triple := (i, min_s (l_rx (fst q)) (l_rx (snd q)), max_s (l_rx (fst q)) (l_rx (snd q))).
Fixpoint check_pairs (i : string) (l : list (link * link)) (acc : list triple * list triple) : result (list triple * list triple) :=
  match l with
  | [] => Ok acc
  | q :: r =>
    do v <- check_pair i q ;
    check_pairs i r (match v with
                     | Some true => (fst acc ++ [triple_of i q], snd acc)
                     | Some false => (fst acc, snd acc ++ [triple_of i q])
                     | None => acc
                     end)
  end.
Fixpoint check_sites (d : dict string (list link)) (acc : list triple * list triple) : result (list triple * list triple) :=
  match d with [] => Ok acc | (i, ls) :: r => do acc <- check_pairs i (pairs ls) acc ; check_sites r acc end.
(** 20-83 *)
Definition find_angle_violating_link_pairs (t : topo) : result (list triple * list triple) :=
  do d <- adjacency t act ;
  check_sites d ([], []).
End Angles.

(** 104-120 *)
Definition link_ids_of (t : topo) (q : string * string * string) : result (list string) :=
  let '(i, j, k) := q in
  do ls <- mapM (fun p => get_link_by_site_ids t (fst p) (snd p)) [(i, j); (i, k); (j, i); (k, i)] ;
  Ok (flat_map (fun o => match o with Some l => [l_id l] | None => [] end) ls).
Definition get_violating_link_ids (t : topo) (l : list (string * string * string)) : result (list string) :=
  do ls <- mapM (link_ids_of t) l ;
  Ok (fold_left (fun acc i => sadd i acc) (List.concat ls) []).

(** 149-157 *)
Definition sector_of (t : topo) (k : string) : result sector := match dget (t_sectors t) k with Some x => Ok x | None => Err PyKeyError end.
Fixpoint count_connections (t : topo) (l : dict string string) (c : nat * nat) : result (nat * nat) :=
  match l with
  | [] => Ok c
  | (rx, k) :: r =>
    match dget (t_links t) k with
    | None => Err PyKeyError
    | Some li =>
      if active (l_status li) then
        do x <- sector_of t rx ;
        count_connections t r (if k_cn (x_key x) then (fst c, S (snd c)) else (S (fst c), snd c))
      else count_connections t r c
    end
  end.
(** 143-165: one sector *)
Definition sector_violation (t : topo) (dn_dn dn_total : Z) (k : string) : result (option (list string)) :=
  let rx := row (sector_connectivity t) k in
  do c <- count_connections t rx (0, 0)%nat ;
  if (dn_dn <? Z.of_nat (fst c))%Z || (dn_total <? Z.of_nat (fst c) + Z.of_nat (snd c))%Z then
    do l <- filterM (fun n => do x <- sector_of t n ; Ok (active (x_status x))) (dkeys rx) ;
    Ok (Some l)
  else Ok None.
(** 123-165 *)
Fixpoint sector_violations (t : topo) (dn_dn dn_total : Z) (ks : list string) (acc : dict string (list string)) : result (dict string (list string)) :=
  match ks with
  | [] => Ok acc
  | k :: r =>
    do v <- sector_violation t dn_dn dn_total k ;
    sector_violations t dn_dn dn_total r (match v with Some l => dset acc k l | None => acc end)
  end.
Definition find_sector_limit_violations (t : topo) (dn_dn dn_total : Z) : result (dict string (list string)) :=
  sector_violations t dn_dn dn_total
    (dkeys (filter (fun q => negb (k_cn (x_key (snd q))) && active (x_status (snd q))) (t_sectors t))) [].
