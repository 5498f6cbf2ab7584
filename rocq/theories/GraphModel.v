(** Reachability from the POPs (terragraph_planner/optimization/topology_operations.py 57-157). *)
From Verif Require Import Base Dict TopologyModel StatusModel.

Definition in_sf (sf : option (list status)) (s : status) : bool := in_filter sf s.

(** topology_operations.py 81-97: the ids added in one round.  [topology.sites[site_id]]
    may be a KeyError ([None]). *)
Fixpoint new_ids (t : topo) (sf : option (list status)) (cur : list string) (links : dict string link)
  : option (list string) :=
  match links with
  | [] => Some []
  | (_, l) :: r =>
    match new_ids t sf cur r with
    | None => None
    | Some rest =>
      if mem (l_tx l) cur && in_sf sf (l_status l) then
        match dget (t_sites t) (l_tx l), dget (t_sites t) (l_rx l) with
        | Some st, Some sr =>
          let a := if in_sf sf (s_status st) && negb (mem (l_tx l) cur) then [l_tx l] else [] in
          let b := if in_sf sf (s_status sr) && negb (mem (l_rx l) cur) then [l_rx l] else [] in
          Some (fold_left (fun acc i => sadd i acc) (a ++ b) rest)
        | _, _ => None
        end
      else Some rest
    end
  end.
(** topology_operations.py 79-101: the while loop, with fuel *)
Fixpoint hop_loop (fuel : nat) (t : topo) (sf : option (list status)) (hop : nat)
    (cur : list string) (hops : dict string nat) : result (dict string nat) :=
  match fuel with
  | O => Err OutOfFuel
  | S f =>
    match new_ids t sf cur (t_links t) with
    | None => Err PyKeyError
    | Some [] => Ok hops
    | Some ids =>
      hop_loop f t sf (S hop) (cur ++ ids) (fold_left (fun d i => dset d i (S hop)) ids hops)
    end
  end.
(** topology_operations.py 57-102; [sf = None] is "all statuses".  The fuel exceeds the
    number of rounds (proved: OutOfFuel is never returned). *)
Definition hops_from_pops (t : topo) (sf : option (list status)) : result (dict string nat) :=
  let pops := get_site_ids t sf (Some [POP]) in
  match pops with
  | [] => Ok []
  | _ => hop_loop (S (List.length (t_sites t))) t sf 0 pops (fold_left (fun d i => dset d i 0) pops [])
  end.

(** topology_operations.py 105-117 *)
Definition get_reachable_demand_sites (t : topo) (sf : option (list status)) : result (list string) :=
  match hops_from_pops t sf with
  | Err e => Err e
  | Ok h => Ok (fold_left (fun acc p => if existsb (dmem h) (d_sites (snd p)) then sadd (d_id (snd p)) acc else acc)
                          (t_demands t) [])
  end.

(** Setters applied to stored objects (site.py 163-173, sector.py 98-126, link.py 181-192). *)
Definition with_site_status (s : site) (st : status) : site :=
  mkSite (s_id s) (s_type s) st (s_loc s) (s_polarity s) (s_detected s).
Definition with_link_status (l : link) (st : status) : link :=
  mkLink (l_tx l) (l_rx l) (l_wireless l) (l_rx_cn l) (l_sectors l) st.
Definition with_sector_status (x : sector) (st : status) : sector := mkSector (x_key x) st.

Definition set_site_status (i : string) (st : status) (t : topo) : outcome :=
  match dget (t_sites t) i with
  | None => fail PyKeyError t
  | Some s =>
    if assign_ok (s_status s) st then ok (set_sites t (dset (t_sites t) i (with_site_status s st)))
    else fail TopologyExn t
  end.
Definition set_link_status (k : string) (st : status) (t : topo) : outcome :=
  match dget (t_links t) k with
  | None => fail PyAssertion t
  | Some l =>
    match dget (t_sites t) (l_tx l), dget (t_sites t) (l_rx l) with
    | Some sa, Some sb =>
      if assign_ok (l_status l) st && link_compat (s_status sa) (s_status sb) st
      then ok (set_links t (dset (t_links t) k (with_link_status l st)))
      else fail TopologyExn t
    | _, _ => fail PyKeyError t
    end
  end.
Definition set_sector_status (k : string) (st : status) (t : topo) : outcome :=
  match dget (t_sectors t) k with
  | None => fail PyKeyError t
  | Some x =>
    match dget (t_sites t) (x_site x) with
    | Some sa =>
      if assign_ok (x_status x) st && sector_compat (s_status sa) st
      then ok (set_sectors t (dset (t_sectors t) k (with_sector_status x st)))
      else fail TopologyExn t
    | None => fail PyKeyError t
    end
  end.

(** run [f] for each element, stopping at the first exception *)
Fixpoint for_each {A} (f : A -> topo -> outcome) (l : list A) (t : topo) : outcome :=
  match l with [] => ok t | x :: r => andthen (f x t) (for_each f r) end.

(** topology_operations.py 134-137: no hop count, or more than the limit; a limit of
    [None] or 0 is no limit. *)
Definition out_of_reach (h : dict string nat) (max_hops : option nat) (i : string) : bool :=
  match dget h i with
  | None => true
  | Some n => match max_hops with None => false | Some 0 => false | Some m => Nat.ltb m n end
  end.
(** topology_operations.py 138-152; [get_successor_sites] and [get_link_by_site_ids] are
    inlined as their keys *)
Definition mark_site (i : string) (t : topo) : outcome :=
  andthen (set_site_status i UNREACHABLE t) (fun t1 =>
  andthen (for_each (fun b => set_link_status (link_id_of i b) UNREACHABLE) (dkeys (row (t_conn t1) i)) t1) (fun t2 =>
  for_each (fun a => set_link_status (link_id_of a i) UNREACHABLE) (dkeys (row (t_rconn t2) i)) t2)).
Definition mark_if (h : dict string nat) (max_hops : option nat) (i : string) (t : topo) : outcome :=
  match dget (t_sites t) i with
  | None => ok t
  | Some s => if out_of_reach h max_hops i && beq (s_status s) CANDIDATE then mark_site i t else ok t
  end.
(** topology_operations.py 154-157 *)
Definition mark_sector (k : string) (t : topo) : outcome :=
  match dget (t_sectors t) k with
  | None => ok t
  | Some x =>
    match dget (t_sites t) (x_site x) with
    | Some s => if beq (s_status s) UNREACHABLE then set_sector_status k UNREACHABLE t else ok t
    | None => fail PyKeyError t
    end
  end.
(** topology_operations.py 120-157 *)
Definition mark_unreachable_components (max_hops : option nat) (t : topo) : outcome :=
  match hops_from_pops t (Some [PROPOSED; EXISTING; CANDIDATE]) with
  | Err e => fail e t
  | Ok h =>
    andthen (for_each (mark_if h max_hops) (dkeys (t_sites t)) t) (fun t1 =>
    for_each mark_sector (dkeys (t_sectors t1)) t1)
  end.
