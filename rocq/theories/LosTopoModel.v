(** Building the candidate topology from the lines of sight (terragraph_planner/los/helper.py 813-962).
    The distance and elevation angle of a link are parameters, since only their limits matter here.  The
    confidence stored on a link is not modelled; that it is looked up is. *)
From Coq Require Import QArith Qabs.
From Verif Require Import Base Dict TopologyModel StatusModel LosRangeModel LosBatchModel LosPickModel.

(** a Site with the SKU of its device *)
Record dsite := mkDSite { ds_site : site; ds_sku : string }.
(** a site given by the user or the base topology, or a DetectedSite: its type and [to_site] *)
Inductive csite := Given (d : dsite) | Found (ty : site_type) (to_site : string -> site).

Definition to_result (o : outcome) : result topo := match fst o with Ok _ => Ok (snd o) | Err e => Err e end.

Section Build.
Variables dn_devices cn_devices : list string.
Variables distance elevation : site -> site -> Q.
Variable ranges : dict (string * string) Z.
Variable conf : dict (nat * nat) Q.
Variables min_los_dist max_el_scan_angle : Q.
Notation site_map := (dict nat (list dsite)).

(** 896-913: one site; the devices of the two types in the order of the device list *)
Definition add_new (i : nat) (acc : topo * site_map) (d : dsite) : result (topo * site_map) :=
  let (t, m) := acc in
  if dmem (t_sites t) (s_id (ds_site d)) then Ok (t, m)
  else do t' <- to_result (add_site (ds_site d) t) ; Ok (t', dappend m i d).
Definition site_options (c : csite) : list dsite :=
  match c with
  | Given d => [d]
  | Found ty to_site => map (fun sku => mkDSite (to_site sku) sku) (match ty with CN => cn_devices | _ => dn_devices end)
  end.
(** 893-895 *)
Definition site_step (picked : list nat) (acc : topo * site_map) (p : nat * csite) : result (topo * site_map) :=
  if mem (fst p) picked then foldM (add_new (fst p)) acc (site_options (snd p)) else Ok acc.
(** 869-915 *)
Definition add_sites_to_topology (t : topo) (sites : list csite) (picked : list nat) : result (topo * site_map) :=
  foldM (site_step picked) (t, []) (enumerate_from 0 sites).

(** 937-947: the Link constructor (link.py 94-135) for a wireless CANDIDATE link without sectors *)
Definition make_candidate (a b : dsite) : result link :=
  if beq (s_type (ds_site a)) CN then Err TopologyExn
  else if link_compat (s_status (ds_site a)) (s_status (ds_site b)) CANDIDATE
  then Ok (mkLink (s_id (ds_site a)) (s_id (ds_site b)) true (beq (s_type (ds_site b)) CN) None CANDIDATE)
  else Err TopologyExn.
(** 948-961 *)
Definition in_limits (a b : dsite) : result bool :=
  let d := distance (ds_site a) (ds_site b) in
  if Qle_bool min_los_dist d
  then match dget ranges (ds_sku a, ds_sku b) with
       | None => Err PyKeyError
       | Some m => Ok (Qle_bool d (inject_Z m) && Qle_bool (Qabs (elevation (ds_site a) (ds_site b))) max_el_scan_angle)
       end
  else Ok false.
(** 937-962 *)
Definition try_link (i j : nat) (a b : dsite) (t : topo) : result topo :=
  match dget conf (i, j) with
  | None => Err PyKeyError
  | Some _ =>
    do l <- make_candidate a b ;
    do fits <- in_limits a b ;
    if fits then to_result (add_link l t) else Ok t
  end.
Definition mapped (m : site_map) (i : nat) : list dsite := match dget m i with Some l => l | None => [] end.
Definition rx_step (picked : list nat) (m : site_map) (i : nat) (t : topo) (j : nat) : result topo :=
  if mem j picked then foldM (fun t a => foldM (fun t b => try_link i j a b t) t (mapped m j)) t (mapped m i) else Ok t.
Definition tx_step (picked : list nat) (m : site_map) (t : topo) (p : nat * list nat) : result topo :=
  if mem (fst p) picked then foldM (rx_step picked m (fst p)) t (snd p) else Ok t.
(** 918-962 *)
Definition add_links_to_topology (t : topo) (rx : list (list nat)) (picked : list nat) (m : site_map) : result topo :=
  foldM (tx_step picked m) t (enumerate_from 0 rx).
(** 813-866 *)
Definition construct_topology_from_los_result (t : topo) (sites : list csite) (rx : list (list nat)) (picked : list nat) : result topo :=
  do r <- add_sites_to_topology t sites picked ;
  add_links_to_topology (fst r) rx picked (snd r).
End Build.
