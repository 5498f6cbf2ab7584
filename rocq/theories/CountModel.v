(** Component counts (terragraph_planner/optimization/topology_component_counter.py). *)
From Verif Require Import Base Dict TopologyModel GraphModel.
Local Open Scope string_scope.
Local Open Scope list_scope.

(** [len({...})] and [collections.Counter] *)
Definition distinct {A} `{EqB A} (l : list A) : nat := List.length (fold_left (fun acc x => sadd x acc) l []).
Definition counter {A} `{EqB A} (l : list A) : dict A nat :=
  fold_left (fun d x => dset d x (S (match dget d x with Some n => n | None => 0 end))) l [].
Definition type_name (ty : site_type) : string := match ty with CN => "CN" | DN => "DN" | POP => "POP" end.

Section Counts.
(** [site.site_hash], the geohash of a position; [site.device.device_sku] and [sector.channel] by id *)
Variable hash : Z * Z * Z -> string.
Variable sku : string -> string.
Variable channel : string -> Z.
Variable t : topo.

(** common/topology_models/link.py 273-279.  The ends are looked up in the topology: a link holds the site objects. *)
Definition end_hash (i : string) : string :=
  match dget (t_sites t) i with Some s => hash (s_loc s) ++ "_" ++ type_name (s_type s) | None => "" end.
Definition link_hash (l : link) : string :=
  let a := end_hash (l_tx l) in let b := end_hash (l_rx l) in
  if str_ltb b a then b ++ "-" ++ a else a ++ "-" ++ b.
(** link.py 282-291; UNASSIGNED_CHANNEL is -1 (optimization/constants.py 13) *)
Definition link_channel (l : link) : result Z :=
  if active (l_status l) then
    match l_sectors l with
    | Some (a, b) => if Z.eqb (channel (key_id a)) (channel (key_id b)) then Ok (channel (key_id a)) else Err TopologyExn
    | None => Ok (-1)%Z
    end
  else Ok (-1)%Z.
(** link.py 342-345 *)
Definition sorted_site_ids (l : link) : string * string := if str_ltb (l_tx l) (l_rx l) then (l_tx l, l_rx l) else (l_rx l, l_tx l).

Section Component.
(** topology_component_counter.py 210-212: [status_type_filter] *)
Variable act : bool.
Definition sel (st : status) : bool := if act then active st else true.
(** 214-218; a Counter gives 0 for a missing key *)
Definition sites_of_type (ty : site_type) : nat := List.length (filter (fun q => sel (s_status (snd q)) && beq (s_type (snd q)) ty) (t_sites t)).
(** 219-223 *)
Definition site_counts_by_sku : dict string nat := counter (map (fun q => sku (fst q)) (filter (fun q => sel (s_status (snd q))) (t_sites t))).
(** 225-229 *)
Definition sectors_of_type (cn : bool) : nat := List.length (filter (fun q => sel (x_status (snd q)) && Bool.eqb (k_cn (x_key (snd q))) cn) (t_sectors t)).
(** 231-241 *)
Definition nodes_of_type (cn : bool) : nat :=
  distinct (map (fun q => (x_site (snd q), k_node (x_key (snd q)))) (filter (fun q => Bool.eqb (k_cn (x_key (snd q))) cn && sel (x_status (snd q))) (t_sectors t))).
(** 243-253 *)
Definition links_of_type (ty : link_type) : nat :=
  distinct (map (fun q => link_hash (snd q)) (filter (fun q => sel (l_status (snd q)) && beq (l_type (snd q)) ty) (t_links t))).
(** 255-259 *)
Fixpoint link_channels (ls : list link) (d : dict (string * string) Z) : result (dict (string * string) Z) :=
  match ls with
  | [] => Ok d
  | l :: r => if sel (l_status l) && l_wireless l then do c <- link_channel l ; link_channels r (dset d (sorted_site_ids l) c) else link_channels r d
  end.
Definition link_counts_by_channel : result (dict Z nat) :=
  do d <- link_channels (dvals (t_links t)) [] ;
  Ok (counter (dvals d)).
(** 261-272.  A demand holds site objects, here the ids of sites of the topology. *)
Definition demand_connected (ty : site_type) : nat :=
  distinct (filter (fun i => match dget (t_sites t) i with Some s => beq (s_type s) ty && sel (s_status s) | None => false end)
                   (flat_map (fun q => d_sites (snd q)) (t_demands t))).
(** 274-280 *)
Definition dn_sectors_on_pops : nat :=
  List.length (filter (fun q => sel (x_status (snd q)) && negb (k_cn (x_key (snd q))) &&
    match dget (t_sites t) (x_site (snd q)) with Some s => beq (s_type s) POP | None => false end) (t_sectors t)).
End Component.

(** 294-318: the sites beyond the first of each type at one position; [sub] is [None] or the ids to look at *)
Definition in_subset (sub : option (dict string nat)) (i : string) : bool := match sub with None => true | Some h => dmem h i end.
Definition redundant (sub : option (dict string nat)) (ty : site_type) : Z :=
  fold_left (fun acc g =>
    let v := Z.of_nat (List.length (filter (fun i => match dget (t_sites t) i with Some s => in_subset sub i && beq (s_type s) ty | None => false end) (snd g))) in
    if (1 <? v)%Z then (acc + (v - 1))%Z else acc) (get_colocated_sites t) 0%Z.

(** 147-162 *)
Definition cn_links : list string :=
  flat_map (fun q => let l := snd q in
    match dget (t_sites t) (l_rx l), l_sectors l with
    | Some s, Some (a, _) =>
      if beq (s_type s) CN && active (s_status s) && match dget (t_sectors t) (key_id a) with Some x => active (x_status x) | None => false end then [l_rx l] else []
    | _, _ => []
    end) (t_links t).
Definition cns_with_backup : nat := List.length (filter (fun n => Nat.ltb 1 n) (dvals (counter cn_links))).

Record counts := mkCounts {
  active_sites : nat; total_sites : Z; active_pop_sites : nat; total_pop_sites : Z; active_dn_sites : nat; total_dn_sites : Z;
  active_cn_sites : nat; connectable_dn_sites : Z; connectable_cn_sites : Z; total_cn_sites : Z; active_cns_with_backup_dns : nat;
  active_demand_connected_pop_sites : nat; active_demand_connected_dn_sites : nat; active_demand_connected_cn_sites : nat;
  active_nodes : nat; total_nodes : nat; active_dn_nodes : nat; total_dn_nodes : nat; active_cn_nodes : nat; total_cn_nodes : nat;
  active_sectors : nat; total_sectors : nat; active_dn_sectors_on_pops : nat; active_dn_sectors_on_dns : Z; active_cn_sectors : nat;
  active_backhaul_links : nat; total_backhaul_links : nat; active_access_links : nat; total_access_links : nat;
  active_wired_links : nat; total_wired_links : nat }.
(** 25-200 *)
Definition total_of (ty : site_type) : Z := (Z.of_nat (sites_of_type false ty) - redundant None ty)%Z.
Definition connectable (h : dict string nat) (ty : site_type) : Z :=
  (Z.of_nat (List.length (filter (fun q => beq (s_type (snd q)) ty && dmem h (fst q)) (t_sites t))) - redundant (Some h) ty)%Z.
Definition count_topology_components : result (counts * dict string nat * dict Z nat) :=
  do ch <- link_counts_by_channel true ;
  do _ <- link_counts_by_channel false ;
  do h <- hops_from_pops t (Some [PROPOSED; EXISTING; CANDIDATE]) ;
  Ok (mkCounts
        (sites_of_type true CN + sites_of_type true DN + sites_of_type true POP)
        ((Z.of_nat (sites_of_type false CN) + Z.of_nat (sites_of_type false DN) + Z.of_nat (sites_of_type false POP)) - (redundant None CN + redundant None DN + redundant None POP))
        (sites_of_type true POP) (total_of POP) (sites_of_type true DN) (total_of DN)
        (sites_of_type true CN) (connectable h DN) (connectable h CN) (total_of CN) cns_with_backup
        (demand_connected true POP) (demand_connected true DN) (demand_connected true CN)
        (nodes_of_type true false + nodes_of_type true true) (nodes_of_type false false + nodes_of_type false true)
        (nodes_of_type true false) (nodes_of_type false false) (nodes_of_type true true) (nodes_of_type false true)
        (sectors_of_type true false + sectors_of_type true true) (sectors_of_type false false + sectors_of_type false true)
        (dn_sectors_on_pops true) (Z.of_nat (sectors_of_type true false) - Z.of_nat (dn_sectors_on_pops true)) (sectors_of_type true true)
        (links_of_type true WIRELESS_BACKHAUL) (links_of_type false WIRELESS_BACKHAUL) (links_of_type true WIRELESS_ACCESS) (links_of_type false WIRELESS_ACCESS)
        (links_of_type true ETHERNET) (links_of_type false ETHERNET),
      site_counts_by_sku true, ch).
End Counts.
