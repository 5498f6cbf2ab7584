(** OptimizationSetup (optimization/ilp_models/optimization_setup.py 105-372): the tables from which
    every optimisation model is built.

    Simplifications.  Floats are exact rationals.  Device, distance and azimuth data are left out,
    with the link weights computed from them (they only enter objectives).  [validate_topology_status]
    (called at 109) is not part of this file.  The attributes of links, demands and devices that the
    store of TopologyModel.v does not carry are given as functions ([attrs]). *)
From Coq Require Import QArith.
From Verif Require Import Base Dict TopologyModel RfModel.
Local Open Scope Q_scope.

Notation edge := (string * string)%type.
Notation key3 := (string * string * nat)%type.

(** optimization/constants.py 17-26; the values of [location_to_type] and [sector_to_type] *)
Inductive loc_type := Real (t : site_type) | Demand | Supersource.
Definition loc_type_beq (a b : loc_type) : bool :=
  match a, b with Real x, Real y => beq x y | Demand, Demand | Supersource, Supersource => true | _, _ => false end.
Lemma loc_type_beq_spec a b : reflect (a = b) (loc_type_beq a b).
Proof. destruct a as [x| |], b as [y| |]; simpl; try (constructor; congruence). destruct (beq_spec x y); constructor; congruence. Qed.
#[global] Instance EqB_loc_type : EqB loc_type := {| beq := loc_type_beq; beq_spec := loc_type_beq_spec |}.
Inductive sec_type := SecDN | SecCN | SecDemand | SecSuper.
Definition imaginary (t : loc_type) : bool := match t with Real _ => false | _ => true end.
Definition imaginary_sec (t : sec_type) : bool := match t with SecDN | SecCN => false | _ => true end.
(** SiteType.dist_site_types() *)
Definition dist (t : loc_type) : bool := match t with Real POP | Real DN => true | _ => false end.
Definition SUPERSOURCE : string := "SUPERSOURCE".

(** what is read from OptimizerParams (configs.py 534-761) *)
Record params := mkParams {
  p_pop_capacity : Q; p_oversubscription : Q; p_channels : nat; p_ignore_polarities : bool;
  p_always_active_pops : bool; p_budget : Q; p_coverage : Q; p_common_bandwidth : bool;
  p_capex : site_type -> Q }.
(** link.capacity, sector.node_capex (by site), demand.demand and demand.num_sites *)
Record attrs := mkAttrs {
  a_cap : edge -> Q; a_node_capex : string -> Q; a_demand : string -> option Q; a_num : string -> nat }.

(** a dictionary filled by successive assignments [d[k] = v] *)
Definition dict_of {K V} `{EqB K} (l : list (K * V)) : dict K V := fold_left (fun d p => dset d (fst p) (snd p)) l [].
(** [d[k]] *)
Definition get {K V} `{EqB K} (d : dict K V) (k : K) : result V :=
  match dget d k with Some v => Ok v | None => Err PyKeyError end.
Definition guard (b : bool) (e : exn) : result unit := if b then Ok tt else Err e.

(** the attributes of the optimiser object *)
Record inst := mkInst {
  i_params : params;
  i_locations : list string;
  i_type : dict string loc_type;                       (* location_to_type *)
  i_set : loc_type -> list string;                     (* type_sets *)
  i_geo : dict string (Z * Z * Z);                     (* location_to_geoloc *)
  i_secs : dict string (list string);                  (* location_sectors *)
  i_sectype : dict string sec_type;                    (* sector_to_type *)
  i_node : dict string nat;                            (* topology.sectors[sec].node_id *)
  i_demand : dict string Q;                            (* demand_at_location *)
  i_seccost : dict (string * string) Q;                (* cost_sector *)
  i_l2s : dict edge (option string * option string);   (* link_to_sectors *)
  i_cap : dict edge Q;                                 (* link_capacities *)
  i_colocated : dict (Z * Z * Z) (list string);        (* colocated_locations *)
  i_wired : list edge;
  i_existing_sites : list string; i_proposed_sites : list string; i_inactive_sites : list string;
  i_existing_links : list edge; i_proposed_links : list edge; i_inactive_links : list edge;
  i_proposed_sectors : dict string (list string);
  i_max_throughput : Q }.

(** 355: [list(self.link_capacities.keys())] *)
Definition i_links (I : inst) : list edge := dkeys (i_cap I).
(** 356-368: the links ending at, and starting from, a location; KeyError if it is none *)
Definition incoming (I : inst) (loc : string) : result (list edge) :=
  if mem loc (i_locations I) then Ok (filter (fun e => beq (snd e) loc) (i_links I)) else Err PyKeyError.
Definition outgoing (I : inst) (loc : string) : result (list edge) :=
  if mem loc (i_locations I) then Ok (filter (fun e => beq (fst e) loc) (i_links I)) else Err PyKeyError.

Section Setup.
Variable ps : params.
Variable at_ : attrs.
Variable t : topo.

(** 282-300: the locations standing for one demand site *)
Definition demand_ids (d : demand) : list string :=
  map (fun n => match n with O => d_id d | S _ => append (d_id d) (append "_" (dec n)) end) (seq 0 (a_num at_ (d_id d))).
Definition demand_locations : list (string * demand) :=
  flat_map (fun p => map (fun i => (i, snd p)) (demand_ids (snd p))) (t_demands t).
Definition sites_of_type (ty : site_type) : list string :=
  map fst (filter (fun p => beq (s_type (snd p)) ty) (t_sites t)).
Definition super_sec (i : string) : string := append i "_super".
Definition demand_sec (i : string) : string := append i "_demand".
Definition topology_edges : list (edge * link) := map (fun p => ((l_tx (snd p), l_rx (snd p)), snd p)) (t_links t).

(** 276-280 *)
Definition max_link_cap : Q :=
  match topology_edges with
  | [] => p_pop_capacity ps
  | p :: r => fold_left (fun m q => qmax2 m (a_cap at_ (fst q))) r (a_cap at_ (fst p))
  end.
Definition demand_value (d : demand) : Q := match a_demand at_ (d_id d) with Some q => q / p_oversubscription ps | None => 0 end.
(** 282-296: the assertions and the division *)
Definition check_demand (d : demand) : result unit :=
  match a_demand at_ (d_id d) with
  | None => Err OptExn
  | Some q =>
    do _ <- guard (Qle_bool 0 q) OptExn ;
    do _ <- guard (Nat.leb 1 (a_num at_ (d_id d))) PlannerExn ;
    guard (negb (Qeq_bool (p_oversubscription ps) 0)) PyZeroDivision
  end.

Definition demand_edges : list (edge * string) :=
  flat_map (fun p => map (fun s => ((s, fst p), s)) (d_sites (snd p))) demand_locations.
(** 222-247, 318-325, 338-341: link_capacities, in order of insertion *)
Definition setup_cap : dict edge Q := dict_of
  (map (fun i => ((SUPERSOURCE, i), p_pop_capacity ps)) (sites_of_type POP) ++
   map (fun p => (fst p, max_link_cap)) demand_edges ++
   map (fun p => (fst p, a_cap at_ (fst p))) topology_edges).
(** 228-231, 309-312, 346-349 *)
Definition setup_l2s : dict edge (option string * option string) := dict_of
  (map (fun i => ((SUPERSOURCE, i), (None, Some (super_sec i)))) (sites_of_type POP) ++
   map (fun p => (fst p, (Some (demand_sec (snd p)), None))) demand_edges ++
   map (fun p => (fst p, match l_sectors (snd p) with
                         | Some (x, y) => (Some (key_id x), Some (key_id y))
                         | None => (None, None) end)) topology_edges).
Definition setup_locations : list string := SUPERSOURCE :: dkeys (t_sites t) ++ map fst demand_locations.
Definition setup_type : dict string loc_type := dict_of
  ((SUPERSOURCE, Supersource) :: map (fun p => (fst p, Real (s_type (snd p)))) (t_sites t)
   ++ map (fun p => (fst p, Demand)) demand_locations).
Definition setup_set (ty : loc_type) : list string :=
  match ty with Real x => sites_of_type x | Demand => map fst demand_locations | Supersource => [SUPERSOURCE] end.
(** 238-241, 258-260, 313-316, 351-353 *)
Definition setup_secs : dict string (list string) :=
  let d := fold_left (fun d p => dappend d (fst p) (snd p))
    (map (fun i => (i, super_sec i)) (sites_of_type POP) ++
     map (fun p => (x_site (snd p), fst p)) (t_sectors t) ++
     map (fun p => (snd p, demand_sec (snd p))) demand_edges) [] in
  fold_left (fun d loc => if dmem d loc then d else dset d loc []) setup_locations d.
Definition setup_sectype : dict string sec_type := dict_of
  (map (fun i => (super_sec i, SecSuper)) (sites_of_type POP) ++
   map (fun p => (fst p, if k_cn (x_key (snd p)) then SecCN else SecDN)) (t_sectors t) ++
   map (fun p => (demand_sec (snd p), SecDemand)) demand_edges).
(** 256-272: the node price goes to the first sector met on each node *)
Fixpoint sector_costs (seen : list (string * nat)) (l : list (string * sector)) : list ((string * string) * Q) :=
  match l with
  | [] => []
  | (i, x) :: r =>
    let nd := (x_site x, k_node (x_key x)) in
    ((x_site x, i), if mem nd seen then 0 else a_node_capex at_ (x_site x)) :: sector_costs (nd :: seen) r
  end.
(** 327-333 *)
Definition check_link (l : link) : result unit := guard (negb (beq (l_tx l) (l_rx l))) PlannerExn.

Definition endpoint_ok (e : edge) : bool := mem (fst e) setup_locations && mem (snd e) setup_locations.

(** 105-372; network_optimization.py 57-61 for the total demand *)
Definition setup : result inst :=
  do _ <- mapM (fun p => check_demand (snd p)) (t_demands t) ;
  do _ <- mapM (fun p => check_link (snd p)) topology_edges ;
  do _ <- guard (forallb endpoint_ok (dkeys setup_cap)) PyKeyError ;
  let dem := dict_of (map (fun p => (fst p, 0)) (t_sites t) ++ map (fun p => (fst p, demand_value (snd p))) demand_locations) in
  do thr <- mapM (get dem) (filter (fun k => mem k (setup_set Demand)) setup_locations) ;
  let links := dkeys setup_cap in
  Ok (mkInst ps setup_locations setup_type setup_set
        (dict_of (map (fun p => (fst p, s_loc (snd p))) (t_sites t)))
        setup_secs setup_sectype
        (dict_of (map (fun p => (fst p, k_node (x_key (snd p)))) (t_sectors t)))
        dem (dict_of (sector_costs [] (t_sectors t))) setup_l2s setup_cap (get_colocated_sites t)
        (map fst (filter (fun p => negb (l_wireless (snd p))) topology_edges)
         ++ filter (fun e => beq (fst e) SUPERSOURCE) links
         ++ flat_map (fun loc => filter (fun e => beq (snd e) loc) links)
              (filter (fun k => mem k (setup_set Demand)) setup_locations))
        (get_site_ids t (Some [EXISTING]) None) (get_site_ids t (Some [PROPOSED]) None)
        (get_site_ids t (Some [UNAVAILABLE; UNREACHABLE]) None)
        (get_link_site_id_pairs t (Some [EXISTING]) None) (get_link_site_id_pairs t (Some [PROPOSED]) None)
        (get_link_site_id_pairs t (Some [UNAVAILABLE; UNREACHABLE]) None ++ get_sectorless_links t)
        (get_sector_ids t [PROPOSED])
        (fold_left Qplus thr 0)).
End Setup.
