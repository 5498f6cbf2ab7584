(** Proposing extra POPs among the DNs
    (optimization/ilp_models/pop_proposal_optimization.py). *)
From Coq Require Import QArith ZArith.
From Verif Require Import Base Dict TopologyModel StatusModel GraphModel SetupModel IlpModel.
Local Open Scope list_scope.

(** the topology after a call, or its exception *)
Definition after (o : outcome) : result topo := match o with (Ok _, t) => Ok t | (Err e, _) => Err e end.

(** 146-159: the DNs at the place of a POP; the ids come from the site table, so no lookup fails *)
Definition has_type (t : topo) (ty : site_type) (i : string) : bool :=
  match dget (t_sites t) i with Some s => beq (s_type s) ty | None => false end.
Definition dns_on_pops (t : topo) : list string :=
  flat_map (fun ids => if existsb (has_type t POP) ids then filter (has_type t DN) ids else []) (dvals (get_colocated_sites t)).
(** 161-172: the other DNs become POPs *)
Definition as_pop (s : site) : site := mkSite (s_id s) POP (s_status s) (s_loc s) (s_polarity s) (s_detected s).
Definition access_site (on : list string) (s : site) : site :=
  if beq (s_type s) DN && negb (mem (s_id s) on) then as_pop s else s.
Definition access_sites (t : topo) : dict string site :=
  map (fun p => (fst p, access_site (dns_on_pops t) (snd p))) (t_sites t).
(** 174-178 *)
Definition links_to_delete (t : topo) : result (list string) :=
  do l <- filterM (fun p => do s <- lookup_site t (l_rx (snd p)) ; Ok (negb (beq (s_type s) CN))) (t_links t) ;
  Ok (map (fun p => l_id (snd p)) l).
(** 141-185 *)
Definition backhaul_removed (t : topo) : result topo :=
  let t := set_sites t (access_sites t) in
  do ks <- links_to_delete t ;
  after (remove_links ks t).
Definition access_topology (t : topo) : result topo :=
  do t <- backhaul_removed t ;
  after (mark_unreachable_components None t).

(** 197-204: the constructor of the problem sees these parameters *)
Definition pop_params (ps : params) : params :=
  mkParams (p_pop_capacity ps) (p_oversubscription ps) (p_channels ps) true false (p_budget ps) (p_coverage ps) false (p_capex ps).

(** 213-218, 221-226 and 262-266: the POPs that are not inactive *)
Definition usable_pops (t : topo) : list string :=
  map s_id (filter (fun s => beq (s_type s) POP && negb (mem (s_status s) [UNAVAILABLE; UNREACHABLE])) (dvals (t_sites t))).
(** 212-234; [ta] is the access topology *)
Definition num_pops (extra : nat) (t ta : topo) : nat :=
  Nat.min (extra + List.length (usable_pops t)) (List.length (usable_pops ta)).

(** 267: [proposed_sites] is a set, listed here in the order of the sites *)
Definition with_proposed (ids : list string) (I : inst) : inst :=
  mkInst (i_params I) (i_locations I) (i_type I) (i_set I) (i_geo I) (i_secs I) (i_sectype I) (i_node I) (i_demand I) (i_seccost I)
    (i_l2s I) (i_cap I) (i_colocated I) (i_wired I) (i_existing_sites I)
    (filter (fun i => mem i (i_proposed_sites I) || mem i ids) (dkeys (i_geo I))) (i_inactive_sites I)
    (i_existing_links I) (i_proposed_links I) (i_inactive_links I) (i_proposed_sectors I) (i_max_throughput I).
(** 189-209 and 262-272: the network and the number of POPs to choose *)
Definition propose_setup (ps : params) (at_ : attrs) (extra : nat) (t : topo) : result (inst * nat) :=
  do ta <- access_topology t ;
  do I <- network (pop_params ps) at_ ta ;
  do tp <- after (for_each (fun i => set_site_status i PROPOSED) (usable_pops t) ta) ;
  Ok (with_proposed (usable_pops t) I, num_pops extra t tp).
(** 253-278, up to the objective *)
Definition propose_problem (ps : params) (at_ : attrs) (extra : nat) (t : topo) : result (inst * problem) :=
  do s <- propose_setup ps at_ extra t ;
  do P <- site_problem (CoverageUnderPops (snd s)) [] (fst s) ;
  Ok (fst s, P).
