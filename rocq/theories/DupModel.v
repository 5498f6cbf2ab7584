(** Turning the chosen DNs into POPs
    (optimization/ilp_models/pop_proposal_optimization.py 40-138).
    Simplifications: azimuths, channels, link budgets, names and confidence levels are copied by the
    code and not part of the topology model.  The state left behind by an exception is not modelled. *)
From Coq Require Import ZArith QArith.
From Verif Require Import Base Dict TopologyModel StatusModel SetupModel ExtractModel PopModel.
From Verif Require DemandModel.
Local Open Scope list_scope.

Section Dup.
(** the id the [Site] constructor (site.py 95-101) gives the POP with the place and device of a DN *)
Variable pop_id : string -> string.

(** 61-70; a new site has no polarity (site.py 111) *)
Definition new_pop (s : site) : site := mkSite (pop_id (s_id s)) POP CANDIDATE (s_loc s) UNASSIGNED false.
(** 48-50 *)
Definition sectors_of (t : topo) (i : string) : list sector := filter (fun x => beq (x_site x) i) (dvals (t_sectors t)).
(** 75-85; sector.py 53-61 gives a sector of a POP the type DN *)
Definition copy_key (p : string) (k : seckey) : seckey := mkSecKey p (k_node k) (k_pos k) false.
Definition copy_sector (p : string) (st : topo * dict string seckey) (x : sector) : result (topo * dict string seckey) :=
  let y := mkSector (copy_key p (x_key x)) CANDIDATE in
  do t <- after (add_sector y (fst st)) ;
  Ok (t, dset (snd st) (x_id x) (x_key y)).
(** 54-85: one site of the loop; [decisions] is [solution.site_decisions] *)
Definition copied (decisions : dict string Z) (i : string) (s : site) : bool :=
  beq (match dget decisions i with Some z => z | None => 0%Z end) 1%Z && beq (s_type s) DN.
Definition copy_site (t0 : topo) (decisions : dict string Z) (st : topo * dict string site * dict string seckey) (i : string)
  : result (topo * dict string site * dict string seckey) :=
  let '(t, new, secs) := st in
  do s <- lookup_site t i ;
  if copied decisions i s then
    do t <- after (add_site (new_pop s) t) ;
    do r <- foldM (copy_sector (pop_id (s_id s))) (sectors_of t0 i) (t, secs) ;
    Ok (fst r, dset new i (new_pop s), snd r)
  else Ok st.
Definition copy_sites (t0 : topo) (decisions : dict string Z) : result (topo * dict string site * dict string seckey) :=
  foldM (copy_site t0 decisions) (dkeys (t_sites t0)) (t0, [], []).

(** link.py 79-119 for given sites and sectors and the status CANDIDATE; link.py 195-203 for the type *)
Definition candidate_link (tx rx : site) (a b : seckey) (wireless : bool) : result link :=
  do _ <- guard (negb (beq (s_type tx) CN)) TopologyExn ;
  do _ <- guard (beq (k_site a) (s_id tx) && beq (k_site b) (s_id rx)) TopologyExn ;
  do _ <- guard (link_compat (s_status tx) (s_status rx) CANDIDATE) TopologyExn ;
  Ok (mkLink (s_id tx) (s_id rx) wireless (beq (s_type rx) CN) (Some (a, b)) CANDIDATE).
(** [none_throws(topology.get_link_by_site_ids(a, b))] *)
Definition link_between (t : topo) (a b : string) : result link :=
  do o <- get_link_by_site_ids t a b ;
  match o with Some l => Ok l | None => Err PyAssertion end.
(** 89-109.  The second component is the variable [tx_link], which keeps its value after the loop and
    for the following DNs. *)
Definition copy_out (secs : dict string seckey) (d : string) (pop : site) (st : topo * option link) (n : site) : result (topo * option link) :=
  let t := fst st in
  if beq (s_type n) POP then Ok st
  else
    do l <- link_between t d (s_id n) ;
    match l_sectors l with
    | None => Ok (t, Some l)
    | Some (a, b) =>
      do a' <- get secs (key_id a) ;
      do l' <- candidate_link pop n a' b (l_wireless l) ;
      do t <- after (add_link l' t) ;
      Ok (t, Some l)
    end.
(** 111-131: the copy takes [is_wireless] from [tx_link], not from [rx_link] *)
Definition copy_in (secs : dict string seckey) (d : string) (pop : site) (st : topo * option link) (n : site) : result (topo * option link) :=
  let t := fst st in
  if beq (s_type n) POP then Ok st
  else
    do l <- link_between t (s_id n) d ;
    match l_sectors l with
    | None => Ok st
    | Some (a, b) =>
      do b' <- get secs (key_id b) ;
      do w <- match snd st with Some tx => Ok (l_wireless tx) | None => Err PyNameError end ;
      do l' <- candidate_link n pop a b' w ;
      do t <- after (add_link l' t) ;
      Ok (t, snd st)
    end.
(** 87-131 *)
Definition copy_links (secs : dict string seckey) (st : topo * option link) (p : string * site) : result (topo * option link) :=
  do succ <- get_successor_sites (fst st) (fst p) ;
  do st <- foldM (copy_out secs (fst p) (snd p)) succ st ;
  do pred <- get_predecessor_sites (fst st) (fst p) ;
  foldM (copy_in secs (fst p) (snd p)) pred st.

(** 133-138; only the connected sites of a demand site matter here *)
Definition as_dsite (d : demand) : DemandModel.dsite := DemandModel.mkD 0 0 0 0%Q (d_sites d).
Definition connect_demands (m : dict string (list string)) (t : topo) : result topo :=
  do D <- DemandModel.connect_demand_to_colocated_sites (t_sites t) m (map (fun p => (fst p, as_dsite (snd p))) (t_demands t)) ;
  Ok (set_demands t (map (fun p => (fst p, mkDemand (d_id (snd p)) (match dget D (fst p) with Some q => DemandModel.q_sites q | None => [] end))) (t_demands t))).

(** 40-138 *)
Definition add_duplicate_pops (t : topo) (decisions : dict string Z) : result topo :=
  do st <- copy_sites t decisions ;
  let '(t1, new, secs) := st in
  do st2 <- foldM (copy_links secs) new (t1, None) ;
  connect_demands (map (fun p => (fst p, [s_id (snd p)])) new) (fst st2).
End Dup.
