(** Failure analysis on a networkx graph (terragraph_planner/optimization/topology_networkx.py).
    Of networkx only [DiGraph] as a dictionary of dictionaries in insertion order, and [descendants], are modelled;
    the choice of one shortest path per node is an oracle. *)
From Coq Require Import ZArith.
From Verif Require Import Base Dict TopologyModel SetupModel LosRangeModel.
Local Open Scope string_scope.
Local Open Scope list_scope.

(** optimization/constants.py 15-17 *)
Definition SUPERSOURCE : string := "SUPERSOURCE".
Inductive ntype := NSource | NSite (ty : site_type) | NDemand.
Inductive etype := ESource | ELink (ty : link_type) | EDemand.
(** the attributes [link_type] and [link_cost]; [None] is a missing attribute, a cost of [Some None] is infinite.
    The attribute [link_id], which is never read, is left out. *)
Record eattr := mkE { e_type : option etype; e_cost : option (option Z) }.
Definition no_attr : eattr := mkE None None.
(** [datadict.update(attr)] *)
Definition update (old new : eattr) : eattr :=
  mkE (match e_type new with Some x => Some x | None => e_type old end) (match e_cost new with Some x => Some x | None => e_cost old end).
Notation adjacency := (dict string (dict string eattr)).
Record graph := mkG { g_nodes : dict string (option ntype); g_adj : adjacency }.
(** networkx [DiGraph._adj] and [_node] have the same keys *)
Definition add_node (g : graph) (u : string) : graph :=
  if dmem (g_nodes g) u then g else mkG (dset (g_nodes g) u None) (dset (g_adj g) u []).
(** networkx [DiGraph.add_edge] *)
Definition add_edge (g : graph) (u v : string) (a : eattr) : graph :=
  let g := add_node (add_node g u) v in
  let r := row (g_adj g) u in
  mkG (g_nodes g) (dset (g_adj g) u (dset r v (update (match dget r v with Some o => o | None => no_attr end) a))).
Definition has_edge (g : graph) (u v : string) : bool := dmem (row (g_adj g) u) v.
(** networkx [DiGraph.remove_edge] *)
Definition remove_edge (g : graph) (u v : string) : result graph :=
  if has_edge g u v then Ok (mkG (g_nodes g) (dset (g_adj g) u (ddel (row (g_adj g) u) v))) else Err NetworkXExn.
(** networkx [remove_edges_from] ignores edges that are not there *)
Definition discard_edge (g : graph) (u v : string) : graph :=
  if has_edge g u v then mkG (g_nodes g) (dset (g_adj g) u (ddel (row (g_adj g) u) v)) else g.
(** networkx [set_node_attributes]: ids that are not nodes are ignored *)
Definition set_types (l : list (string * ntype)) (g : graph) : graph :=
  mkG (fold_left (fun d q => if dmem d (fst q) then dset d (fst q) (Some (snd q)) else d) l (g_nodes g)) (g_adj g).
(** [graph.edges(data="link_type")] *)
Definition edges (g : graph) : list (string * string * option etype) :=
  flat_map (fun q => map (fun r => (fst q, fst r, e_type (snd r))) (snd q)) (g_adj g).

(** 40-58 *)
Definition mcs_to_cost (m : Z) : option Z :=
  if (12 <? m)%Z then Some 1%Z
  else if mem m [2; 3]%Z then Some 15%Z
  else if mem m [4; 5; 6; 7; 8]%Z then Some 3%Z
  else if mem m [9; 10; 11; 12]%Z then Some 1%Z
  else None.

(** 31-109.  [mcs] is [link.mcs_level].  A connected site that has been removed from the store is skipped: it would
    only add an edge that no other edge leads to. *)
Definition source_edges (f : list status) (t : topo) (g : graph) : graph :=
  fold_left (fun g q => if beq (s_type (snd q)) POP && mem (s_status (snd q)) f
                        then add_edge g SUPERSOURCE (fst q) (mkE (Some ESource) (Some (Some 1%Z))) else g) (t_sites t) g.
Definition status_in (f : list status) (t : topo) (i : string) : bool :=
  match dget (t_sites t) i with Some s => mem (s_status s) f | None => false end.
Definition link_edges (mcs : string -> Z) (f : list status) (t : topo) (g : graph) : graph :=
  fold_left (fun g q => let l := snd q in
                        if mem (l_status l) f && status_in f t (l_tx l) && status_in f t (l_rx l)
                        then add_edge g (l_tx l) (l_rx l) (mkE (Some (ELink (l_type l))) (Some (mcs_to_cost (mcs (l_id l))))) else g) (t_links t) g.
Definition demand_edges (f : list status) (t : topo) (g : graph) : graph :=
  fold_left (fun g q => fold_left (fun g i => if status_in f t i then add_edge g i (fst q) (mkE (Some EDemand) (Some (Some 1%Z))) else g)
                          (d_sites (snd q)) g) (t_demands t) g.
Definition build_digraph (mcs : string -> Z) (t : topo) (f : list status) : graph :=
  let g := source_edges f t (mkG [] []) in
  let g := set_types [(SUPERSOURCE, NSource)] g in
  let g := link_edges mcs f t g in
  let g := set_types (map (fun q => (s_id (snd q), NSite (s_type (snd q)))) (t_sites t)) g in
  let g := demand_edges f t g in
  set_types (map (fun q => (d_id (snd q), NDemand)) (t_demands t)) g.

(** networkx [descendants(graph, source=SUPERSOURCE)] *)
Definition expand (adj : adjacency) (seen : list string) : list string :=
  fold_left (fun acc u => fold_left (fun acc v => sadd v acc) (dkeys (row adj u)) acc) seen seen.
Fixpoint closure (n : nat) (adj : adjacency) (seen : list string) : list string :=
  match n with O => seen | S n => closure n adj (expand adj seen) end.
Definition descendants (g : graph) : result (list string) :=
  if dmem (g_nodes g) SUPERSOURCE
  then Ok (discard SUPERSOURCE (closure (List.length (g_nodes g)) (g_adj g) [SUPERSOURCE]))
  else Err NetworkXExn.
(** 112-122 *)
Definition is_demand (q : string * option ntype) : bool := match snd q with Some NDemand => true | _ => false end.
Definition find_connected_demands (g : graph) : result (list string) :=
  do des <- descendants g ;
  Ok (map fst (filter (fun q => is_demand q && mem (fst q) des) (g_nodes g))).

(** 136-140 *)
Definition sorted_edge (u v : string) : string * string := if str_ltb u v then (u, v) else (v, u).
Definition not_in (a b : list string) : list string := filter (fun x => negb (mem x b)) a.
(** 145-151; an edge without the attribute is not skipped *)
Definition skipped (ty : option etype) : bool :=
  match ty with Some ESource | Some EDemand | Some (ELink WIRELESS_ACCESS) | Some (ELink ETHERNET) => true | _ => false end.
(** 144-169: one edge; the state is the copy of the graph and the result so far *)
Definition edge_failure (g : graph) (demands : list string) (s : graph * dict (string * string) (list string)) (e : string * string * option etype)
  : result (graph * dict (string * string) (list string)) :=
  let '(u, v, ty) := e in
  let (c, d) := s in
  if skipped ty then Ok s
  else
    let key := sorted_edge u v in
    if dmem d key then Ok s
    else
      let rev := has_edge g v u in
      do c <- remove_edge c u v ;
      do c <- (if rev then remove_edge c v u else Ok c) ;
      do des <- descendants c ;
      let c := add_edge c u v no_attr in
      let c := if rev then add_edge c v u no_attr else c in
      Ok (c, dset d key (not_in demands des)).
(** 125-171; the argument is not modified, the failures are tried on a copy *)
Definition single_edge_failures (g : graph) : result (dict (string * string) (list string)) :=
  do demands <- find_connected_demands g ;
  do s <- foldM (edge_failure g demands) (g, []) (edges g) ;
  Ok (snd s).

(** 192-218: one node *)
Definition site_failure (demands : list string) (s : graph * dict string (list string) * dict string (list string)) (q : string * option ntype)
  : result (graph * dict string (list string) * dict string (list string)) :=
  let '(c, p, d) := s in
  let i := fst q in
  if match snd q with Some (NSite CN) | Some NDemand => true | _ => beq i SUPERSOURCE end then Ok s
  else
    let out := row (g_adj c) i in
    let c := fold_left (fun c r => discard_edge c i (fst r)) out c in
    do des <- descendants c ;
    let c := fold_left (fun c r => add_edge c i (fst r) (snd r)) out c in
    match not_in demands des with
    | [] => Ok (c, p, d)
    | lost =>
      match snd q with
      | Some (NSite POP) => Ok (c, dset p i lost, d)
      | Some (NSite DN) => Ok (c, p, dset d i lost)
      | _ => Ok (c, p, d)
      end
    end.
(** 174-220 *)
Definition single_site_failures (g : graph) : result (dict string (list string) * dict string (list string)) :=
  do demands <- find_connected_demands g ;
  do s <- foldM (site_failure demands) (g, [], []) (g_nodes g) ;
  Ok (snd (fst s), snd s).

(** 250-279: the loop over the sorted edges; [k] is the candidate graph and [c] its copy *)
Fixpoint disrupt (proposed cand : graph) (demands : list string) (count : nat) (fails : dict (string * string) (list string))
    (c : graph) (acc : list (string * string)) (l : list (string * string)) : result (list (string * string)) :=
  match l with
  | [] => Ok acc
  | (u, v) :: l =>
    if (count <=? List.length acc)%nat then Ok acc
    else
      do lost <- get fails (u, v) ;
      match lost with
      | [] => Ok acc
      | _ =>
        do r <- get (g_adj proposed) u ;
        do a <- get r v ;
        do ty <- match e_type a with Some ty => Ok ty | None => Err PyKeyError end ;
        if match ty with ELink WIRELESS_ACCESS => true | _ => false end then disrupt proposed cand demands count fails c acc l
        else if mem (u, v) acc then disrupt proposed cand demands count fails c acc l
        else
          let rev := has_edge cand v u in
          do c <- remove_edge c u v ;
          do c <- (if rev then remove_edge c v u else Ok c) ;
          do des <- descendants c ;
          match not_in demands des with
          | [] =>
            let acc := sadd (u, v) acc in
            let acc := if rev then sadd (v, u) acc else acc in
            disrupt proposed cand demands count fails c acc l
          | _ =>
            let c := add_edge c u v no_attr in
            let c := if rev then add_edge c v u no_attr else c in
            disrupt proposed cand demands count fails c acc l
          end
      end
  end.
(** 223-284 *)
Definition find_most_disruptive_links (proposed cand : graph) (count : Z) : result (list (string * string)) :=
  if (count <=? 0)%Z then Ok []
  else
    do fails <- single_edge_failures proposed ;
    let size k := match dget fails k with Some l => List.length l | None => O end in
    let sorted := sort_by (fun p q => (size q <? size p)%nat) (dkeys fails) in
    do demands <- find_connected_demands cand ;
    disrupt proposed cand demands (Z.to_nat count) fails cand [] sorted.

Section Paths.
(** [nx.single_source_shortest_path(graph, source=SUPERSOURCE)] *)
Variable shortest_paths : graph -> dict string (list string).

Definition node_at (p : list string) (n : nat) : result string := match nth_error p n with Some x => Ok x | None => Err PyIndexError end.
(** 425-435: the links of the path up to the first CN are taken out of the graph; the result is the graph and [end] *)
Fixpoint cut_path (t : topo) (p : list string) (n len : nat) (g : graph) (stop : nat) : result (graph * nat) :=
  match len with
  | O => Ok (g, stop)
  | S len =>
    do tail <- node_at p (S n) ;
    do s <- get (t_sites t) tail ;
    if beq (s_type s) CN then Ok (g, stop)
    else
      do head <- node_at p n ;
      do g <- remove_edge g head tail ;
      cut_path t p (S n) len g (S n)
  end.
(** 440-444 *)
Fixpoint mend_path (p : list string) (n len : nat) (g : graph) : result graph :=
  match len with
  | O => Ok g
  | S len =>
    do a <- node_at p n ;
    do b <- node_at p (S n) ;
    mend_path p (S n) len (add_edge g a b no_attr)
  end.
Record disjoint := mkDisjoint { j_two : list string; j_none : list string; j_pop : list string }.
(** 384-444: one demand site *)
Definition disjoint_step (t : topo) (paths : dict string (list string)) (s : graph * disjoint) (i : string) : result (graph * disjoint) :=
  let (g, j) := s in
  match dget paths i with
  | None => Ok (g, mkDisjoint (j_two j) (sadd i (j_none j)) (j_pop j))
  | Some p =>
    if (List.length p <=? 3)%nat then
      if negb (List.length p =? 3)%nat then Err OptExn
      else
        do x <- node_at p 1 ;
        do s <- get (t_sites t) x ;
        if beq (s_type s) POP then Ok (g, mkDisjoint (j_two j) (j_none j) (sadd i (j_pop j))) else Err OptExn
    else
      do r <- cut_path t p 1 (List.length p - 3) g 0 ;
      let (g, stop) := (r : graph * nat) in
      do des <- descendants g ;
      let j := if mem i des then mkDisjoint (sadd i (j_two j)) (j_none j) (j_pop j) else j in
      do g <- mend_path p 1 (stop - 1) g ;
      Ok (g, j)
  end.
(** 369-449: the result, and the graph that was passed in as it is left *)
Definition disjoint_paths (t : topo) (g : graph) : result (graph * disjoint) :=
  if dmem (g_nodes g) SUPERSOURCE
  then foldM (disjoint_step t (shortest_paths g)) (g, mkDisjoint [] [] []) (dkeys (t_demands t))
  else Err NetworkXExn.

(** 348-364: the links on the chosen path of each demand site *)
Fixpoint path_links (t : topo) (p : list string) (n len : nat) (acc : list string) : result (list string) :=
  match len with
  | O => Ok acc
  | S len =>
    do a <- node_at p (n - 1) ;
    do b <- node_at p n ;
    if dmem (t_links t) (link_id_of a b) then path_links t p (S n) len (sadd (link_id_of a b) acc) else Err OptExn
  end.
Definition routing_links (t : topo) (paths : dict string (list string)) : result (list string) :=
  foldM (fun acc i => match dget paths i with None => Ok acc | Some p => path_links t p 2 (List.length p - 3) acc end) [] (dkeys (t_demands t)).

(** networkx [graph.subgraph(nodes)]: the nodes that are given and the edges between them *)
Definition subgraph (g : graph) (nodes : list string) : graph :=
  mkG (filter (fun q => mem (fst q) nodes) (g_nodes g))
      (map (fun q => (fst q, filter (fun r : string * eattr => mem (fst r) nodes) (snd q))) (filter (fun q => mem (fst q) nodes) (g_adj g))).
(** 298-306: the nodes of each zone *)
Definition zones (paths : dict string (list string)) : dict string (list string) :=
  fold_left (fun z q =>
      match snd q with
      | _ :: pop :: _ => dset z pop (fold_left (fun acc x => sadd x acc) (snd q) (match dget z pop with Some l => l | None => [] end))
      | _ => z
      end) paths [].
(** [nx.shortest_path(subgraph, source=SUPERSOURCE, weight="link_cost")] *)
Variable cheapest_paths : graph -> dict string (list string).
(** 287-312 *)
Definition dpa_paths (g : graph) (paths : dict string (list string)) : dict string (list string) :=
  fold_left (fun acc q => fold_left (fun acc r => dset acc (fst r) (snd r)) (cheapest_paths (subgraph g (snd q))) acc) (zones paths) [].
Inductive routing := MCS_COST_PATH | SHORTEST_PATH | DPA_PATH.
(** 315-366; networkx raises if the graph has no supersource *)
Definition get_topology_routing_results (t : topo) (g : graph) (ty : routing) : result (list string) :=
  if dmem (g_nodes g) SUPERSOURCE
  then routing_links t (match ty with MCS_COST_PATH => cheapest_paths g | SHORTEST_PATH => shortest_paths g | DPA_PATH => dpa_paths g (shortest_paths g) end)
  else Err NetworkXExn.
End Paths.
