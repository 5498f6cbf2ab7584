(** Capital expenditure, sectors of one node, POP capacity and co-located sites
    (terragraph_planner/optimization/topology_operations.py 160-269, 455-504). *)
From Coq Require Import QArith Qminmax.
From Verif Require Import Base Dict TopologyModel GraphModel.
Local Open Scope Q_scope.

Definition node_of (x : sector) : string * nat := (x_site x, k_node (x_key x)).
(** 455-466 *)
Definition proposed_nodes (t : topo) : list (string * nat) :=
  fold_left (fun acc p => if beq (x_status (snd p)) PROPOSED then sadd (node_of (snd p)) acc else acc) (t_sectors t) [].
Definition set_sector_status_in_same_node (t : topo) : outcome :=
  let nodes := proposed_nodes t in
  for_each (fun k t =>
    match dget (t_sectors t) k with
    | None => fail PyKeyError t
    | Some x => if mem (node_of x) nodes then set_sector_status k PROPOSED t else ok t
    end) (dkeys (t_sectors t)) t.

Section Capex.
(** [sector.site.device.node_capex], by the id of the site, and the table 489-493 *)
Variables (node_capex : string -> Q) (site_capex : site_type -> Q).
Record costs := mkCosts { c_proposed : Q; c_existing : Q }.
Definition add_cost (st : status) (q : Q) (c : costs) : costs :=
  if beq st PROPOSED then mkCosts (c_proposed c + q) (c_existing c)
  else if beq st EXISTING then mkCosts (c_proposed c) (c_existing c + q)
  else c.
(** 476-487: the first sector seen of a node decides for the node *)
Definition node_costs (l : list sector) (c : costs) : list (string * nat) * costs :=
  fold_left (fun (sc : list (string * nat) * costs) x => let (seen, c) := sc in
    if mem (node_of x) seen then (seen, c)
    else (sadd (node_of x) seen, add_cost (x_status x) (node_capex (x_site x)) c)) l ([], c).
(** 495-499 *)
Definition site_costs (l : list site) (c : costs) : costs :=
  fold_left (fun c s => add_cost (s_status s) (site_capex (s_type s)) c) l c.
(** 469-504: total and proposed *)
Definition compute_capex (t : topo) : Q * Q :=
  let c := site_costs (dvals (t_sites t)) (snd (node_costs (dvals (t_sectors t)) (mkCosts 0 0))) in
  (c_proposed c + c_existing c, c_proposed c).
End Capex.

Section PopCapacity.
(** [link_data.capacity], by link id *)
Variables (capacity : string -> Q) (sf : list status).
Notation tables := (dict string (dict string (list Q)) * dict string (list Q))%type.
(** 171-203: the capacities of the usable links, by POP and sector, and of the wired ones, by POP *)
Fixpoint pop_links (t : topo) (links : dict string link) (st : tables) : result tables :=
  match links with
  | [] => Ok st
  | (k, l) :: r =>
    if negb (mem (l_status l) sf) then pop_links t r st
    else
      match dget (t_sites t) (l_tx l), dget (t_sites t) (l_rx l) with
      | Some a, Some b =>
        if negb (beq (s_type a) POP) then pop_links t r st
        else if negb (mem (s_status a) sf) || negb (mem (s_status b) sf) then pop_links t r st
        else if beq (l_type l) ETHERNET then pop_links t r (fst st, dappend (snd st) (l_tx l) (capacity k))
        else
          match l_sectors l with
          | None => pop_links t r st
          | Some (x, _) => pop_links t r (dset (fst st) (l_tx l) (dappend (row (fst st) (l_tx l)) (key_id x) (capacity k)), snd st)
          end
      | _, _ => Err PyKeyError
      end
  end.
(** [max(capacities) if len(capacities) > 0 else 0.0] *)
Definition max_q (l : list Q) : Q := match l with [] => 0 | x :: r => fold_left Qmax r x end.
Definition sum_q (l : list Q) : Q := fold_left Qplus l 0.
(** 207-219 *)
Definition pop_outgoing (st : tables) (i : string) : Q :=
  (match dget (fst st) i with Some d => sum_q (map max_q (dvals d)) | None => 0 end) +
  (match dget (snd st) i with Some c => sum_q c | None => 0 end).
(** 160-222 *)
Definition max_pop_capacity (pop_capacity : Q) (t : topo) : result Q :=
  do st <- pop_links t (t_links t) ([], []) ;
  Ok (sum_q (map (fun i => Qmin (pop_outgoing st i) pop_capacity) (get_site_ids t None (Some [POP])))).
End PopCapacity.

(** 242-248 *)
Definition max_type (m ty : site_type) : site_type :=
  if beq ty DN && negb (beq m POP) then DN else if beq ty POP then POP else m.
(** 249-257 *)
Definition valid_types (m : site_type) : list site_type :=
  match m with CN => [CN; DN; POP] | DN => [DN] | POP => [POP] end.
Definition type_of (t : topo) (i : string) : result site_type :=
  match dget (t_sites t) i with Some s => Ok (s_type s) | None => Err PyKeyError end.
(** 238-267: one group of co-located sites.  A set is iterated at 243; the model takes the
    order of [ids]. *)
Definition group_removals (t : topo) (act ids : list string) : result (list string) :=
  let here := filter (fun i => mem i act) ids in
  match here with
  | [] => Ok []
  | _ =>
    do tys <- mapM (type_of t) here ;
    let m := fold_left max_type tys CN in
    filterM (fun i => do ty <- type_of t i ; Ok (negb (mem ty (valid_types m)) || (beq ty m && negb (mem i act)))) ids
  end.
(** 225-269 *)
Definition colocated_sites_to_remove (t : topo) : result (list string) :=
  do ls <- mapM (group_removals t (get_site_ids t (Some [PROPOSED; EXISTING]) None)) (dvals (get_colocated_sites t)) ;
  Ok (fold_left (fun acc i => sadd i acc) (List.concat ls) []).
