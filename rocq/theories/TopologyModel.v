(** Model of terragraph_planner/common/topology_models/topology.py: the in-memory
    topology store and its queries.

    Simplifications, stated once.  Objects are records; a reference from a link or
    sector to a site is kept as the site's id, because the store only ever reads the
    id through the reference.  Coordinates are integers: only equality of coordinates
    is used here.  Python sets are duplicate-free lists.  Every operation returns the
    exception it raises together with the store as it is left at that moment. *)
From Coq Require Import DecimalString.
From Verif Require Import Base Dict.
Local Open Scope string_scope.

(** common/topology_models/site.py 28-113: the attributes read by the store.  [s_id] is
    the md5 hexadecimal digest computed by the constructor, [s_detected] is
    [isinstance(site, DetectedSite)]. *)
Record site := mkSite {
  s_id : string; s_type : site_type; s_status : status;
  s_loc : Z * Z * Z; s_polarity : polarity; s_detected : bool }.

(** common/topology_models/sector.py 24-68 *)
Record seckey := mkSecKey { k_site : string; k_node : nat; k_pos : nat; k_cn : bool }.
Record sector := mkSector { x_key : seckey; x_status : status }.
Definition dec (n : nat) : string := NilEmpty.string_of_uint (Nat.to_uint n).
(** sector.py 45-48: [f"{site_id}-{node_id}-{position}-CN|DN"] *)
Definition key_id (k : seckey) : string :=
  k_site k ++ "-" ++ dec (k_node k) ++ "-" ++ dec (k_pos k) ++ "-" ++ (if k_cn k then "CN" else "DN").
Definition x_id (x : sector) : string := key_id (x_key x).
Definition x_site (x : sector) : string := k_site (x_key x).

(** common/topology_models/link.py 36-135; [l_sectors] is both sectors or none
    (link.py 104-112). *)
Record link := mkLink {
  l_tx : string; l_rx : string; l_wireless : bool; l_rx_cn : bool;
  l_sectors : option (seckey * seckey); l_status : status }.
(** link.py 348-349: [f"{tx_site_id}-{rx_site_id}"] *)
Definition link_id_of (a b : string) : string := a ++ "-" ++ b.
Definition l_id (l : link) : string := link_id_of (l_tx l) (l_rx l).
(** link.py 195-203 *)
Definition l_type (l : link) : link_type :=
  if negb (l_wireless l) then ETHERNET else if l_rx_cn l then WIRELESS_ACCESS else WIRELESS_BACKHAUL.
(** link.py 177-179 *)
Definition clear_sectors (l : link) : link :=
  mkLink (l_tx l) (l_rx l) (l_wireless l) (l_rx_cn l) None (l_status l).

(** common/topology_models/demand_site.py 19-53: id and the ids of the connected sites *)
Record demand := mkDemand { d_id : string; d_sites : list string }.

(** topology.py 29-57: the seven tables *)
Record topo := mkTopo {
  t_sites : dict string site;
  t_demands : dict string demand;
  t_sectors : dict string sector;
  t_links : dict string link;
  t_secidx : dict string (list string);
  t_conn : dict string (dict string string);
  t_rconn : dict string (dict string string) }.
Definition empty_topo : topo := mkTopo [] [] [] [] [] [] [].

Definition set_sites t v := mkTopo v (t_demands t) (t_sectors t) (t_links t) (t_secidx t) (t_conn t) (t_rconn t).
Definition set_demands t v := mkTopo (t_sites t) v (t_sectors t) (t_links t) (t_secidx t) (t_conn t) (t_rconn t).
Definition set_sectors t v := mkTopo (t_sites t) (t_demands t) v (t_links t) (t_secidx t) (t_conn t) (t_rconn t).
Definition set_links t v := mkTopo (t_sites t) (t_demands t) (t_sectors t) v (t_secidx t) (t_conn t) (t_rconn t).
Definition set_secidx t v := mkTopo (t_sites t) (t_demands t) (t_sectors t) (t_links t) v (t_conn t) (t_rconn t).
Definition set_conn t v := mkTopo (t_sites t) (t_demands t) (t_sectors t) (t_links t) (t_secidx t) v (t_rconn t).
Definition set_rconn t v := mkTopo (t_sites t) (t_demands t) (t_sectors t) (t_links t) (t_secidx t) (t_conn t) v.

Definition outcome := (result unit * topo)%type.
Definition ok (t : topo) : outcome := (Ok tt, t).
Definition fail (e : exn) (t : topo) : outcome := (Err e, t).
Definition andthen (o : outcome) (f : topo -> outcome) : outcome :=
  match fst o with Ok _ => f (snd o) | Err _ => o end.

(** [d.get(k, {})] / [d[k]] on a defaultdict, as a value *)
Definition row {V} (d : dict string (list V)) (k : string) : list V :=
  match dget d k with Some r => r | None => [] end.
(** [index.setdefault(a, {})[b] = v], topology.py 212-217 *)
Definition set2 (c : dict string (dict string string)) (a b v : string) :=
  dset c a (dset (row c a) b v).
(** [del index[a][b]]; [None] is KeyError *)
Definition del2 (c : dict string (dict string string)) (a b : string)
  : option (dict string (dict string string)) :=
  match dget c a with
  | Some r => if dmem r b then Some (dset c a (ddel r b)) else None
  | None => None
  end.

(** topology.py 93-104 *)
Definition add_site (s : site) (t : topo) : outcome :=
  if s_detected s then fail TopologyExn t
  else if dmem (t_sites t) (s_id s) then fail TopologyExn t
  else ok (set_sites t (dset (t_sites t) (s_id s) s)).

(** topology.py 244-254 *)
Definition remove_link (k : string) (t : topo) : outcome :=
  match dget (t_links t) k with
  | None => fail PlannerExn t
  | Some l =>
    match del2 (t_conn t) (l_tx l) (l_rx l) with
    | None => fail PyKeyError t
    | Some c =>
      let t1 := set_conn t c in
      match del2 (t_rconn t1) (l_rx l) (l_tx l) with
      | None => fail PyKeyError t1
      | Some r => ok (set_links (set_rconn t1 r) (ddel (t_links t1) k))
      end
    end
  end.

(** topology.py 113-115: [for sector_id in site_id_to_sector_ids[site_id]: del sectors[sector_id]] *)
Fixpoint del_sectors (ids : list string) (t : topo) : outcome :=
  match ids with
  | [] => ok t
  | i :: r =>
    if dmem (t_sectors t) i then del_sectors r (set_sectors t (ddel (t_sectors t) i))
    else fail PyKeyError t
  end.
(** topology.py 123-124 *)
Fixpoint remove_links (ids : list string) (t : topo) : outcome :=
  match ids with
  | [] => ok t
  | k :: r => andthen (remove_link k t) (remove_links r)
  end.

(** reading a missing key of the defaultdict creates it *)
Definition touch_secidx (i : string) (t : topo) : topo :=
  if dmem (t_secidx t) i then t else set_secidx t (dset (t_secidx t) i []).

(** topology.py 106-127 *)
Definition remove_site (i : string) (t : topo) : outcome :=
  if negb (dmem (t_sites t) i) then fail TopologyExn t
  else
    let t0 := touch_secidx i t in
    andthen (del_sectors (row (t_secidx t0) i) t0) (fun t1 =>
      let ids := app (dvals (row (t_conn t1) i)) (dvals (row (t_rconn t1) i)) in
      andthen (remove_links ids t1) (fun t2 =>
        ok (set_sites t2 (ddel (t_sites t2) i)))).

(** topology.py 129-134 *)
Definition add_demand (d : demand) (t : topo) : outcome :=
  ok (set_demands t (dset (t_demands t) (d_id d) d)).
(** topology.py 136-142 *)
Definition remove_demand (i : string) (t : topo) : outcome :=
  if dmem (t_demands t) i then ok (set_demands t (ddel (t_demands t) i)) else fail TopologyExn t.

(** topology.py 144-162 *)
Definition add_sector (x : sector) (t : topo) : outcome :=
  if dmem (t_sectors t) (x_id x) then fail TopologyExn t
  else if negb (dmem (t_sites t) (x_site x)) then fail TopologyExn t
  else
    let t1 := set_secidx t (dset (t_secidx t) (x_site x) (sadd (x_id x) (row (t_secidx t) (x_site x)))) in
    ok (set_sectors t1 (dset (t_sectors t1) (x_id x) x)).

(** topology.py 180-193: clear the sectors of each listed link that uses sector [i] on the
    given side; [links[link_id]] may be a KeyError *)
Definition uses_tx (i : string) (l : link) : bool :=
  match l_sectors l with Some (a, _) => beq (key_id a) i | None => false end.
Definition uses_rx (i : string) (l : link) : bool :=
  match l_sectors l with Some (_, b) => beq (key_id b) i | None => false end.
Fixpoint clear_all (uses : link -> bool) (ids : list string) (t : topo) : outcome :=
  match ids with
  | [] => ok t
  | k :: r =>
    match dget (t_links t) k with
    | None => fail PyKeyError t
    | Some l =>
      clear_all uses r
        (if uses l then set_links t (dset (t_links t) k (clear_sectors l)) else t)
    end
  end.
(** topology.py 164-196 *)
Definition remove_sector (i : string) (t : topo) : outcome :=
  match dget (t_sectors t) i with
  | None => fail TopologyExn t
  | Some x =>
    let s := x_site x in
    if negb (dmem (t_sites t) s) then fail TopologyExn t
    else
      andthen (clear_all (uses_tx i) (dvals (row (t_conn t) s)) t) (fun t1 =>
      andthen (clear_all (uses_rx i) (dvals (row (t_rconn t1) s)) t1) (fun t2 =>
        let t3 := touch_secidx s t2 in
        if mem i (row (t_secidx t3) s) then
          let t4 := set_secidx t3 (dset (t_secidx t3) s (discard i (row (t_secidx t3) s))) in
          ok (set_sectors t4 (ddel (t_sectors t4) i))
        else fail PyKeyError t3))
  end.

(** topology.py 198-217 *)
Definition add_link (l : link) (t : topo) : outcome :=
  if dmem (t_sites t) (l_tx l) && dmem (t_sites t) (l_rx l) then
    let t1 := set_links t (dset (t_links t) (l_id l) l) in
    let t2 := set_conn t1 (set2 (t_conn t1) (l_tx l) (l_rx l) (l_id l)) in
    ok (set_rconn t2 (set2 (t_rconn t2) (l_rx l) (l_tx l) (l_id l)))
  else fail PlannerExn t.

(** topology.py 219-242, link.py 94-98 (a CN cannot transmit) and 362-392 for the
    CANDIDATE default status are folded into [make_link]: it is the [Link] constructor,
    which may raise. *)
Definition add_link_from_site_ids (a b : string) (make_link : site -> site -> result link)
    (t : topo) : outcome :=
  match dget (t_sites t) a with
  | None => fail TopologyExn t
  | Some sa =>
    match dget (t_sites t) b with
    | None => fail TopologyExn t
    | Some sb =>
      match make_link sa sb with
      | Err e => fail e t
      | Ok l => add_link l t
      end
    end
  end.

(** Python string comparison (by code point) and [dict(sorted(d.items()))]; keys are
    unique so values are never compared. *)
Fixpoint str_ltb (a b : string) : bool :=
  match a, b with
  | EmptyString, EmptyString => false
  | EmptyString, String _ _ => true
  | String _ _, EmptyString => false
  | String x a', String y b' =>
    if N.ltb (N_of_ascii x) (N_of_ascii y) then true
    else if N.ltb (N_of_ascii y) (N_of_ascii x) then false
    else str_ltb a' b'
  end.
Fixpoint insert_by {A} (lt : A -> A -> bool) (x : A) (l : list A) : list A :=
  match l with
  | [] => [x]
  | y :: r => if lt y x then y :: insert_by lt x r else x :: l
  end.
Definition sort_by {A} (lt : A -> A -> bool) (l : list A) : list A :=
  fold_right (insert_by lt) [] l.
Definition sort_dict {V} (d : dict string V) : dict string V :=
  sort_by (fun p q => str_ltb (fst p) (fst q)) d.
(** topology.py 361-372 *)
Definition sort_demand (d : demand) : demand := mkDemand (d_id d) (sort_by str_ltb (d_sites d)).
Definition sort_topo (t : topo) : topo :=
  mkTopo (sort_dict (t_sites t))
         (map (fun p => (fst p, sort_demand (snd p))) (sort_dict (t_demands t)))
         (sort_dict (t_sectors t)) (sort_dict (t_links t))
         (t_secidx t) (t_conn t) (t_rconn t).

(** The public mutating calls, as data. *)
Inductive op :=
| AddSite (s : site) | RemoveSite (i : string)
| AddDemand (d : demand) | RemoveDemand (i : string)
| AddSector (x : sector) | RemoveSector (i : string)
| AddLink (l : link) | RemoveLink (k : string)
| SortAll.
Definition run_op (o : op) (t : topo) : outcome :=
  match o with
  | AddSite s => add_site s t
  | RemoveSite i => remove_site i t
  | AddDemand d => add_demand d t
  | RemoveDemand i => remove_demand i t
  | AddSector x => add_sector x t
  | RemoveSector i => remove_sector i t
  | AddLink l => add_link l t
  | RemoveLink k => remove_link k t
  | SortAll => ok (sort_topo t)
  end.
(** A history: the state after every call, whether or not the call raised (a caller may
    catch the exception and go on). *)
Definition run (ops : list op) (t : topo) : topo := fold_left (fun t o => snd (run_op o t)) ops t.

(** ** Queries *)
Fixpoint mapM {A B} (f : A -> result B) (l : list A) : result (list B) :=
  match l with
  | [] => Ok []
  | x :: r => rbind (f x) (fun y => rbind (mapM f r) (fun ys => Ok (y :: ys)))
  end.
Definition lookup_site (t : topo) (i : string) : result site :=
  match dget (t_sites t) i with Some s => Ok s | None => Err PyKeyError end.
(** topology.py 256-274 *)
Definition get_successor_sites (t : topo) (i : string) : result (list site) :=
  if negb (dmem (t_sites t) i) then Err TopologyExn
  else mapM (lookup_site t) (dkeys (row (t_conn t) i)).
(** topology.py 276-294 *)
Definition get_predecessor_sites (t : topo) (i : string) : result (list site) :=
  if negb (dmem (t_sites t) i) then Err TopologyExn
  else mapM (lookup_site t) (dkeys (row (t_rconn t) i)).
(** topology.py 318-332 *)
Definition get_link_by_site_ids (t : topo) (a b : string) : result (option link) :=
  if dmem (t_sites t) a && dmem (t_sites t) b then Ok (dget (t_links t) (link_id_of a b))
  else Err TopologyExn.
(** topology.py 334-354 *)
Definition get_link_by_sector_ids (t : topo) (a b : string) : result (option link) :=
  match dget (t_sectors t) a, dget (t_sectors t) b with
  | Some xa, Some xb => get_link_by_site_ids t (x_site xa) (x_site xb)
  | _, _ => Err TopologyExn
  end.
(** topology.py 356-359 *)
Definition get_reverse_link (t : topo) (l : link) : result (option link) :=
  get_link_by_site_ids t (l_rx l) (l_tx l).
Fixpoint filterM {A} (f : A -> result bool) (l : list A) : result (list A) :=
  match l with
  | [] => Ok []
  | x :: r => rbind (f x) (fun b => rbind (filterM f r) (fun ys => Ok (if b then x :: ys else ys)))
  end.
Definition is_wireless_link (o : option link) : bool :=
  match o with Some l => l_wireless l | None => false end.
(** topology.py 296-305 *)
Definition get_wireless_successor_sites (t : topo) (i : string) : result (list site) :=
  rbind (get_successor_sites t i)
    (filterM (fun s => rbind (get_link_by_site_ids t i (s_id s)) (fun o => Ok (is_wireless_link o)))).
(** topology.py 307-316: the link looked up runs from [site] to the predecessor *)
Definition get_wireless_predecessor_sites (t : topo) (i : string) : result (list site) :=
  rbind (get_predecessor_sites t i)
    (filterM (fun s => rbind (get_link_by_site_ids t i (s_id s)) (fun o => Ok (is_wireless_link o)))).

(** [d.setdefault(k, []).append(v)] *)
Definition dappend {K V} `{EqB K} (d : dict K (list V)) (k : K) (v : V) : dict K (list V) :=
  dset d k (app (match dget d k with Some r => r | None => [] end) [v]).
(** topology.py 374-387 *)
Definition get_colocated_sites (t : topo) : dict (Z * Z * Z) (list string) :=
  fold_left (fun acc p => dappend acc (s_loc (snd p)) (fst p)) (t_sites t) [].
Definition in_filter {A} `{EqB A} (f : option (list A)) (x : A) : bool :=
  match f with None => true | Some l => mem x l end.
(** topology.py 389-402 *)
Definition get_site_ids (t : topo) (sf : option (list status)) (tf : option (list site_type)) : list string :=
  map fst (filter (fun p => in_filter sf (s_status (snd p)) && in_filter tf (s_type (snd p))) (t_sites t)).
(** topology.py 404-417 *)
Definition get_link_site_id_pairs (t : topo) (sf : option (list status)) (tf : option (list link_type))
  : list (string * string) :=
  map (fun p => (l_tx (snd p), l_rx (snd p)))
      (filter (fun p => in_filter sf (l_status (snd p)) && in_filter tf (l_type (snd p))) (t_links t)).
Definition is_out_of_sector (l : link) : bool := match l_sectors l with None => true | Some _ => false end.
(** topology.py 419-425 *)
Definition get_sectorless_links (t : topo) : list (string * string) :=
  map (fun p => (l_tx (snd p), l_rx (snd p)))
      (filter (fun p => negb (beq (l_type (snd p)) ETHERNET) && is_out_of_sector (snd p)) (t_links t)).
(** topology.py 427-436 *)
Definition get_sector_ids (t : topo) (sf : list status) : dict string (list string) :=
  fold_left (fun acc p => if mem (x_status (snd p)) sf
                          then dset acc (x_site (snd p)) (sadd (fst p) (row acc (x_site (snd p)))) else acc)
            (t_sectors t) [].
(** topology.py 438-450: the ids with polarity [p] *)
Definition get_site_polarities (t : topo) (p : polarity) : list string :=
  filter (fun i => match dget (t_sites t) i with Some s => beq (s_polarity s) p | None => false end)
         (get_site_ids t (Some [PROPOSED; EXISTING]) (Some [POP; DN])).
(** topology.py 59-74 and 76-91 *)
Definition sector_connectivity (t : topo) : dict string (dict string string) :=
  fold_left (fun acc p => match l_sectors (snd p) with
                          | None => acc
                          | Some (a, b) => set2 acc (key_id a) (key_id b) (l_id (snd p))
                          end) (t_links t) [].
Definition sector_connectivity_reverse (t : topo) : dict string (dict string string) :=
  fold_left (fun acc p => match l_sectors (snd p) with
                          | None => acc
                          | Some (a, b) => set2 acc (key_id b) (key_id a) (l_id (snd p))
                          end) (t_links t) [].
