(** The links of a candidate topology file (terragraph_planner/common/data_io/utils.py and csv_library.py 216-262).
    The sites of the file are already in the topology; a site is found by its name through [lookup], and the KD-tree of
    scipy and the projection to UTM are the parameters [nearest] and [close]. *)
From Coq Require Import QArith.
From Verif Require Import Base Dict TopologyModel SetupModel LosRangeModel StatusModel ConfModel.
Local Open Scope string_scope.
Local Open Scope list_scope.

(** structs.py 79-92: RawLink *)
Record raw := mkRaw {
  rw_type : link_type; rw_status : status; rw_tx : option string; rw_rx : option string; rw_tx_pos : Q * Q; rw_rx_pos : Q * Q }.

(** link.py 36-135: a link without sectors *)
Definition make_link (a b : site) (st : status) (wireless : bool) : result link :=
  do _ <- guard (negb (beq (s_type a) CN)) TopologyExn ;
  do _ <- guard (link_compat (s_status a) (s_status b) st) TopologyExn ;
  Ok (mkLink (s_id a) (s_id b) wireless (beq (s_type b) CN) None st).
(** The state is only used when nothing was raised *)
Definition value_of (o : outcome) : result topo := match fst o with Ok _ => Ok (snd o) | Err e => Err e end.

(** utils.py 99-138 *)
Definition add_between (t : topo) (a b : site) (r : option raw) : result topo :=
  do existing <- get_link_by_site_ids t (s_id a) (s_id b) ;
  match existing with
  | None =>
    if beq (s_type a) CN then Ok t
    else
      let '(st, wireless) := match r with None => (CANDIDATE, true) | Some r => (rw_status r, negb (beq (rw_type r) ETHERNET)) end in
      do l <- make_link a b st wireless ;
      value_of (add_link l t)
  | Some l =>
    match r with
    | Some r => if beq (l_status l) (rw_status r) then Ok t else Err DataExn
    | None => Ok t
    end
  end.
Definition add_both (r : option raw) (t : topo) (p : site * site) : result topo :=
  do t <- add_between t (fst p) (snd p) r ;
  add_between t (snd p) (fst p) r.

Section Mapping.
(** InputSites: the sites in order, and by name *)
Variable sites : list site.
Variable lookup : string -> option site.
(** The site nearest to a position, when there is one within SITE_LINK_DIST_THRESHOLD; the geohash of a site; whether a
    site is within the threshold of a position *)
Variable nearest : Q * Q -> option site.
Variable hash : site -> string.
Variable close : Q * Q -> site -> bool.

(** 62-96 *)
Definition find_nearest (p : Q * Q) : result (list site) :=
  match nearest p with
  | None => Err DataExn
  | Some n => Ok (filter (fun s => close p s) (filter (fun s => beq (hash s) (hash n)) sites))
  end.
(** 167-206: the pairs of sites a link of the file joins *)
Definition ends_of (r : raw) : result (list (site * site)) :=
  match rw_tx r, rw_rx r with
  | Some a, Some b =>
    match lookup a, lookup b with
    | Some x, Some y => Ok [(x, y)]
    | _, _ => Err DataExn
    end
  | _, _ =>
    do xs <- find_nearest (rw_tx_pos r) ;
    do ys <- find_nearest (rw_rx_pos r) ;
    Ok (flat_map (fun x => map (pair x) ys) xs)
  end.
Definition map_raw (t : topo) (r : raw) : result topo :=
  if beq (rw_type r) ETHERNET then Ok t
  else
    do ps <- ends_of r ;
    foldM (add_both (Some r)) t ps.
(** 141-206; [none_throws(input_sites.utm_epsg)] is the AssertionError raised for a file without sites *)
Definition map_links (raws : list raw) (t : topo) : result topo :=
  match raws with
  | [] => Ok t
  | _ =>
    do _ <- guard (match sites with [] => false | _ => true end) PyAssertion ;
    foldM map_raw t raws
  end.

(** ** Links in a CSV file *)
(** The columns the file has *)
Inductive csv := SitePairs (l : list string) | TwoSites (l : list (string * string)) | TxRx (l : list (string * string)).
(** [s.split("-->")] *)
Fixpoint split_arrow (cur : string) (s : string) : list string :=
  match s with
  | EmptyString => [cur]
  | String "-" (String "-" (String ">" r)) => cur :: split_arrow "" r
  | String c r => split_arrow (cur ++ String c "") r
  end.
(** csv_library.py 221-233 *)
Definition add_pair (l : list (string * string)) (p : string * string) : result (list (string * string)) :=
  let q := (strip (fst p), strip (snd p)) in
  if mem q l then Err DataExn else Ok (l ++ [q]).
(** 235-262 *)
Definition load_pairs (c : csv) : result (list (string * string)) :=
  match c with
  | SitePairs rows =>
    foldM (fun l s => match split_arrow "" s with [a; b] => add_pair l (a, b) | _ => Err DataExn end) [] rows
  | TwoSites rows =>
    foldM (fun l p => do l <- add_pair l p ; add_pair l (snd p, fst p)) [] rows
  | TxRx rows => foldM add_pair [] rows
  end.
(** utils.py 246-264 *)
Definition map_pair (t : topo) (p : string * string) : result topo :=
  match lookup (fst p), lookup (snd p) with
  | Some x, Some y => add_both None t (x, y)
  | _, _ => Err DataExn
  end.
Definition map_csv (c : csv) (t : topo) : result topo :=
  do ps <- load_pairs c ;
  foldM map_pair t ps.
End Mapping.
