(** Demand generation (terragraph_planner/optimization/topology_demand.py).
    Coordinates are exact numbers, here integers in some unit of [deg] per degree; the position of a
    site is (latitude, longitude, altitude). *)
From Coq Require Import QArith ZArith.
From Verif Require Import Base Dict TopologyModel SetupModel.
Local Open Scope list_scope.

(** common/topology_models/demand_site.py 19-53 *)
Record dsite := mkD { q_lat : Z; q_lon : Z; q_num : nat; q_demand : Q; q_sites : list string }.
Definition with_sites (d : dsite) (l : list string) : dsite := mkD (q_lat d) (q_lon d) (q_num d) (q_demand d) l.
(** the options of OptimizerParams (common/configuration/configs.py 534-761) that are read *)
Record dparams := mkDP { p_manual : bool; p_uniform : bool; p_cn : bool; p_spacing : Q; p_demand : Q; p_radius : Q }.
Definition s_lat (s : site) : Z := fst (fst (s_loc s)).
Definition s_lon (s : site) : Z := snd (fst (s_loc s)).

Section Demand.
(** [deterministic_hash(latitude, longitude, None)], the id of a demand site without altitude *)
Variable did : Z -> Z -> string.
(** [haversine_distance(site longitude, site latitude, demand longitude, demand latitude)] *)
Variable dist : Z -> Z -> Z -> Z -> Q.
(** [grid_deltas(left, bottom, grid_spacing)] (common/geos.py 296-309) *)
Variable deltas : Z -> Z -> Q -> Z * Z.
(** [location_type == ROOFTOP], [building_id] and [number_of_subscribers] of a site, by id *)
Variables (rooftop : string -> bool) (building : string -> option Z) (subscribers : string -> nat).
(** units per degree *)
Variable deg : Z.
Variable sites : dict string site.
Notation demands := (dict string dsite).

(** topology_demand.py 37-42 *)
Definition reset_demands (p : dparams) (D : demands) : demands :=
  if p_manual p then map (fun q => (fst q, mkD (q_lat (snd q)) (q_lon (snd q)) (q_num (snd q)) (p_demand p) [])) D else [].

(** 119-160: the bounding box; [min] of an empty sequence is a ValueError *)
Definition near_east (x : Z) : bool := (180 * deg - 5 * deg <=? x)%Z.
Definition near_west (x : Z) : bool := (x <=? -180 * deg + 5 * deg)%Z.
Definition antimeridian : bool := existsb (fun q => near_east (s_lon (snd q))) sites && existsb (fun q => near_west (s_lon (snd q))) sites.
Definition min_z (l : list Z) : result Z := match l with [] => Err PyValueError | x :: r => Ok (fold_left Z.min r x) end.
Definition max_z (l : list Z) : result Z := match l with [] => Err PyValueError | x :: r => Ok (fold_left Z.max r x) end.
(** GeoLocation.__init__ (common/geos.py 48-60): GeoSystemException, here PlannerExn *)
Definition geo_ok (lat lon : Z) : bool := ((-90 * deg <=? lat) && (lat <=? 90 * deg) && (-180 * deg <=? lon) && (lon <=? 180 * deg))%Z.
(** 148-158: the inner loop.  Python loops have no bound: here [fuel]. *)
Fixpoint lat_loop (fuel : nat) (demand : Q) (lon lat dy top : Z) (D : demands) : result demands :=
  match fuel with
  | O => Err OutOfFuel
  | S fuel =>
    if (lat <=? top)%Z then
      if geo_ok lat lon then lat_loop fuel demand lon (lat + dy)%Z dy top (dset D (did lat lon) (mkD lat lon 1 demand []))
      else Err PlannerExn
    else Ok D
  end.
(** 146-162 *)
Fixpoint lon_loop (fuel : nat) (demand : Q) (am : bool) (lon dx left right bottom dy top : Z) (D : demands) : result demands :=
  match fuel with
  | O => Err OutOfFuel
  | S fuel =>
    if (lon <=? right)%Z || (am && (left <=? lon)%Z) then
      do D <- lat_loop fuel demand lon bottom dy top D ;
      let lon := (lon + dx)%Z in
      lon_loop fuel demand am (if (180 * deg <? lon)%Z then lon - 360 * deg else lon)%Z dx left right bottom dy top D
    else Ok D
  end.
Definition add_uniform (fuel : nat) (spacing demand : Q) (D : demands) : result demands :=
  do left <- min_z (map s_lon (filter (fun s => negb antimeridian || near_east (s_lon s)) (dvals sites))) ;
  do right <- max_z (map s_lon (filter (fun s => negb antimeridian || near_west (s_lon s)) (dvals sites))) ;
  do bottom <- min_z (map s_lat (dvals sites)) ;
  do top <- max_z (map s_lat (dvals sites)) ;
  let dx := fst (deltas left bottom spacing) in let dy := snd (deltas left bottom spacing) in
  lon_loop fuel demand antimeridian (left - dx)%Z dx (left - dx)%Z (right + dx)%Z (bottom - dy)%Z dy (top + dy)%Z D.

(** 51-68 *)
Definition near (radius : Q) (d : dsite) : list string :=
  map fst (filter (fun q => Qle_bool (dist (s_lon (snd q)) (s_lat (snd q)) (q_lon d) (q_lat d)) radius) sites).
Fixpoint connect (radius : Q) (manual : list string) (ids : list string) (D : demands) : result demands :=
  match ids with
  | [] => Ok D
  | k :: r =>
    do d <- get D k ;
    let c := near radius d in
    connect radius manual r (if match c with [] => true | _ => false end && negb (mem k manual) then ddel D k else dset D k (with_sites d c))
  end.

(** 84-111 *)
Fixpoint add_cn (demand : Q) (cns : list (string * site)) (locs : dict (Z * Z) string) (D : demands) : result demands :=
  match cns with
  | [] => Ok D
  | (i, s) :: r =>
    let p := (s_lat s, s_lon s) in
    match dget locs p with
    | None => let k := did (s_lat s) (s_lon s) in
              add_cn demand r (dset locs p k) (dset D k (mkD (s_lat s) (s_lon s) (subscribers i) demand [i]))
    | Some k => do d <- get D k ; add_cn demand r locs (dset D k (with_sites d (q_sites d ++ [i])))
    end
  end.
Definition add_cn_demand (demand : Q) (D : demands) : result demands := add_cn demand (filter (fun q => beq (s_type (snd q)) CN) sites) [] D.

(** 188-221.  Sets are lists without repetition; a Python set has no order, so only membership matters. *)
Definition add_pairs (cns dns : list string) (m : dict string (list string)) : dict string (list string) :=
  fold_left (fun m q => dset m (fst q) (sadd (snd q) (row m (fst q)))) (list_prod cns dns) m.
Definition of_type (f : site_type -> bool) (i : string) : bool := match dget sites i with Some s => f (s_type s) | None => false end.
Definition is_cn (ty : site_type) : bool := beq ty CN.
Definition is_dist (ty : site_type) : bool := beq ty DN || beq ty POP.
Definition colocated : dict (Z * Z * Z) (list string) := fold_left (fun acc q => dappend acc (s_loc (snd q)) (fst q)) sites [].
Definition hybrid (m : dict string (list string)) : dict string (list string) :=
  fold_left (fun m g => if Nat.leb (List.length (snd g)) 1 then m
                        else add_pairs (filter (of_type is_cn) (snd g)) (filter (of_type is_dist) (snd g)) m) colocated m.
(** 224-260; UNKNOWN_BUILDING_ID is -1 (common/configuration/constants.py 31) *)
Fixpoint by_building (l : list (string * site)) (c d : dict Z (list string)) : result (dict Z (list string) * dict Z (list string)) :=
  match l with
  | [] => Ok (c, d)
  | (i, s) :: r =>
    if rooftop i then
      match building i with
      | None => Err PyAssertion
      | Some b =>
        if (-1 <? b)%Z then
          if beq (s_type s) CN then by_building r (dset c b (sadd i (match dget c b with Some v => v | None => [] end))) d
          else by_building r c (dset d b (sadd i (match dget d b with Some v => v | None => [] end)))
        else by_building r c d
      end
    else by_building r c d
  end.
Definition rooftops (m : dict string (list string)) : result (dict string (list string)) :=
  do cd <- by_building sites [] [] ;
  Ok (fold_left (fun m g => match dget (snd cd) (fst g) with Some dns => add_pairs (snd g) dns m | None => m end) (fst cd) m).

(** 263-279.  The loop runs over the list it appends to, so appended sites are visited as well. *)
Fixpoint new_ids (dns : list string) (ids : list string) : list string :=
  match dns with [] => [] | i :: r => if mem i ids then new_ids r ids else i :: new_ids r (sadd i ids) end.
Fixpoint grow (fuel : nat) (m : dict string (list string)) (todo ids all : list string) : result (list string) :=
  match fuel with
  | O => Err OutOfFuel
  | S fuel =>
    match todo with
    | [] => Ok all
    | i :: r =>
      let n := new_ids (row m i) ids in
      do _ <- guard (forallb (fun i => dmem sites i) n) PyKeyError ;
      grow fuel m (r ++ n) (fold_left (fun acc i => sadd i acc) n ids) (all ++ n)
    end
  end.
Definition grow_fuel (m : dict string (list string)) (l : list string) : nat := S (List.length l + List.length (List.concat (dvals m))).
Fixpoint connect_colocated (m : dict string (list string)) (D : demands) : result demands :=
  match D with
  | [] => Ok []
  | (k, d) :: r =>
    do l <- grow (grow_fuel m (q_sites d)) m (q_sites d) (fold_left (fun acc i => sadd i acc) (q_sites d) []) (q_sites d) ;
    do r <- connect_colocated m r ;
    Ok ((k, with_sites d l) :: r)
  end.
Definition connect_demand_to_colocated_sites (m : dict string (list string)) (D : demands) : result demands := connect_colocated m D.

(** 33-81 and 166-187 *)
Definition add_demand_to_topology (fuel : nat) (p : dparams) (D : demands) : result demands :=
  let D := reset_demands p D in
  let manual := dkeys D in
  do D <- (if p_uniform p then add_uniform fuel (p_spacing p) (p_demand p) D else Ok D) ;
  do D <- connect (p_radius p) manual (dkeys D) D ;
  do D <- (if p_cn p then add_cn_demand (p_demand p) D else Ok D) ;
  do m <- rooftops (hybrid []) ;
  do D <- connect_demand_to_colocated_sites m D ;
  do _ <- guard (negb (match D with [] => true | _ => false end)) OptExn ;
  Ok D.
End Demand.
