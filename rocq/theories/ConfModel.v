(** Configuration objects (terragraph_planner/common/configuration/configs.py and utils.py).
    Keys and SKUs are taken to be ASCII; integers and floats are both exact rationals; an AttributeError is
    reported as [PyTypeError]. *)
From Coq Require Import ZArith QArith Ascii.
From Verif Require Import Base Dict TopologyModel SetupModel LosRangeModel.
Local Open Scope string_scope.
Local Open Scope list_scope.

(** Python values: what json and yaml produce, members of enums, configuration objects with their attributes in order
    of assignment, and objects of other classes *)
Inductive val :=
| VNone | VBool (b : bool) | VNum (q : Q) | VStr (s : string) | VList (l : list val) | VDict (d : list (string * val))
| VEnum (cls name : string) | VObj (cls : string) (attrs : list (string * val)) | VOpaque (id : string).
Definition is_none (v : val) : bool := match v with VNone => true | _ => false end.

Definition is_nil {A} (l : list A) : bool := match l with [] => true | _ => false end.

(** [str.casefold], [str.upper] and [str.strip] *)
Definition lower_char (c : ascii) : ascii := let n := nat_of_ascii c in if (65 <=? n)%nat && (n <=? 90)%nat then ascii_of_nat (n + 32) else c.
Definition upper_char (c : ascii) : ascii := let n := nat_of_ascii c in if (97 <=? n)%nat && (n <=? 122)%nat then ascii_of_nat (n - 32) else c.
Fixpoint smap (f : ascii -> ascii) (s : string) : string := match s with EmptyString => EmptyString | String c s => String (f c) (smap f s) end.
Definition casefold := smap lower_char.
Definition upper := smap upper_char.
Definition blank (c : ascii) : bool := let n := nat_of_ascii c in ((n =? 32) || ((9 <=? n) && (n <=? 13)))%nat.
Fixpoint lstrip (s : string) : string := match s with EmptyString => EmptyString | String c r => if blank c then lstrip r else s end.
Fixpoint rstrip (s : string) : string :=
  match s with
  | EmptyString => EmptyString
  | String c r => match rstrip r with EmptyString => if blank c then EmptyString else String c EmptyString | r' => String c r' end
  end.
Definition strip (s : string) : string := rstrip (lstrip s).

(** *** enums.py 11-22: [from_string]; the members of the enums that occur *)
Definition members (cls : string) : list (string * Z) :=
  if beq cls "DeviceType" then [("CN", 1); ("DN", 2)]%Z
  else if beq cls "RedundancyLevel" then [("NONE", 1); ("LOW", 2); ("MEDIUM", 3); ("HIGH", 4)]%Z
  else if beq cls "TopologyRouting" then [("SHORTEST_PATH", 1); ("MCS_COST_PATH", 2); ("DPA_PATH", 3)]%Z
  else if beq cls "LoggerLevel" then [("NOTSET", 0); ("DEBUG", 10); ("INFO", 20); ("WARNING", 30); ("ERROR", 40); ("CRITICAL", 50)]%Z
  else [].
Definition by_value (cls : string) (q : Q) : result val :=
  match find (fun m => Qeq_bool (inject_Z (snd m)) q) (members cls) with Some m => Ok (VEnum cls (fst m)) | None => Err PyValueError end.
Definition from_string (cls : string) (v : val) : result val :=
  match v with
  | VStr s => if mem (upper s) (map fst (members cls)) then Ok (VEnum cls (upper s)) else Err PyKeyError
  | VNum q => by_value cls q
  | VBool b => by_value cls (if b then 1 else 0)%Q
  | _ => Err PlannerExn
  end.

(** *** keyword arguments: [None] is an argument without default *)
Definition params := list (string * option val).
Definition fill (args : params) (kw : dict string val) : result (dict string val) :=
  mapM (fun a => match dget kw (fst a) with
                 | Some v => Ok (fst a, v)
                 | None => match snd a with Some d => Ok (fst a, d) | None => Err PyTypeError end
                 end) args.
Definition at_ (e : dict string val) (k : string) : val := match dget e k with Some v => v | None => VNone end.
Definition pick (names : list string) (e : dict string val) : list (string * val) := map (fun n => (n, at_ e n)) names.
(** comparisons with numbers; anything that is not a number raises TypeError *)
Definition num (v : val) : result Q := match v with VNum q => Ok q | VBool b => Ok (if b then 1 else 0)%Q | _ => Err PyTypeError end.
Definition cmp (p : Q -> bool) (v : val) : result bool := do x <- num v ; Ok (p x).
Definition opt (p : Q -> bool) (v : val) : result bool := if is_none v then Ok true else cmp p v.
Definition andr (a b : result bool) : result bool := do x <- a ; if x then b else Ok false.
Definition ge (c : Q) (x : Q) : bool := Qle_bool c x.
Definition gt (c : Q) (x : Q) : bool := negb (Qle_bool x c).
Definition within (a b : Q) (x : Q) : bool := Qle_bool a x && Qle_bool x b.
Definition truthy (v : val) : bool :=
  match v with VNone => false | VBool b => b | VNum q => negb (Qeq_bool q 0) | VStr s => negb (beq s "") | VList [] => false | VDict [] => false | _ => true end.
(** [planner_assert], one after the other *)
Fixpoint asserts (l : list (result bool * exn)) : result unit :=
  match l with [] => Ok tt | (c, e) :: l => do b <- c ; if b then asserts l else Err e end.
Definition config (l : list (result bool)) : list (result bool * exn) := map (fun c => (c, ConfigExn)) l.

Section Files.
(** reading the pattern and MCS files (csv_library.py 270-496) as a function of the kind, the path and the sector parameters that the
    reader consults; the data is opaque *)
Variable read_file : string -> val -> list val -> result val.

(** 168-283 *)
Definition n := VNum.
Definition sector_args : params :=
  [("antenna_boresight_gain", Some (n 30)); ("maximum_tx_power", Some (n 16)); ("number_sectors_per_node", Some (n 1)); ("horizontal_scan_range", Some (n 70));
   ("carrier_frequency", Some (n 60000)); ("thermal_noise_power", Some (n (-81))); ("noise_figure", Some (n 7)); ("rain_rate", Some (n 30)); ("link_availability_percentage", Some (n (999#10)));
   ("tx_diversity_gain", Some (n 0)); ("rx_diversity_gain", Some (n 0)); ("tx_miscellaneous_loss", Some (n 0)); ("rx_miscellaneous_loss", Some (n 0));
   ("minimum_mcs_level", Some VNone); ("minimum_tx_power", Some VNone); ("antenna_pattern_file_path", Some VNone); ("scan_pattern_file_path", Some VNone); ("mcs_map_file_path", Some VNone)].
Definition sector_checks (e : dict string val) : list (result bool * exn) :=
  let v := at_ e in config
  [cmp (ge 0) (v "antenna_boresight_gain"); cmp (ge 0) (v "maximum_tx_power"); cmp (ge 1) (v "number_sectors_per_node"); cmp (within 0 360) (v "horizontal_scan_range");
   cmp (gt 0) (v "carrier_frequency"); cmp (ge 0) (v "noise_figure"); cmp (ge 0) (v "rain_rate"); cmp (within 0 100) (v "link_availability_percentage");
   andr (cmp (ge 0) (v "tx_diversity_gain")) (cmp (ge 0) (v "rx_diversity_gain")); andr (cmp (ge 0) (v "tx_miscellaneous_loss")) (cmp (ge 0) (v "rx_miscellaneous_loss"));
   opt (ge 0) (v "minimum_mcs_level"); if is_none (v "minimum_tx_power") then Ok true else do a <- num (v "minimum_tx_power") ; do b <- num (v "maximum_tx_power") ; Ok (Qle_bool a b)].
Definition load (kind : string) (path default : val) (more : list val) : result val := if is_none path then Ok default else read_file kind path more.
(** the table DEFAULT_MCS_SNR_MBPS_MAP, a list of tuples *)
Definition default_mcs : val := VList [VOpaque "MCSMap"].
Definition sector_params (kw : dict string val) : result val :=
  do e <- fill sector_args kw ;
  do _ <- asserts (sector_checks e) ;
  do a <- load "antenna_pattern" (at_ e "antenna_pattern_file_path") VNone [] ;
  do s <- load "scan_pattern" (at_ e "scan_pattern_file_path") VNone [] ;
  do m <- load "mcs_map" (at_ e "mcs_map_file_path") default_mcs [at_ e "minimum_mcs_level"; at_ e "maximum_tx_power"; at_ e "minimum_tx_power"] ;
  Ok (VObj "SectorParams"
    (pick (map fst (firstn 16 sector_args)) e ++ [("antenna_pattern_data", a); ("scan_pattern_file_path", at_ e "scan_pattern_file_path"); ("scan_pattern_data", s); ("mcs_map_file_path", at_ e "mcs_map_file_path"); ("mcs_map", m)])).

(** 286-334 *)
Definition attr (v : val) (k : string) : result val :=
  match v with VObj _ a => match dget a k with Some x => Ok x | None => Err PyTypeError end | _ => Err PyTypeError end.
Definition device_args : params :=
  [("device_sku", None); ("sector_params", None); ("node_capex", Some (n 250)); ("number_of_nodes_per_site", Some VNone); ("device_type", Some (VEnum "DeviceType" "DN"))].
Definition is_cn (v : val) : bool := match v with VEnum c m => beq c "DeviceType" && beq m "CN" | _ => false end.
Definition device_data (kw : dict string val) : result val :=
  do e <- fill device_args kw ;
  let v := at_ e in
  do _ <- asserts (config [match v "device_sku" with VStr s => Ok (negb (beq s "")) | _ => Err PyTypeError end; cmp (ge 0) (v "node_capex"); opt (ge 1) (v "number_of_nodes_per_site")]) ;
  do nodes <- (if is_none (v "number_of_nodes_per_site") then Ok (VNum (if is_cn (v "device_type") then 1 else 4))
               else do k <- num (v "number_of_nodes_per_site") ; if negb (Qeq_bool k 1) && is_cn (v "device_type") then Err ConfigExn else Ok (v "number_of_nodes_per_site")) ;
  do h <- attr (v "sector_params") "horizontal_scan_range" ; do h <- num h ;
  do s <- attr (v "sector_params") "number_sectors_per_node" ; do s <- num s ;
  do k <- num nodes ;
  do _ <- asserts (config [Ok (Qle_bool (h * s * k) 360)]) ;
  Ok (VObj "DeviceData" [("device_sku", v "device_sku"); ("sector_params", v "sector_params"); ("node_capex", v "node_capex"); ("number_of_nodes_per_site", nodes); ("device_type", v "device_type")]).

(** 337-355 *)
Definition detection_args : params :=
  [("dn_deployment", Some (VBool true)); ("detect_highest", Some (VBool true)); ("detect_centers", Some (VBool false)); ("detect_corners", Some (VBool true)); ("max_corner_angle", Some VNone)].
Definition site_detection (kw : dict string val) : result val :=
  do e <- fill detection_args kw ;
  do _ <- asserts (config [opt (fun x => gt 0 x && negb (Qle_bool 180 x)) (at_ e "max_corner_angle")]) ;
  Ok (VObj "SiteDetectionParams" e).

(** 801-809 *)
Fixpoint check_duplicated (seen : list string) (l : list val) : result unit :=
  match l with
  | [] => Ok tt
  | d :: l =>
    do s <- attr d "device_sku" ;
    match s with
    | VStr s => if mem (casefold s) seen then Err ConfigExn else check_duplicated (casefold s :: seen) l
    | _ => Err PyTypeError
    end
  end.
(** 780-798 *)
Definition project_keys : list string := ["carrier_frequency"; "thermal_noise_power"; "noise_figure"; "rain_rate"; "link_availability_percentage"].
Definition populate (e : dict string val) (d : val) : val :=
  match d with
  | VObj c a =>
    match dget a "sector_params" with
    | Some (VObj c' s) => VObj c (dset a "sector_params" (VObj c' (fold_left (fun s k => dset s k (at_ e k)) project_keys s)))
    | _ => d
    end
  | _ => d
  end.
Definition devices (v : val) : result (list val) := match v with VList l => Ok l | _ => Err PyTypeError end.
(** 422-531 *)
Definition los_args : params :=
  [("device_list", None); ("minimum_mcs_of_backhaul_links", Some VNone); ("minimum_mcs_of_access_links", Some VNone); ("maximum_eirp", Some VNone); ("rain_rate", Some (n 30)); ("link_availability_percentage", Some (n (999#10)));
   ("maximum_los_distance", Some (n 200)); ("minimum_los_distance", Some (n 50)); ("maximum_elevation_scan_angle", Some (n 25)); ("carrier_frequency", Some (n 60000)); ("thermal_noise_power", Some (n (-81))); ("noise_figure", Some (n 7));
   ("mounting_height_above_rooftop", Some (n (3#2))); ("default_dn_height_on_pole", Some (n 5)); ("default_cn_height_on_pole", Some (n 5)); ("default_pop_height_on_pole", Some (n 5)); ("use_ellipsoidal_los_model", Some (VBool false));
   ("fresnel_radius", Some (n 1)); ("los_confidence_threshold", Some (n (4#5)));
   ("site_detection", Some (VObj "SiteDetectionParams" [("dn_deployment", VBool true); ("detect_highest", VBool true); ("detect_centers", VBool false); ("detect_corners", VBool true); ("max_corner_angle", VNone)])); ("num_processors", Some VNone)].
Definition los_attrs : list string :=
  ["minimum_mcs_of_backhaul_links"; "minimum_mcs_of_access_links"; "maximum_eirp"; "rain_rate"; "maximum_los_distance"; "minimum_los_distance"; "maximum_elevation_scan_angle"; "carrier_frequency"; "thermal_noise_power"; "noise_figure";
   "mounting_height_above_rooftop"; "default_dn_height_on_pole"; "default_cn_height_on_pole"; "default_pop_height_on_pole"; "use_ellipsoidal_los_model"; "fresnel_radius"; "los_confidence_threshold"; "site_detection"; "num_processors"; "link_availability_percentage"].
Definition los_checks (e : dict string val) (l : list val) : list (result bool * exn) :=
  let v := at_ e in config
  [Ok (negb (is_nil l)); andr (opt (ge 0) (v "minimum_mcs_of_backhaul_links")) (opt (ge 0) (v "minimum_mcs_of_access_links"));
   andr (cmp (ge 5) (v "minimum_los_distance")) (if is_none (v "maximum_los_distance") then Ok true else do a <- num (v "minimum_los_distance") ; do b <- num (v "maximum_los_distance") ; Ok (negb (Qle_bool b a)));
   cmp (within 0 90) (v "maximum_elevation_scan_angle"); cmp (ge 0) (v "mounting_height_above_rooftop");
   andr (cmp (ge 0) (v "default_dn_height_on_pole")) (andr (cmp (ge 0) (v "default_cn_height_on_pole")) (cmp (ge 0) (v "default_pop_height_on_pole")));
   cmp (gt 0) (v "fresnel_radius"); cmp (within 0 1) (v "los_confidence_threshold")].
Definition los_params (kw : dict string val) : result val :=
  do e <- fill los_args kw ;
  do l <- devices (at_ e "device_list") ;
  do _ <- asserts (los_checks e l) ;
  do _ <- check_duplicated [] l ;
  Ok (VObj "LOSParams" (("device_list", VList (map (populate e) l)) :: pick los_attrs e)).

(** 534-761 *)
Definition opt_args : params :=
  [("device_list", None); ("pop_site_capex", Some (n 1500)); ("cn_site_capex", Some (n 1500)); ("dn_site_capex", Some (n 1500)); ("rain_rate", Some (n 30)); ("budget", Some (n 300000)); ("pop_capacity", Some (n 10)); ("oversubscription", Some (n 1));
   ("carrier_frequency", Some (n 60000)); ("thermal_noise_power", Some (n (-81))); ("noise_figure", Some (n 7)); ("link_availability_percentage", Some (n (999#10))); ("maximum_eirp", Some VNone); ("number_of_extra_pops", Some (n 0));
   ("enable_cn_demand", Some (VBool true)); ("enable_uniform_demand", Some (VBool false)); ("enable_manual_demand", Some (VBool false)); ("demand_spacing", Some (n 0)); ("demand_connection_radius", Some (n 0)); ("demand", Some (n (1#40)));
   ("dn_dn_sector_limit", Some (n 2)); ("dn_total_sector_limit", Some (n 15)); ("maximum_number_hops", Some (n 15)); ("diff_sector_angle_limit", Some (n 25)); ("near_far_length_ratio", Some (n 3)); ("near_far_angle_limit", Some (n 45));
   ("number_of_channels", Some (n 1)); ("maximize_common_bandwidth", Some (VBool false)); ("always_active_pops", Some (VBool true)); ("enable_legacy_redundancy_method", Some (VBool true)); ("redundancy_level", Some (VEnum "RedundancyLevel" "MEDIUM"));
   ("backhaul_link_redundancy_ratio", Some (n (1#5))); ("num_threads", Some VNone); ("min_cost_rel_stop", Some (n (1#20))); ("min_cost_max_time", Some (n 60)); ("redundancy_rel_stop", Some (n (1#20))); ("redundancy_max_time", Some (n 60));
   ("max_coverage_rel_stop", Some (n (-1))); ("max_coverage_max_time", Some (n 60)); ("interference_rel_stop", Some (n (-1))); ("interference_max_time", Some (n 60)); ("pop_proposal_rel_stop", Some (n (-1))); ("pop_proposal_max_time", Some (n 60));
   ("demand_site_max_time", Some (n 15)); ("topology_routing", Some VNone); ("availability_sim_time", Some (n 100)); ("availability_seed", Some (n 0)); ("availability_max_time", Some (n 60)); ("candidate_topology_file_path", Some VNone)].
Definition opt_attrs1 : list string := ["pop_site_capex"; "cn_site_capex"; "dn_site_capex"].
Definition opt_attrs2 : list string :=
  ["rain_rate"; "budget"; "pop_capacity"; "oversubscription"; "carrier_frequency"; "thermal_noise_power"; "noise_figure"; "maximum_eirp"; "enable_cn_demand"; "enable_uniform_demand"; "enable_manual_demand"; "demand_spacing"; "demand_connection_radius";
   "demand"; "number_of_extra_pops"; "dn_dn_sector_limit"; "dn_total_sector_limit"; "maximum_number_hops"; "diff_sector_angle_limit"; "near_far_length_ratio"; "near_far_angle_limit"; "number_of_channels"; "maximize_common_bandwidth"; "always_active_pops";
   "enable_legacy_redundancy_method"; "redundancy_level"; "backhaul_link_redundancy_ratio"; "num_threads"; "min_cost_rel_stop"; "min_cost_max_time"; "redundancy_rel_stop"; "redundancy_max_time"; "max_coverage_rel_stop"; "max_coverage_max_time";
   "interference_rel_stop"; "interference_max_time"; "pop_proposal_rel_stop"; "pop_proposal_max_time"; "demand_site_max_time"; "topology_routing"; "availability_sim_time"; "availability_seed"; "availability_max_time"; "candidate_topology_file_path"; "link_availability_percentage"].
(** exceptions.py 59-68; [file_name.split(".")[-1]] *)
Fixpoint last_part (acc s : string) : string :=
  match s with EmptyString => acc | String c r => if Ascii.eqb c "." then last_part "" r else last_part (acc ++ String c "") r end.
Definition extension_in (exts : list string) (v : val) : result bool := match v with VStr s => Ok (mem (casefold (last_part "" s)) exts) | _ => Err PyTypeError end.
Definition extension_ok (exts : list string) (v : val) : result bool := if is_none v then Ok true else extension_in exts v.
Definition opt_checks1 (l : list val) : list (result bool * exn) := config [Ok (negb (is_nil l))].
Definition opt_checks2 (e : dict string val) : list (result bool * exn) :=
  let v := at_ e in config
  [andr (cmp (ge 0) (v "pop_site_capex")) (andr (cmp (ge 0) (v "cn_site_capex")) (cmp (ge 0) (v "dn_site_capex"))); cmp (ge 0) (v "budget"); cmp (gt 0) (v "pop_capacity"); cmp (ge 1) (v "oversubscription"); cmp (ge 0) (v "number_of_extra_pops");
   Ok (truthy (v "enable_cn_demand") || truthy (v "enable_uniform_demand") || truthy (v "enable_manual_demand"));
   if truthy (v "enable_uniform_demand") then cmp (gt 0) (v "demand_spacing") else Ok true;
   if truthy (v "enable_uniform_demand") || truthy (v "enable_manual_demand") then cmp (gt 0) (v "demand_connection_radius") else Ok true;
   cmp (gt 0) (v "demand");
   andr (do a <- num (v "dn_total_sector_limit") ; do b <- num (v "dn_dn_sector_limit") ; Ok (Qle_bool b a)) (cmp (gt 0) (v "dn_dn_sector_limit"));
   cmp (gt 0) (v "maximum_number_hops"); cmp (within 0 180) (v "diff_sector_angle_limit"); cmp (gt 0) (v "near_far_length_ratio"); cmp (within 0 180) (v "near_far_angle_limit"); cmp (ge 1) (v "number_of_channels");
   cmp (within 0 1) (v "backhaul_link_redundancy_ratio"); opt (gt 0) (v "num_threads");
   andr (cmp (gt 0) (v "min_cost_max_time")) (andr (cmp (gt 0) (v "redundancy_max_time")) (andr (cmp (gt 0) (v "interference_max_time")) (andr (cmp (gt 0) (v "pop_proposal_max_time")) (cmp (gt 0) (v "demand_site_max_time")))))]
  ++ [(cmp (gt 0) (v "availability_max_time"), PlannerExn); (extension_ok ["kml"; "kmz"; "zip"] (v "candidate_topology_file_path"), DataExn)].
Definition optimizer_params (kw : dict string val) : result val :=
  do e <- fill opt_args kw ;
  do l <- devices (at_ e "device_list") ;
  do _ <- asserts (opt_checks1 l) ;
  do _ <- check_duplicated [] l ;
  do _ <- asserts (opt_checks2 e) ;
  Ok (VObj "OptimizerParams" (pick opt_attrs1 e ++ ("device_list", VList (map (populate e) l)) :: pick opt_attrs2 e ++ [("coverage_percentage", n 1); ("ignore_polarities", VBool false)])).

(** 358-419 *)
Definition gis_args : params :=
  [("boundary_polygon_file_path", None); ("building_outline_file_path", Some VNone); ("dsm_file_paths", Some VNone); ("dtm_file_path", Some VNone); ("dhm_file_path", Some VNone); ("site_file_path", Some VNone); ("base_topology_file_path", Some VNone)].
Definition dsm_list (v : val) : result (list val) := match v with VNone => Ok [] | VList l => Ok l | _ => Err PyTypeError end.
Definition gis_params (kw : dict string val) : result val :=
  do e <- fill gis_args kw ;
  let v := at_ e in
  let data := map (fun c : result bool => (c, DataExn)) in
  do _ <- asserts (data [extension_in ["kml"; "kmz"] (v "boundary_polygon_file_path"); extension_ok ["kml"; "kmz"; "zip"] (v "building_outline_file_path")]) ;
  do dsm <- dsm_list (v "dsm_file_paths") ;
  do _ <- asserts (data (map (extension_ok ["tif"; "tiff"]) dsm)) ;
  do _ <- asserts (data [extension_ok ["tif"] (v "dtm_file_path"); extension_ok ["tif"] (v "dhm_file_path"); extension_ok ["kml"; "kmz"; "csv"] (v "site_file_path"); extension_ok ["kml"; "kmz"] (v "base_topology_file_path")]) ;
  do _ <- asserts (config [Ok (is_none (v "building_outline_file_path") || is_none (v "base_topology_file_path"))]) ;
  Ok (VObj "GISDataParams" [("boundary_polygon_file_path", v "boundary_polygon_file_path"); ("building_outline_file_path", v "building_outline_file_path"); ("dsm_file_paths", VList (filter (fun x => negb (is_none x)) dsm));
                            ("dtm_file_path", v "dtm_file_path"); ("dhm_file_path", v "dhm_file_path"); ("site_file_path", v "site_file_path"); ("base_topology_file_path", v "base_topology_file_path")]).
(** 764-777 *)
Definition system_args : params := [("output_dir", Some (VStr "./")); ("debug_mode", Some (VBool false)); ("logger_level", Some (VEnum "LoggerLevel" "INFO")); ("log_file", Some VNone); ("log_to_stderr", Some (VBool true))].
Definition system_params (kw : dict string val) : result val := do e <- fill system_args kw ; Ok (VObj "SystemParams" e).

(** *** 84-143: [from_dict].  [sub] is [from_dict] of the class that a key stands for. *)
Definition enum_of (k : string) : option string :=
  dget [("device_type", "DeviceType"); ("redundancy_level", "RedundancyLevel"); ("topology_routing", "TopologyRouting"); ("logger_level", "LoggerLevel")] k.
(** [{k.casefold(): v for k, v in propdict.items()}] and [{**a, **b}] *)
Definition merge (a b : dict string val) : dict string val := fold_left (fun d q => dset d (fst q) (snd q)) b a.
Definition lower_keys (d : dict string val) : dict string val := fold_left (fun r q => dset r (casefold (fst q)) (snd q)) d [].
Definition class_key (k : string) : bool := mem k ["sector_params"; "device_list"; "site_detection"].
Section Engine.
Variable sub : string -> dict string val -> result val.
Definition element (key : string) (prop : dict string val) (o : val) : result val :=
  match o with VDict d => if class_key key then sub key (merge d prop) else Err PyKeyError | _ => Ok o end.
Definition take (args : list string) (prop : dict string val) (kw : dict string val) (q : string * val) : result (dict string val) :=
  let (key, v) := q in
  if mem key args then
    match enum_of key with
    | Some c => if is_none v then Ok kw else do x <- from_string c v ; Ok (dset kw key x)
    | None =>
      match v with
      | VDict d => if class_key key then do x <- sub key (merge d prop) ; Ok (dset kw key x) else Ok kw
      | VList l => do l <- mapM (element key prop) l ; Ok (dset kw key (VList l))
      | VNone => Ok kw
      | _ => Ok (dset kw key v)
      end
    end
  else
    match v with
    | VDict d => Ok (fold_left (fun kw q => if mem (casefold (fst q)) args then dset kw (casefold (fst q)) (snd q) else kw) d kw)
    | _ => Ok kw
    end.
Definition from_dict (args : params) (build : dict string val -> result val) (prop : dict string val) : result val :=
  do kw <- foldM (take (map fst args) prop) [] (lower_keys prop) ;
  build (filter (fun q => negb (is_none (snd q))) kw).
End Engine.
(** the classes of 38-42; [from_dict] of SectorParams and SiteDetectionParams meets no such key *)
Definition no_class (k : string) (d : dict string val) : result val := Err PyNameError.
Definition sector_from := from_dict no_class sector_args sector_params.
Definition detection_from := from_dict no_class detection_args site_detection.
Definition device_sub (k : string) (d : dict string val) : result val := if beq k "sector_params" then sector_from d else no_class k d.
Definition device_from := from_dict device_sub device_args device_data.
Definition top_sub (k : string) (d : dict string val) : result val :=
  if beq k "device_list" then device_from d else if beq k "site_detection" then detection_from d else sector_from d.
Definition los_from := from_dict top_sub los_args los_params.
Definition optimizer_from := from_dict top_sub opt_args optimizer_params.
Definition gis_from := from_dict top_sub gis_args gis_params.
Definition system_from := from_dict top_sub system_args system_params.
End Files.

(** *** 52-81: [to_dict] *)
Definition config_class (c : string) : bool := mem c ["SectorParams"; "DeviceData"; "SiteDetectionParams"; "GISDataParams"; "LOSParams"; "OptimizerParams"; "SystemParams"].
Fixpoint to_dict (v : val) : result val :=
  match v with
  | VObj c a =>
    if config_class c then
      do d <- (fix go (a : list (string * val)) : result (list (string * val)) :=
        match a with
        | [] => Ok []
        | (k, x) :: a =>
          do y <- match x with
                  | VNone | VBool _ | VNum _ | VStr _ => Ok x
                  | VList l => do l <- (fix items (l : list val) : result (list val) :=
                      match l with
                      | [] => Ok []
                      | o :: l =>
                        do h <- match o with
                                | VObj c' _ => if config_class c' then do d <- to_dict o ; Ok [d] else Ok []
                                | VBool _ | VNum _ | VStr _ => Ok [o]
                                | _ => Ok []
                                end ;
                        do t <- items l ; Ok (h ++ t)
                      end) l ; Ok (VList l)
                  | VObj c' _ => if config_class c' then to_dict x else Err PlannerExn
                  | VEnum _ m => Ok (VStr m)
                  | _ => Err PlannerExn
                  end ;
          do r <- go a ; Ok ((k, y) :: r)
        end) a ; Ok (VDict d)
    else Err PlannerExn
  | _ => Err PlannerExn
  end.

(** *** 145-165: [__eq__]; [None] is NotImplemented.  The in-place sorting is by SKU for devices (333-334), and of no consequence outside.
    Opaque values are dictionaries and tuples, whose [__eq__] answers; their order is that of their names. *)
Definition scalar (v : val) : bool := match v with VBool _ | VNum _ | VStr _ => true | _ => false end.
Definition scalar_eq (a b : val) : bool :=
  match a, b with
  | VStr x, VStr y => beq x y
  | VStr _, _ | _, VStr _ => false
  | _, _ => match num a, num b with Ok x, Ok y => Qeq_bool x y | _, _ => false end
  end.
Definition sku_of (v : val) : string := match v with VStr s | VOpaque s => s | _ => match attr v "device_sku" with Ok (VStr s) => s | _ => "" end end.
Definition sorted_list (l : list val) : list val := sort_by (fun a b => str_ltb (sku_of a) (sku_of b)) l.
Fixpoint eq_ (fuel : nat) (a b : val) : result (option bool) :=
  match fuel with
  | O => Err OutOfFuel
  | S fuel =>
    match a, b with
    | VObj c x, VObj c' y =>
      if beq c c' then
        if config_class c then
          (fix go (x : list (string * val)) : result (option bool) :=
            match x with
            | [] => Ok (Some true)
            | (k, v) :: x =>
              match dget y k with
              | None => Err PyKeyError
              | Some w =>
                if scalar v then if scalar_eq v w then go x else Ok (Some false)
                else
                  match v with
                  | VList l =>
                    match w with
                    | VList r =>
                      let r := sorted_list r in
                      do same <- (fix items (l r : list val) : result bool :=
                        match l, r with
                        | [], _ => Ok true
                        | _ :: _, [] => Err PyIndexError
                        | p :: l, q :: r => do e <- eq_ fuel p q ; match e with Some false => Ok false | _ => items l r end
                        end) (sorted_list l) r ;
                      if same then go x else Ok (Some false)
                    | _ => Err PyTypeError
                    end
                  | _ => eq_ fuel v w
                  end
              end
            end) x
        else Ok None
      else Ok None
    | VNone, VNone => Ok (Some true)
    | VEnum c m, VEnum c' m' => Ok (if beq c c' && beq m m' then Some true else None)
    | VOpaque i, VOpaque j => Ok (Some (beq i j))
    | VStr s, VStr s' => Ok (Some (beq s s'))
    | _, _ => if scalar a && scalar b then match a, b with VStr _, _ | _, VStr _ => Ok None | _, _ => Ok (Some (scalar_eq a b)) end else Ok None
    end
  end.
(** [a == b]: NotImplemented on both sides means identity, and two objects are not identical *)
Definition equals (fuel : nat) (a b : val) : result bool :=
  do r <- eq_ fuel a b ;
  match r with
  | Some x => Ok x
  | None => do r <- eq_ fuel b a ; Ok (match r with Some x => x | None => false end)
  end.

(** *** utils.py 34-57: [_detect_typo].  A value without [keys] or [items] raises AttributeError. *)
Fixpoint detect_typo (data origin : val) : result unit :=
  match data, origin with
  | VDict d, VDict o =>
    let low := fold_left (fun r q => dset r (casefold (fst q)) (fst q)) o [] in
    (fix go (d : list (string * val)) : result unit :=
      match d with
      | [] => Ok tt
      | (k, v) :: d =>
        match dget low (casefold (strip k)) with
        | None => Err ConfigExn
        | Some key =>
          match dget o key with
          | None => Err PyKeyError
          | Some ov =>
            do _ <- match v with
                    | VDict _ => detect_typo v ov
                    | VList l =>
                      match ov with
                      | VList (VDict o0 :: _) => (fix each (l : list val) : result unit := match l with [] => Ok tt | x :: l => do _ <- detect_typo x (VDict o0) ; each l end) l
                      | VList (_ :: _) | VStr (String _ _) => Ok tt
                      | VList [] => Err PyIndexError
                      | VStr "" => Err PyIndexError
                      | VDict _ => Err PyKeyError
                      | _ => Err PyTypeError
                      end
                    | _ => Ok tt
                    end ;
            go d
          end
        end
      end) d
  | _, _ => Err PyTypeError
  end.

(** *** data/template.yaml: only its keys matter *)
Definition t0 (l : list string) : val := VDict (map (fun k => (k, VNum 0)) l).
Definition template : val := VDict
  [("SYSTEM", t0 ["OUTPUT_DIR"; "DEBUG_MODE"; "LOGGER_LEVEL"; "LOG_FILE"; "LOG_TO_STDERR"]);
   ("DATA", VDict [("BOUNDARY_POLYGON_FILE_PATH", VStr "boundary.kml"); ("DSM_FILE_PATHS", VList [VStr "dsm.tif"]); ("DTM_FILE_PATH", VStr "dtm.tif"); ("DHM_FILE_PATH", VStr "dhm.tif");
                   ("BUILDING_OUTLINE_FILE_PATH", VStr "buildings.zip"); ("SITE_FILE_PATH", VStr "sites.kml"); ("BASE_TOPOLOGY_FILE_PATH", VNone)]);
   ("LINE_OF_SIGHT", VDict (map (fun k => (k, VNum 0)) ["MOUNTING_HEIGHT_ABOVE_ROOFTOP"; "DEFAULT_POP_HEIGHT_ON_POLE"; "DEFAULT_DN_HEIGHT_ON_POLE"; "DEFAULT_CN_HEIGHT_ON_POLE"; "MAXIMUM_LOS_DISTANCE"; "MINIMUM_LOS_DISTANCE";
                      "MAXIMUM_ELEVATION_SCAN_ANGLE"; "MINIMUM_MCS_OF_BACKHAUL_LINKS"; "MINIMUM_MCS_OF_ACCESS_LINKS"; "USE_ELLIPSOIDAL_LOS_MODEL"; "FRESNEL_RADIUS"; "LOS_CONFIDENCE_THRESHOLD"]
                      ++ [("SITE_DETECTION", t0 ["DN_DEPLOYMENT"; "DETECT_HIGHEST"; "DETECT_CENTERS"; "DETECT_CORNERS"; "MAX_CORNER_ANGLE"]); ("NUM_PROCESSORS", VNone)]));
   ("RADIO", VDict (map (fun k => (k, VNum 0)) ["CARRIER_FREQUENCY"; "NOISE_FIGURE"; "THERMAL_NOISE_POWER"; "MAXIMUM_EIRP"; "RAIN_RATE"; "LINK_AVAILABILITY_PERCENTAGE"]
                      ++ [("DEVICE_LIST", VList [VDict [("DEVICE_SKU", VStr "Sample DN"); ("DEVICE_TYPE", VStr "DN"); ("NODE_CAPEX", VNum 250); ("NUMBER_OF_NODES_PER_SITE", VNum 4);
                           ("SECTOR_PARAMS", t0 ["HORIZONTAL_SCAN_RANGE"; "NUMBER_SECTORS_PER_NODE"; "ANTENNA_BORESIGHT_GAIN"; "MAXIMUM_TX_POWER"; "MINIMUM_TX_POWER"; "TX_DIVERSITY_GAIN"; "RX_DIVERSITY_GAIN"; "TX_MISCELLANEOUS_LOSS"; "RX_MISCELLANEOUS_LOSS";
                                                 "MINIMUM_MCS_LEVEL"; "ANTENNA_PATTERN_FILE_PATH"; "SCAN_PATTERN_FILE_PATH"; "MCS_MAP_FILE_PATH"])]])]));
   ("NETWORK_DESIGN", VDict ([("CANDIDATE_TOPOLOGY_FILE_PATH", VStr "topology.kml"); ("FINANCIAL", t0 ["CN_SITE_CAPEX"; "DN_SITE_CAPEX"; "POP_SITE_CAPEX"; "BUDGET"]);
                              ("DIMENSIONING", t0 ["ENABLE_CN_DEMAND"; "ENABLE_UNIFORM_DEMAND"; "ENABLE_MANUAL_DEMAND"; "DEMAND_SPACING"; "DEMAND_CONNECTION_RADIUS"; "DEMAND"])]
                      ++ map (fun k => (k, VNum 0)) ["POP_CAPACITY"; "NUMBER_OF_EXTRA_POPS"; "DN_DN_SECTOR_LIMIT"; "DN_TOTAL_SECTOR_LIMIT"; "MAXIMUM_NUMBER_HOPS"; "DIFF_SECTOR_ANGLE_LIMIT"; "NEAR_FAR_LENGTH_RATIO"; "NEAR_FAR_ANGLE_LIMIT"; "OVERSUBSCRIPTION";
                           "NUMBER_OF_CHANNELS"; "MAXIMIZE_COMMON_BANDWIDTH"; "ALWAYS_ACTIVE_POPS"; "ENABLE_LEGACY_REDUNDANCY_METHOD"; "REDUNDANCY_LEVEL"; "BACKHAUL_LINK_REDUNDANCY_RATIO"; "NUM_THREADS"; "POP_PROPOSAL_REL_STOP"; "MIN_COST_REL_STOP";
                           "REDUNDANCY_REL_STOP"; "MAX_COVERAGE_REL_STOP"; "INTERFERENCE_REL_STOP"; "POP_PROPOSAL_MAX_TIME"; "MIN_COST_MAX_TIME"; "REDUNDANCY_MAX_TIME"; "MAX_COVERAGE_MAX_TIME"; "INTERFERENCE_MAX_TIME"; "DEMAND_SITE_MAX_TIME"; "TOPOLOGY_ROUTING";
                           "AVAILABILITY_SIM_TIME"; "AVAILABILITY_SEED"; "AVAILABILITY_MAX_TIME"]))].
(** utils.py 97-137: [struct_objects_from_file], given the content of the file.  A section that is not a dictionary raises TypeError. *)
Definition section (d : dict string val) (k : string) : result (dict string val) :=
  match dget d k with Some (VDict s) => Ok s | Some _ => Err PyTypeError | None => Err PyKeyError end.
Definition key_error {A} (r : result A) : result A := match r with Err PyKeyError => Err ConfigExn | _ => r end.
Definition struct_objects (read_file : string -> val -> list val -> result val) (name : string) (data : val) : result val :=
  do _ <- detect_typo data template ;
  match data with
  | VDict d => key_error
    (if beq name "SYSTEM" then do s <- (if dmem d "SYSTEM" then section d "SYSTEM" else Ok []) ; system_from read_file s
     else if beq name "LINE_OF_SIGHT" then
       if negb (dmem d "RADIO") && negb (dmem d "NETWORK_DESIGN") then do s <- section d "LINE_OF_SIGHT" ; los_from read_file s
       else do s <- section d "LINE_OF_SIGHT" ; do r <- section d "RADIO" ; los_from read_file (merge s r)
     else if beq name "OPTIMIZATION" then do r <- section d "RADIO" ; do s <- section d "NETWORK_DESIGN" ; optimizer_from read_file (merge r s)
     else if beq name "DATA" then do s <- section d "DATA" ; gis_from read_file s
     else Err ConfigExn)
  | _ => Err PyTypeError
  end.
