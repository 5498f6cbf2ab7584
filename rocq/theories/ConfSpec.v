(** What the configuration of a plan is supposed to be: the documented defaults and ranges (terragraph_planner/data/template.yaml), and what a
    faithful comparison or conversion of configurations means.  Independent of how the model computes it. *)
From Coq Require Import ZArith QArith.
From Verif Require Import Base Dict ConfModel.
Local Open Scope string_scope.
Local Open Scope list_scope.
Local Open Scope Q_scope.

(** ** Numbers and ranges.  A boolean is the number 0 or 1, as in Python. *)
Definition number (v : val) (x : Q) : Prop := v = VNum x \/ (v = VBool true /\ x = 1) \/ (v = VBool false /\ x = 0).
Definition numeric (v : val) : Prop := exists x, number v x.
Definition range (v : val) (P : Q -> Prop) : Prop := exists x, number v x /\ P x.
Definition optional (v : val) (P : Q -> Prop) : Prop := v = VNone \/ range v P.
Definition opt_numeric (v : val) : Prop := v = VNone \/ numeric v.
(** what Python takes for true *)
Definition counts_as_true (v : val) : Prop :=
  v <> VNone /\ v <> VBool false /\ v <> VStr "" /\ v <> VList [] /\ v <> VDict [] /\ (forall x, v = VNum x -> ~ x == 0).

(** ** The documented defaults *)
Definition defaults := list (string * val).
(** the value of a parameter: the one given, otherwise the documented one *)
Definition setting (doc : defaults) (given : dict string val) (k : string) : val :=
  match dget given k with Some v => v | None => match dget doc k with Some v => v | None => VNone end end.
Definition radio_defaults : defaults :=
  [("carrier_frequency", VNum 60000); ("noise_figure", VNum 7); ("thermal_noise_power", VNum (-81)); ("rain_rate", VNum 30); ("link_availability_percentage", VNum (999#10))].
(** what is not listed defaults to null *)
Definition sector_defaults : defaults := radio_defaults ++
  [("horizontal_scan_range", VNum 70); ("number_sectors_per_node", VNum 1); ("antenna_boresight_gain", VNum 30); ("maximum_tx_power", VNum 16); ("tx_diversity_gain", VNum 0); ("rx_diversity_gain", VNum 0);
   ("tx_miscellaneous_loss", VNum 0); ("rx_miscellaneous_loss", VNum 0)].
Definition device_defaults : defaults := [("node_capex", VNum 250); ("device_type", VEnum "DeviceType" "DN")].
Definition detection_defaults : defaults := [("dn_deployment", VBool true); ("detect_highest", VBool true); ("detect_centers", VBool false); ("detect_corners", VBool true); ("max_corner_angle", VNone)].
Definition los_defaults : defaults := radio_defaults ++
  [("mounting_height_above_rooftop", VNum (3#2)); ("default_pop_height_on_pole", VNum 5); ("default_dn_height_on_pole", VNum 5); ("default_cn_height_on_pole", VNum 5); ("maximum_los_distance", VNum 200); ("minimum_los_distance", VNum 50);
   ("maximum_elevation_scan_angle", VNum 25); ("use_ellipsoidal_los_model", VBool false); ("fresnel_radius", VNum 1); ("los_confidence_threshold", VNum (4#5)); ("site_detection", VObj "SiteDetectionParams" detection_defaults)].
Definition optimizer_defaults : defaults := radio_defaults ++
  [("cn_site_capex", VNum 1500); ("dn_site_capex", VNum 1500); ("pop_site_capex", VNum 1500); ("budget", VNum 300000); ("enable_cn_demand", VBool true); ("enable_uniform_demand", VBool false); ("enable_manual_demand", VBool false);
   ("demand_spacing", VNum 0); ("demand_connection_radius", VNum 0); ("demand", VNum (1#40)); ("pop_capacity", VNum 10); ("number_of_extra_pops", VNum 0); ("dn_dn_sector_limit", VNum 2); ("dn_total_sector_limit", VNum 15);
   ("maximum_number_hops", VNum 15); ("diff_sector_angle_limit", VNum 25); ("near_far_length_ratio", VNum 3); ("near_far_angle_limit", VNum 45); ("oversubscription", VNum 1); ("number_of_channels", VNum 1);
   ("maximize_common_bandwidth", VBool false); ("always_active_pops", VBool true); ("enable_legacy_redundancy_method", VBool true); ("redundancy_level", VEnum "RedundancyLevel" "MEDIUM"); ("backhaul_link_redundancy_ratio", VNum (1#5));
   ("pop_proposal_rel_stop", VNum (-1)); ("min_cost_rel_stop", VNum (1#20)); ("redundancy_rel_stop", VNum (1#20)); ("max_coverage_rel_stop", VNum (-1)); ("interference_rel_stop", VNum (-1));
   ("pop_proposal_max_time", VNum 60); ("min_cost_max_time", VNum 60); ("redundancy_max_time", VNum 60); ("max_coverage_max_time", VNum 60); ("interference_max_time", VNum 60); ("demand_site_max_time", VNum 15);
   ("availability_sim_time", VNum 100); ("availability_seed", VNum 0); ("availability_max_time", VNum 60)].

(** ** The ranges *)
(** the parameters that apply to the whole project *)
Definition radio_ok (v : string -> val) : Prop :=
  range (v "carrier_frequency") (fun x => 0 < x) /\ range (v "noise_figure") (fun x => 0 <= x) /\ range (v "rain_rate") (fun x => 0 <= x) /\ range (v "link_availability_percentage") (fun x => 0 <= x <= 100).
Definition sector_ok (v : string -> val) : Prop :=
  radio_ok v /\ range (v "antenna_boresight_gain") (fun x => 0 <= x) /\ range (v "number_sectors_per_node") (fun x => 1 <= x) /\ range (v "horizontal_scan_range") (fun x => 0 <= x <= 360) /\
  range (v "tx_diversity_gain") (fun x => 0 <= x) /\ range (v "rx_diversity_gain") (fun x => 0 <= x) /\ range (v "tx_miscellaneous_loss") (fun x => 0 <= x) /\ range (v "rx_miscellaneous_loss") (fun x => 0 <= x) /\
  optional (v "minimum_mcs_level") (fun x => 0 <= x) /\
  range (v "maximum_tx_power") (fun x => 0 <= x /\ optional (v "minimum_tx_power") (fun y => y <= x)).
Definition sector_typed (v : string -> val) : Prop :=
  (forall k, In k ["carrier_frequency"; "noise_figure"; "rain_rate"; "link_availability_percentage"; "antenna_boresight_gain"; "number_sectors_per_node"; "horizontal_scan_range"; "tx_diversity_gain"; "rx_diversity_gain";
                   "tx_miscellaneous_loss"; "rx_miscellaneous_loss"; "maximum_tx_power"] -> numeric (v k)) /\ opt_numeric (v "minimum_mcs_level") /\ opt_numeric (v "minimum_tx_power").
(** the files that are named can be read *)
Definition files_ok (read : string -> val -> list val -> result val) (v : string -> val) : Prop :=
  (v "antenna_pattern_file_path" = VNone \/ exists a, read "antenna_pattern" (v "antenna_pattern_file_path") [] = Ok a) /\
  (v "scan_pattern_file_path" = VNone \/ exists a, read "scan_pattern" (v "scan_pattern_file_path") [] = Ok a) /\
  (v "mcs_map_file_path" = VNone \/ exists a, read "mcs_map" (v "mcs_map_file_path") [v "minimum_mcs_level"; v "maximum_tx_power"; v "minimum_tx_power"] = Ok a).
(** the attributes of a configuration object *)
Definition attribute (o : val) (k : string) (v : val) : Prop := exists c a, o = VObj c a /\ dget a k = Some v.

(** nodes on a site when the number is left open: one for a client device, four otherwise *)
Definition client (v : val) : Prop := v = VEnum "DeviceType" "CN".
Definition nodes (v : string -> val) (k : Q) : Prop :=
  number (v "number_of_nodes_per_site") k \/ (v "number_of_nodes_per_site" = VNone /\ (client (v "device_type") -> k = 1) /\ (~ client (v "device_type") -> k = 4)).
Definition device_ok (v : string -> val) (sector : string -> val) : Prop :=
  (exists s, v "device_sku" = VStr s /\ s <> "") /\ range (v "node_capex") (fun x => 0 <= x) /\
  exists k h s, nodes v k /\ 1 <= k /\ (client (v "device_type") -> k == 1) /\ number (sector "horizontal_scan_range") h /\ number (sector "number_sectors_per_node") s /\ h * s * k <= 360.
Definition device_typed (v : string -> val) (sector : string -> val) : Prop :=
  (exists s, v "device_sku" = VStr s) /\ numeric (v "node_capex") /\ opt_numeric (v "number_of_nodes_per_site") /\ numeric (sector "horizontal_scan_range") /\ numeric (sector "number_sectors_per_node").

(** two names that differ at most in the case of their letters *)
Fixpoint same_name (a b : string) : Prop :=
  match a, b with
  | EmptyString, EmptyString => True
  | String c a, String d b =>
    (c = d \/ exists i, (i < 26)%nat /\ ((c = Ascii.ascii_of_nat (65 + i) /\ d = Ascii.ascii_of_nat (97 + i)) \/ (d = Ascii.ascii_of_nat (65 + i) /\ c = Ascii.ascii_of_nat (97 + i)))) /\ same_name a b
  | _, _ => False
  end.
(** at least one device; the SKUs are different, whatever the case of their letters *)
Definition has_sku (d : val) (s : string) : Prop := attribute d "device_sku" (VStr s).
Definition devices_typed (l : list val) : Prop := forall d, In d l -> exists s, has_sku d s.
Fixpoint distinct_skus (l : list val) : Prop :=
  match l with [] => True | d :: l => (forall d' s s', In d' l -> has_sku d s -> has_sku d' s' -> ~ same_name s s') /\ distinct_skus l end.
Definition devices_ok (v : val) : Prop := exists l, v = VList l /\ l <> [] /\ devices_typed l /\ distinct_skus l.

Definition los_ok (v : string -> val) : Prop :=
  devices_ok (v "device_list") /\ optional (v "minimum_mcs_of_backhaul_links") (fun x => 0 <= x) /\ optional (v "minimum_mcs_of_access_links") (fun x => 0 <= x) /\
  range (v "minimum_los_distance") (fun x => 5 <= x /\ optional (v "maximum_los_distance") (fun y => x < y)) /\ range (v "maximum_elevation_scan_angle") (fun x => 0 <= x <= 90) /\
  range (v "mounting_height_above_rooftop") (fun x => 0 <= x) /\ range (v "default_dn_height_on_pole") (fun x => 0 <= x) /\ range (v "default_cn_height_on_pole") (fun x => 0 <= x) /\
  range (v "default_pop_height_on_pole") (fun x => 0 <= x) /\ range (v "fresnel_radius") (fun x => 0 < x) /\ range (v "los_confidence_threshold") (fun x => 0 <= x <= 1).
Definition los_typed (v : string -> val) : Prop :=
  (exists l, v "device_list" = VList l /\ devices_typed l) /\
  (forall k, In k ["minimum_los_distance"; "maximum_elevation_scan_angle"; "mounting_height_above_rooftop"; "default_dn_height_on_pole"; "default_cn_height_on_pole"; "default_pop_height_on_pole"; "fresnel_radius"; "los_confidence_threshold"] -> numeric (v k)) /\
  (forall k, In k ["minimum_mcs_of_backhaul_links"; "minimum_mcs_of_access_links"; "maximum_los_distance"] -> opt_numeric (v k)).

(** the name ends in one of the extensions, whatever the case *)
Definition extension (exts : list string) (v : val) : Prop := exists s e e', v = VStr s /\ In e exts /\ same_name e' e /\ (s = e' \/ exists b, s = (b ++ "." ++ e')%string).
Definition optimizer_ok (v : string -> val) : Prop :=
  devices_ok (v "device_list") /\
  (forall k, In k ["pop_site_capex"; "cn_site_capex"; "dn_site_capex"; "budget"; "number_of_extra_pops"] -> range (v k) (fun x => 0 <= x)) /\
  (forall k, In k ["pop_capacity"; "demand"; "maximum_number_hops"; "near_far_length_ratio"; "min_cost_max_time"; "redundancy_max_time"; "interference_max_time"; "pop_proposal_max_time"; "demand_site_max_time"; "availability_max_time"] ->
     range (v k) (fun x => 0 < x)) /\
  (forall k, In k ["oversubscription"; "number_of_channels"] -> range (v k) (fun x => 1 <= x)) /\
  (forall k, In k ["diff_sector_angle_limit"; "near_far_angle_limit"] -> range (v k) (fun x => 0 <= x <= 180)) /\
  range (v "backhaul_link_redundancy_ratio") (fun x => 0 <= x <= 1) /\ optional (v "num_threads") (fun x => 0 < x) /\
  range (v "dn_dn_sector_limit") (fun x => 0 < x /\ range (v "dn_total_sector_limit") (fun y => x <= y)) /\
  (counts_as_true (v "enable_cn_demand") \/ counts_as_true (v "enable_uniform_demand") \/ counts_as_true (v "enable_manual_demand")) /\
  (counts_as_true (v "enable_uniform_demand") -> range (v "demand_spacing") (fun x => 0 < x)) /\
  (counts_as_true (v "enable_uniform_demand") \/ counts_as_true (v "enable_manual_demand") -> range (v "demand_connection_radius") (fun x => 0 < x)) /\
  (v "candidate_topology_file_path" = VNone \/ extension ["kml"; "kmz"; "zip"] (v "candidate_topology_file_path")).
Definition optimizer_typed (v : string -> val) : Prop :=
  (exists l, v "device_list" = VList l /\ devices_typed l) /\
  (forall k, In k ["pop_site_capex"; "cn_site_capex"; "dn_site_capex"; "budget"; "number_of_extra_pops"; "pop_capacity"; "demand"; "maximum_number_hops"; "near_far_length_ratio"; "min_cost_max_time"; "redundancy_max_time"; "interference_max_time";
                   "pop_proposal_max_time"; "demand_site_max_time"; "availability_max_time"; "oversubscription"; "number_of_channels"; "diff_sector_angle_limit"; "near_far_angle_limit"; "backhaul_link_redundancy_ratio"; "dn_dn_sector_limit";
                   "dn_total_sector_limit"; "demand_spacing"; "demand_connection_radius"] -> numeric (v k)) /\ opt_numeric (v "num_threads") /\
  (v "candidate_topology_file_path" = VNone \/ exists s, v "candidate_topology_file_path" = VStr s).

(** ** The parameters of the project *)
Definition radio_keys : list string := ["carrier_frequency"; "thermal_noise_power"; "noise_figure"; "rain_rate"; "link_availability_percentage"].
(** [d'] is the device [d] with the radio parameters of the project *)
Definition with_project (v : string -> val) (d d' : val) : Prop :=
  (forall k x, k <> "sector_params" -> (attribute d' k x <-> attribute d k x)) /\
  (forall c a, attribute d "sector_params" (VObj c a) -> exists s', attribute d' "sector_params" s' /\
     forall k x, attribute s' k x <-> (In k radio_keys /\ x = v k) \/ (~ In k radio_keys /\ attribute (VObj c a) k x)).

(** ** Files *)
(** what json and yaml deliver: no objects, and no key twice in a dictionary *)
Fixpoint file_value (v : val) : Prop :=
  match v with
  | VNone | VBool _ | VNum _ | VStr _ => True
  | VList l => (fix all (l : list val) : Prop := match l with [] => True | x :: l => file_value x /\ all l end) l
  | VDict d => NoDup (map fst d) /\ (fix all (d : list (string * val)) : Prop := match d with [] => True | (_, x) :: d => file_value x /\ all d end) d
  | _ => False
  end.
Definition value_of (o : val) (k : string) : val := match o with VObj _ a => match dget a k with Some v => v | None => VNone end | _ => VNone end.
(** the radio parameters of the project are in their ranges; there is a device; the sectors of every device are in their ranges and have the radio parameters of the project *)
Definition checked (o : val) : Prop :=
  radio_ok (value_of o) /\
  exists l, attribute o "device_list" (VList l) /\ l <> [] /\
    forall d, In d l -> exists s, attribute d "sector_params" s /\ sector_ok (value_of s) /\ forall k, In k radio_keys -> value_of s k = value_of o k.

(** ** Names in configuration files: the case of letters and surrounding white space do not matter *)
Fixpoint blanks (s : string) : Prop := match s with EmptyString => True | String c s => (Ascii.nat_of_ascii c = 32%nat \/ (9 <= Ascii.nat_of_ascii c <= 13)%nat) /\ blanks s end.
Definition spelled (k key : string) : Prop := exists a k' b, blanks a /\ blanks b /\ k = (a ++ k' ++ b)%string /\ same_name k' key.
(** every field is a field of the template, at every level; the items of a list of objects are compared with the first one in the template *)
Inductive legal : val -> val -> Prop :=
| legal_dict d o : (forall k v, In (k, v) d -> exists key ov, In (key, ov) o /\ spelled k key /\ legal_value v ov) -> legal (VDict d) (VDict o)
with legal_value : val -> val -> Prop :=
| legal_scalar v ov : (forall d, v <> VDict d) -> (forall l, v <> VList l) -> legal_value v ov
| legal_section v ov : legal v ov -> legal_value v ov
| legal_objects l o r : (forall x, In x l -> legal x (VDict o)) -> legal_value (VList l) (VList (VDict o :: r))
| legal_list l x r : (forall o, x <> VDict o) -> legal_value (VList l) (VList (x :: r))
| legal_text l c s : legal_value (VList l) (VStr (String c s)).

(** ** Objects that can be written as a dictionary: numbers, texts, booleans, nulls and the enums, no radio pattern files; null only where the default is null *)
Definition flat (v : val) : Prop := match v with VNone | VBool _ | VNum _ | VStr _ => True | _ => False end.
Definition sector_plain (v : string -> val) : Prop :=
  (forall k, In k (map fst sector_args) -> flat (v k)) /\ v "thermal_noise_power" <> VNone /\ v "antenna_pattern_file_path" = VNone /\ v "scan_pattern_file_path" = VNone.
(** an MCS table is a list of rows *)
Definition reads_tables (rf : string -> val -> list val -> result val) : Prop := forall path more t, rf "mcs_map" path more = Ok t -> exists l, t = VList l /\ forall x, In x l -> exists i, x = VOpaque i.
Definition device_kind (v : val) : Prop := v = VEnum "DeviceType" "DN" \/ v = VEnum "DeviceType" "CN".
Definition device_plain (rf : string -> val -> list val -> result val) (d : val) (sector : dict string val) : Prop :=
  exists kw s, device_data kw = Ok d /\ setting device_defaults kw "sector_params" = s /\ device_kind (setting device_defaults kw "device_type") /\ sector_params rf sector = Ok s /\ sector_plain (setting sector_defaults sector).
Definition member (cls : string) (names : list string) (v : val) : Prop := exists m, In m names /\ v = VEnum cls m.
Definition optimizer_plain (v : string -> val) : Prop :=
  (forall k, In k (map fst opt_args) -> ~ In k ["device_list"; "redundancy_level"; "topology_routing"] -> flat (v k)) /\
  (forall k, dget optimizer_defaults k <> None -> v k <> VNone) /\
  member "RedundancyLevel" ["NONE"; "LOW"; "MEDIUM"; "HIGH"] (v "redundancy_level") /\
  (v "topology_routing" = VNone \/ member "TopologyRouting" ["SHORTEST_PATH"; "MCS_COST_PATH"; "DPA_PATH"] (v "topology_routing")).
Definition devices_plain (rf : string -> val -> list val -> result val) (v : string -> val) (l : list val) : Prop :=
  forall d, In d l -> exists sector, device_plain rf d sector /\ forall k, In k radio_keys -> setting sector_defaults sector k = v k.
Definition detection_plain (o : val) : Prop :=
  exists kw, site_detection kw = Ok o /\ forall k, In k (map fst detection_args) -> flat (setting detection_defaults kw k) /\ (k <> "max_corner_angle" -> setting detection_defaults kw k <> VNone).
Definition los_plain (v : string -> val) : Prop :=
  (forall k, In k (map fst los_args) -> ~ In k ["device_list"; "site_detection"] -> flat (v k)) /\
  (forall k, dget los_defaults k <> None -> v k <> VNone) /\ detection_plain (v "site_detection").

(** ** Equality *)
(** the object has at most [n] levels, no attribute twice, and no dictionaries *)
Fixpoint nested (n : nat) (v : val) : Prop :=
  match n with
  | O => False
  | S n =>
    match v with
    | VObj c a => In c ["SectorParams"; "DeviceData"; "SiteDetectionParams"; "GISDataParams"; "LOSParams"; "OptimizerParams"; "SystemParams"] /\ NoDup (map fst a) /\
        forall k x, In (k, x) a -> match x with VList l => forall y, In y l -> nested n y | _ => nested n x end
    | VDict _ | VList _ => False
    | _ => True
    end
  end.
(** equal numbers or equal texts *)
Definition same_value (v w : val) : Prop := (exists x y, number v x /\ number w y /\ x == y) \/ exists s, v = VStr s /\ w = VStr s.
Definition simple (v : val) : Prop := numeric v \/ exists s, v = VStr s.

(** ** Names of enum members, in upper or lower case *)
Definition enum_names (c : string) : list string :=
  if String.eqb c "DeviceType" then ["CN"; "DN"]
  else if String.eqb c "RedundancyLevel" then ["NONE"; "LOW"; "MEDIUM"; "HIGH"]
  else if String.eqb c "TopologyRouting" then ["SHORTEST_PATH"; "MCS_COST_PATH"; "DPA_PATH"]
  else if String.eqb c "LoggerLevel" then ["NOTSET"; "DEBUG"; "INFO"; "WARNING"; "ERROR"; "CRITICAL"]
  else [].
(** [a] is [b], or the small letter of the capital [b] *)
Definition spells (a b : ascii) : Prop := a = b \/ (97 <= nat_of_ascii a <= 122 /\ nat_of_ascii a = nat_of_ascii b + 32)%nat.
Fixpoint spelling (s m : string) : Prop :=
  match s, m with
  | EmptyString, EmptyString => True
  | String a s', String b m' => spells a b /\ spelling s' m'
  | _, _ => False
  end.
