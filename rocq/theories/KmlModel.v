(** Topologies written to and read from KML files (terragraph_planner/common/data_io/topology_serializer.py,
    kml_library.py and data_key.py).  The file is modelled as the tree of its folders and placemarks, whose texts are the
    characters between the tags; coordinates are kept as numbers, as Python prints floats so that they are read back
    exactly.  What the LIBKML driver does is stated in [xml_text], [layers], [launder] and [feature]. *)
From Coq Require Import ZArith QArith Ascii DecimalString.
From Verif Require Import Base Dict TopologyModel SetupModel LosRangeModel RfModel ConfModel.
From Verif Require InputModel.
Local Open Scope string_scope.
Local Open Scope list_scope.

(** ** Texts *)
(** [s.replace(c, by)] for a single character *)
Fixpoint replace_char (c : ascii) (by_ : string) (s : string) : string :=
  match s with
  | EmptyString => EmptyString
  | String a r => if Ascii.eqb a c then by_ ++ replace_char c by_ r else String a (replace_char c by_ r)
  end.
(** [xml.sax.saxutils.escape] *)
Definition escape (s : string) : string :=
  replace_char "<" "&lt;" (replace_char ">" "&gt;" (replace_char "&" "&amp;" s)).

(** How an XML parser reads the text of an element (XML 1.0, sections 2.2, 2.4, 2.11 and 4.6): None when the document is
    not well formed.  Character references are not emitted by the writer and are left out. *)
Definition ch (n : nat) : ascii := ascii_of_nat n.
Definition xml_char (c : ascii) : bool := let n := nat_of_ascii c in ((32 <=? n) || (n =? 9) || (n =? 10))%nat.
Fixpoint xml_text (s : string) : option string :=
  match s with
  | EmptyString => Some EmptyString
  | String "<" _ => None
  | String "&" (String "a" (String "m" (String "p" (String ";" r)))) => option_map (String "&") (xml_text r)
  | String "&" (String "l" (String "t" (String ";" r))) => option_map (String "<") (xml_text r)
  | String "&" (String "g" (String "t" (String ";" r))) => option_map (String ">") (xml_text r)
  | String "&" (String "q" (String "u" (String "o" (String "t" (String ";" r))))) => option_map (String (ch 34)) (xml_text r)
  | String "&" (String "a" (String "p" (String "o" (String "s" (String ";" r))))) => option_map (String "'") (xml_text r)
  | String "&" _ => None
  | String "013" (String "010" r) => option_map (String "010") (xml_text r)
  | String "013" r => option_map (String "010") (xml_text r)
  | String c r => if xml_char c then option_map (String c) (xml_text r) else None
  end.

(** ** Topologies *)
(** enums.py 54-62 and 100-120 *)
Definition status_name (s : status) : string :=
  match s with PROPOSED => "PROPOSED" | EXISTING => "EXISTING" | CANDIDATE => "CANDIDATE" | UNAVAILABLE => "UNAVAILABLE" | UNREACHABLE => "UNREACHABLE" end.
Definition site_type_name (t : site_type) : string := match t with CN => "CN" | DN => "DN" | POP => "POP" end.
Definition site_type_value (t : site_type) : nat := match t with CN => 1 | DN => 2 | POP => 3 end.
Definition link_type_name (t : link_type) : string :=
  match t with WIRELESS_BACKHAUL => "WIRELESS_BACKHAUL" | WIRELESS_ACCESS => "WIRELESS_ACCESS" | ETHERNET => "ETHERNET" end.
Definition link_type_value (t : link_type) : nat := match t with WIRELESS_BACKHAUL => 1 | WIRELESS_ACCESS => 2 | ETHERNET => 3 end.
Inductive location := STREET_LEVEL | ROOFTOP | UNKNOWN.
Definition location_name (l : location) : string := match l with STREET_LEVEL => "STREET_LEVEL" | ROOFTOP => "ROOFTOP" | UNKNOWN => "UNKNOWN" end.
Definition polarity_name (p : polarity) : string := match p with ODD => "ODD" | EVEN => "EVEN" | UNASSIGNED => "UNASSIGNED" end.
Definition all_status : list status := [PROPOSED; EXISTING; CANDIDATE; UNAVAILABLE; UNREACHABLE].
Definition all_site_types : list site_type := [CN; DN; POP].
Definition all_link_types : list link_type := [WIRELESS_BACKHAUL; WIRELESS_ACCESS; ETHERNET].
Definition all_locations : list location := [STREET_LEVEL; ROOFTOP; UNKNOWN].

(** topology_models/site.py 28-113: the attributes the writer uses *)
Record ksite := mkKSite {
  k_id : string; k_given : string; k_type : site_type; k_status : status; k_hash : string;
  k_lat : Q; k_lon : Q; k_alt : option Q; k_polarity : polarity; k_location : location; k_building : option Z;
  k_sku : string; k_subscribers : option N }.
(** site.py 183-187 *)
Definition k_name (s : ksite) : string := if beq (k_given s) "" then k_id s else k_given s.
(** site.py 193-199: [self._number_of_subscribers or 1] for a CN, 0 for the others *)
Definition subscribers (s : ksite) : N :=
  match k_type s with
  | CN => match k_subscribers s with Some n => if (n =? 0)%N then 1%N else n | None => 1%N end
  | _ => 0%N
  end.

(** link.py 36-135; [e_channels]: the channels of the two sectors, when both are set *)
Record klink := mkKLink {
  e_tx : ksite; e_rx : ksite; e_wireless : bool; e_status : status; e_confidence : option Q; e_util : Q; e_channels : option (Z * Z) }.
(** link.py 195-203 *)
Definition e_type (l : klink) : link_type :=
  if negb (e_wireless l) then ETHERNET else match k_type (e_rx l) with CN => WIRELESS_ACCESS | _ => WIRELESS_BACKHAUL end.
(** link.py 273-279 *)
Definition end_hash (s : ksite) : string := k_hash s ++ "_" ++ site_type_name (k_type s).
Definition e_hash (l : klink) : string :=
  let a := end_hash (e_tx l) in let b := end_hash (e_rx l) in
  if str_ltb b a then b ++ "-" ++ a else a ++ "-" ++ b.
Definition active (s : status) : bool := match s with PROPOSED | EXISTING => true | _ => false end.
(** link.py 282-291; UNASSIGNED_CHANNEL is -1 *)
Definition e_channel (l : klink) : result Z :=
  if active (e_status l) then
    match e_channels l with
    | Some (a, b) => if (a =? b)%Z then Ok a else Err TopologyExn
    | None => Ok (-1)%Z
    end
  else Ok (-1)%Z.

(** demand_site.py 19-53 *)
Record kdemand := mkKDemand { b_id : string; b_hash : string; b_lat : Q; b_lon : Q; b_demand : option Q; b_sites : list ksite }.
Record ktopo := mkKTopo { kt_name : string; kt_sites : list ksite; kt_links : list klink; kt_demands : list kdemand }.

(** ** The file *)
Inductive geometry := Point (lon lat z : Q) | Line (lon lat z lon' lat' z' : Q).
Record placemark := mkMark { p_name : string; p_style : string; p_data : list (string * string); p_mode : string; p_geometry : geometry }.
Inductive folder := Folder (name : string) (marks : list placemark) (subs : list folder).
Record document := mkDoc { d_name : string; d_styles : list string; d_folders : list folder }.

(** ** The writer *)
(** [str] of an int *)
Definition str_N (n : N) : string := NilZero.string_of_uint (N.to_uint n).
Definition str_Z (z : Z) : string := NilZero.string_of_int (Z.to_int z).

Section writer.
(** [str(round(v, 1))] of a float *)
Variable num : Q -> string.
(** [str] of the attributes of a link that are only written (distance, flow, capacity, ...), by their output name; None
    when the attribute is None *)
Variable attribute : klink -> string -> option string.

Definition na (o : option string) : string := match o with Some v => v | None => "N/A" end.
(** data_key.py 43-76 and 160-171: output names and values of [SiteKey.kml_output_keys] *)
Definition site_fields (s : ksite) : list (string * string) :=
  [("Site Type", escape (site_type_name (k_type s)));
   ("Site Geohash", escape (k_hash s));
   ("Altitude", escape (na (option_map num (k_alt s))));
   ("Status", escape (status_name (k_status s)));
   ("Polarity", escape (polarity_name (k_polarity s)));
   ("Location Type", escape (location_name (k_location s)));
   ("Device SKU", escape (k_sku s));
   ("Number of Subscribers", escape (str_N (subscribers s)))].

(** topology_serializer.py: get_site_altitude_mode *)
Definition altitude_mode (a : option Q) : string := match a with None => "clampToGround" | Some _ => "absolute" end.
(** An absent altitude is written as None, which is read as 0 *)
Definition z_of (a : option Q) : Q := match a with Some z => z | None => 0%Q end.

(** 261-293; the test for UNKNOWN never holds *)
Definition site_mark (s : ksite) : placemark :=
  mkMark (escape (k_name s)) (site_type_name (k_type s) ++ "_" ++ status_name (k_status s)) (site_fields s)
         (altitude_mode (k_alt s)) (Point (k_lon s) (k_lat s) (z_of (k_alt s))).

(** 296-360: the output keys of data_key.py 314-337; RF fields only for wireless links *)
Definition link_fields (l : klink) : result (list (string * string)) :=
  do c <- e_channel l ;
  let plain := fun n => (n, escape (na (attribute l n))) in
  let azimuth := fun n => (n, match attribute l n with Some v => escape v | None => "0" end) in
  let rf := fun f => if e_wireless l then f else [] in
  Ok ([("Link Type", escape (link_type_name (e_type l)));
       ("Tx Site Name", escape (k_name (e_tx l)));
       ("Rx Site Name", escape (k_name (e_rx l)));
       ("Status", escape (status_name (e_status l)));
       plain "Distance"; plain "Data Flow (Gbps)"; plain "Throughput (Gbps)"; plain "Utilization"]
      ++ rf [azimuth "Tx Beam Azimuth"; azimuth "Rx Beam Azimuth";
             plain "Deviation from Tx Boresight"; plain "Deviation from Rx Boresight"; plain "Deviation from El Boresight";
             plain "Tx Power (dBm)"; plain "Estimated MCS"; plain "Estimated SNR (dB)"; plain "Estimated SINR (dB)"; plain "Estimated RSL"]
      ++ [("Confidence Level", escape (na (option_map num (e_confidence l))));
          ("Channel", if (-1 <? c)%Z then str_Z c else "UNASSIGNED")]).

Definition qgtb (a b : Q) : bool := negb (Qle_bool a b).
(** topology.py 318-333: the link between two sites *)
Definition find_link (t : ktopo) (a b : string) : option klink :=
  find (fun l => beq (k_id (e_tx l)) a && beq (k_id (e_rx l)) b) (kt_links t).
(** 361-370: [max(util, reverse_util) > 80] for a wireless link *)
Definition high_util (t : ktopo) (l : klink) : bool :=
  let rev := match find_link t (k_id (e_rx l)) (k_id (e_tx l)) with Some r => e_util r | None => 0%Q end in
  qgtb (if qgtb rev (e_util l) then rev else e_util l) 80%Q && e_wireless l.
Definition link_mark (t : ktopo) (l : klink) : result placemark :=
  do _ <- guard (beq (altitude_mode (k_alt (e_tx l))) (altitude_mode (k_alt (e_rx l)))) TopologyExn ;
  do fs <- link_fields l ;
  Ok (mkMark (e_hash l) ("backhaul_link_" ++ status_name (e_status l) ++ (if high_util t l then "_high_util" else "")) fs
             (altitude_mode (k_alt (e_tx l)))
             (Line (k_lon (e_tx l)) (k_lat (e_tx l)) (z_of (k_alt (e_tx l))) (k_lon (e_rx l)) (k_lat (e_rx l)) (z_of (k_alt (e_rx l))))).

(** [itertools.groupby]: runs of consecutive elements with one key *)
Fixpoint group_by {A K} `{EqB K} (key : A -> K) (l : list A) : list (K * list A) :=
  match l with
  | [] => []
  | x :: r =>
    match group_by key r with
    | (k, g) :: gs => if beq (key x) k then (k, x :: g) :: gs else (key x, [x]) :: (k, g) :: gs
    | [] => [(key x, [x])]
    end
  end.
(** Tuples [(int, str)] in order *)
Definition pair_ltb (a b : nat * string) : bool := (fst a <? fst b)%nat || ((fst a =? fst b)%nat && str_ltb (snd a) (snd b)).

(** 184-257, for one status; [e_type l] of a run is the key of the run *)
Definition sites_of (t : ktopo) (st : status) : list ksite :=
  TopologyModel.sort_by (fun a b => pair_ltb (site_type_value (k_type a), k_name a) (site_type_value (k_type b), k_name b))
          (filter (fun s => beq (k_status s) st) (kt_sites t)).
Definition links_of (t : ktopo) (st : status) : list klink :=
  TopologyModel.sort_by (fun a b => pair_ltb (link_type_value (e_type a), e_hash a) (link_type_value (e_type b), e_hash b))
          (filter (fun l => beq (e_status l) st) (kt_links t)).
Definition site_folder (g : site_type * list ksite) : folder := Folder (site_type_name (fst g) ++ " Sites") (map site_mark (snd g)) [].
(** 236-247: by hash, and the most used link first among those that overlap *)
Definition link_order (ls : list klink) : list klink :=
  flat_map (fun g => TopologyModel.sort_by (fun a b => qgtb (e_util a) (e_util b)) (snd g))
           (group_by e_hash (TopologyModel.sort_by (fun a b => str_ltb (e_hash a) (e_hash b)) ls)).
Definition link_folder (t : ktopo) (g : link_type * list klink) : result folder :=
  do ms <- mapM (link_mark t) (link_order (snd g)) ;
  Ok (Folder (link_type_name (fst g) ++ " Links") ms []).
Definition status_folder (t : ktopo) (st : status) : result (list folder) :=
  let ss := sites_of t st in let ls := links_of t st in
  match ss, ls with
  | [], [] => Ok []
  | _, _ =>
    do lf <- mapM (link_folder t) (group_by e_type ls) ;
    Ok [Folder (status_name st) [] (map site_folder (group_by k_type ss) ++ lf)]
  end.

(** 389-445 and 447-466 *)
Definition demand_value (d : kdemand) : Q := match b_demand d with Some q => q | None => 0%Q end.
Definition qmax_list (l : list Q) : Q := match l with [] => 0%Q | x :: r => fold_left (fun m y => if qgtb y m then y else m) r x end.
Definition uniform (l : list Q) : bool := match l with [] => true | x :: r => forallb (Qeq_bool x) r end.
(** [int(demand / max_demand * 3)], at most 2 *)
Definition scale_of (m : Q) (d : kdemand) : result Z :=
  match b_demand d with
  | None => Err PyAssertion
  | Some q =>
    if Qeq_bool m 0%Q then Err PyZeroDivision
    else let v := (q / m * 3)%Q in let z := Z.quot (Qnum v) (Zpos (Qden v)) in Ok (if (3 <=? z)%Z then 2%Z else z)
  end.
Definition demand_mark (ds : list kdemand) (d : kdemand) : result placemark :=
  do z <- (if uniform (map demand_value ds) then Ok 0%Z else scale_of (qmax_list (map demand_value ds)) d) ;
  Ok (mkMark (b_hash d) ("demand_site_" ++ str_Z z) [("site_type", "DEMAND"); ("status", "PROPOSED")] "" (Point (b_lon d) (b_lat d) 0%Q)).
Definition connection_marks (d : kdemand) : list placemark :=
  map (fun s => mkMark ("link_" ++ k_id s ++ "_" ++ b_id d) "demand_links" [] "clampToGround" (Line (b_lon d) (b_lat d) 0%Q (k_lon s) (k_lat s) 0%Q))
      (filter (fun s => active (k_status s)) (b_sites d)).
Definition demand_folder (t : ktopo) : result folder :=
  do ms <- mapM (demand_mark (kt_demands t)) (kt_demands t) ;
  Ok (Folder "Demand" [] [Folder "Demand Sites" ms []; Folder "Demand Connections" (flat_map connection_marks (kt_demands t)) []]).

(** 37-58, 61-91 and 487-536: the styles that are defined *)
Definition site_styles : list string :=
  map (fun s => ("POP_" ++ s)%string) ["UNAVAILABLE"; "CANDIDATE"; "PROPOSED"; "EXISTING"]
  ++ map (fun s => ("DN_" ++ s)%string) ["UNAVAILABLE"; "UNREACHABLE"; "CANDIDATE"; "PROPOSED"; "EXISTING"]
  ++ map (fun s => ("CN_" ++ s)%string) ["UNAVAILABLE"; "UNREACHABLE"; "CANDIDATE"; "PROPOSED"; "EXISTING"] ++ ["UNKNOWN"].
Definition link_styles : list string :=
  flat_map (fun s => ["backhaul_link_" ++ s; "access_link_" ++ s; "wired_link_" ++ s]%string) ["UNAVAILABLE"; "UNREACHABLE"; "CANDIDATE"; "PROPOSED"; "EXISTING"]
  ++ flat_map (fun s => ["backhaul_link_" ++ s ++ "_high_util"; "access_link_" ++ s ++ "_high_util"]%string) ["PROPOSED"; "EXISTING"].
Definition styles : list string := site_styles ++ ["demand_site_0"; "demand_site_1"; "demand_site_2"; "demand_links"] ++ link_styles.

(** 137-160: write_to_kml_file; the file is only written when nothing was raised *)
Definition write_kml (t : ktopo) : result document :=
  do fs <- mapM (status_folder t) all_status ;
  do df <- demand_folder t ;
  Ok (mkDoc (if beq (kt_name t) "" then "topology" else kt_name t) styles (List.concat fs ++ [df])).
End writer.

(** ** The reader *)
(** Layers: every folder, before the folders in it.  A feature has the fields Name and altitudeMode and those of its
    extended data, in whose names blanks become underscores. *)
Fixpoint layers (f : folder) : list (string * list placemark) :=
  match f with Folder n ms subs => (n, ms) :: flat_map layers subs end.
Definition launder : string -> string := smap (fun c => if Ascii.eqb c " " then "_"%char else c).
Definition feature := list (string * string).
Definition opt_text {A} (f : string -> option A) (s : string) : result A := match f s with Some a => Ok a | None => Err DataExn end.
Definition text (s : string) : result string := opt_text xml_text s.
Definition read_mark (p : placemark) : result (feature * geometry) :=
  do n <- text (p_name p) ;
  do ds <- mapM (fun kv => do v <- text (snd kv) ; Ok (launder (fst kv), v)) (p_data p) ;
  Ok ((("Name", n) :: ("altitudeMode", p_mode p) :: ds), p_geometry p).
Definition read_layer (l : string * list placemark) : result (string * list (feature * geometry)) :=
  do n <- text (fst l) ;
  do ms <- mapM read_mark (snd l) ;
  Ok (n, ms).

Section reader.
(** [set.pop()] *)
Variable pop : list string -> string.

(** kml_library.py 31-45 *)
Definition get_field (f : feature) (names : list string) : string :=
  match filter (fun k => mem k names) (map (fun kv => casefold (fst kv)) f) with
  | [] => ""
  | ks => match find (fun kv => beq (casefold (fst kv)) (pop ks)) f with Some kv => snd kv | None => "" end
  end.
(** data_key.py 79-140 and 206-268 *)
Definition sku_names := ["sku"; "device_sku"; "device sku"].
Definition name_names := ["name"; "site_name"; "site name"; "pole_name"].
Definition mode_names := ["altitude mode"; "altitude_mode"; "altitudemode"].
Definition location_names := ["location type"; "location_type"].
Definition building_names := ["building id"; "building_id"].
Definition subscriber_names :=
  ["number_of_demand_points"; "number of demand points"; "num_demand_points"; "number_of_subscribers"; "number of subscribers";
   "number of demand sites"; "num_demand_sites"; "demand_points"; "demand points"; "demand_sites"; "demand sites"].
Definition link_type_names := ["link type"; "link_type"].
Definition tx_names := ["tx_site"; "tx_site_name"; "tx_site_id"; "from_site"; "from_site_name"; "from_site_id"].
Definition rx_names := ["rx_site"; "rx_site_name"; "rx_site_id"; "to_site"; "to_site_name"; "to_site_id"].
Definition confidence_names := ["confidence level"; "confidence_level"].

(** [s.isdecimal()] and [int(s)] *)
Definition digit (c : ascii) : bool := let n := nat_of_ascii c in ((48 <=? n) && (n <=? 57))%nat.
Fixpoint all_digits (s : string) : bool := match s with EmptyString => true | String c r => digit c && all_digits r end.
Definition isdecimal (s : string) : bool := negb (beq s "") && all_digits s.
Definition int_of (s : string) : option N :=
  if isdecimal s then option_map N.of_uint (NilZero.uint_of_string s) else None.

(** structs.py 58-92 *)
Record raw_site := mkRawSite {
  r_type : site_type; r_status : status; r_sku : option string; r_name : option string; r_lat : Q; r_lon : Q;
  r_alt : option Q; r_height : option Q; r_location : location; r_building : option N; r_subscribers : option N }.
Record raw_link := mkRawLink {
  w_type : link_type; w_status : status; w_confidence : option N; w_tx : string; w_tx_lat : Q; w_tx_lon : Q;
  w_rx : string; w_rx_lat : Q; w_rx_lon : Q }.

Definition nonempty (s : string) : option string := if beq s "" then None else Some s.
(** 48-75 *)
Definition altitude_height (mode : string) (z : Q) : option Q * option Q :=
  if beq mode "absolute" then (Some z, None) else if beq mode "relativeToGround" then (None, Some z) else (None, None).
(** GetX, GetY and GetZ of a geometry, and the points of a line *)
Definition g_x (g : geometry) : Q := match g with Point x _ _ => x | Line _ _ _ _ _ _ => 0%Q end.
Definition g_y (g : geometry) : Q := match g with Point _ y _ => y | Line _ _ _ _ _ _ => 0%Q end.
Definition g_z (g : geometry) : Q := match g with Point _ _ z => z | Line _ _ _ _ _ _ => 0%Q end.
Definition g_point (n : nat) (g : geometry) : Q * Q :=
  match g with Point x y _ => (x, y) | Line x y _ x' y' _ => if (n =? 0)%nat then (x, y) else (x', y') end.

(** The member of an enum whose name is the string *)
Definition member_of {A} (name : A -> string) (l : list A) (s : string) : option A := find (fun a => beq (name a) s) l.
(** 78-121 *)
Definition extract_site (ty : site_type) (st : status) (fg : feature * geometry) : raw_site :=
  let '(f, g) := fg in
  let sku := get_field f sku_names in
  let name := get_field f name_names in
  let '(alt, height) := altitude_height (get_field f mode_names) (g_z g) in
  let loc := match member_of location_name all_locations (upper (get_field f location_names)) with Some l => l | None => STREET_LEVEL end in
  let building := match loc with ROOFTOP => int_of (get_field f building_names) | _ => None end in
  mkRawSite ty st (nonempty sku) (nonempty name) (g_y g) (g_x g) alt height loc building (int_of (get_field f subscriber_names)).
(** 124-157: the type of the layer is not used *)
Definition extract_link (st : status) (fg : feature * geometry) : raw_link :=
  let '(f, g) := fg in
  let ty := match member_of link_type_name all_link_types (upper (get_field f link_type_names)) with Some t => t | None => WIRELESS_BACKHAUL end in
  mkRawLink ty st (int_of (get_field f confidence_names)) (get_field f tx_names) (snd (g_point 0 g)) (fst (g_point 0 g))
            (get_field f rx_names) (snd (g_point 1 g)) (fst (g_point 1 g)).
(** 160-177 *)
Definition extract_demand (fg : feature * geometry) : Q * Q := (g_y (snd fg), g_x (snd fg)).

Record read_state := mkRead { rd_status : status; rd_sites : list raw_site; rd_links : list raw_link; rd_demands : list (Q * Q) }.
(** The first member whose name occurs in the name of the layer *)
Definition named {A} (name : A -> string) (l : list A) (layer : string) : option A :=
  find (fun a => contains (casefold (name a)) layer) l.
(** 207-242 *)
Definition read_step (r : read_state) (l : string * list (feature * geometry)) : read_state :=
  let n := casefold (fst l) in
  match named status_name all_status n with
  | Some st => mkRead st (rd_sites r) (rd_links r) (rd_demands r)
  | None =>
    match named site_type_name all_site_types n with
    | Some ty => mkRead (rd_status r) (rd_sites r ++ map (extract_site ty (rd_status r)) (snd l)) (rd_links r) (rd_demands r)
    | None =>
      match named link_type_name all_link_types n with
      | Some _ => mkRead (rd_status r) (rd_sites r) (rd_links r ++ map (extract_link (rd_status r)) (snd l)) (rd_demands r)
      | None =>
        if contains "demand site" n then mkRead (rd_status r) (rd_sites r) (rd_links r) (rd_demands r ++ map extract_demand (snd l))
        else r
      end
    end
  end.
(** 180-245, for the content of a .kml file: what cannot be parsed raises DataException *)
Definition read_kml (d : document) : result (list raw_site * list raw_link * list (Q * Q)) :=
  do _ <- text (d_name d) ;
  do ls <- mapM read_layer (flat_map layers (d_folders d)) ;
  let r := fold_left read_step ls (mkRead CANDIDATE [] [] []) in
  Ok (rd_sites r, rd_links r, rd_demands r).
End reader.
