(** Property theorems C41; vocabulary in ConfSpec.v. *)
From Coq Require Import ZArith QArith Reals Qreals.
From Verif Require Import Base Dict ConfModel ConfSpec ConfProofs ConfLosProofs ConfOptProofs ConfFileProofs ConfRadioProofs ConfTripProofs ConfTypoProofs ConfEqProofs ConfExamples ConfFinalProofs ConfEnumProofs RfLossModel.
Local Open Scope string_scope.
Local Open Scope list_scope.

(** *** exactly the documented ranges are accepted *)
Theorem C41_sector_accepted_iff_in_range : forall rf kw, (exists o, sector_params rf kw = Ok o) <-> sector_ok (setting sector_defaults kw) /\ files_ok rf (setting sector_defaults kw).
Proof. exact sector_iff. Qed.
Print Assumptions C41_sector_accepted_iff_in_range.
Theorem C41_sector_refused_with_configuration_error : forall rf kw, sector_typed (setting sector_defaults kw) -> ~ sector_ok (setting sector_defaults kw) -> sector_params rf kw = Err ConfigExn.
Proof. exact sector_rejected. Qed.
Print Assumptions C41_sector_refused_with_configuration_error.
Theorem C41_sector_keeps_the_given_values : forall rf kw o k, sector_params rf kw = Ok o -> In k (map fst sector_args) -> attribute o k (setting sector_defaults kw k).
Proof. exact sector_values. Qed.
Print Assumptions C41_sector_keeps_the_given_values.
Theorem C41_device_accepted_iff_in_range : forall kw, (exists o, device_data kw = Ok o) <-> device_ok (setting device_defaults kw) (value_of (setting device_defaults kw "sector_params")).
Proof. exact device_accepted. Qed.
Print Assumptions C41_device_accepted_iff_in_range.
Theorem C41_device_refused_with_configuration_error : forall kw, device_typed (setting device_defaults kw) (value_of (setting device_defaults kw "sector_params")) ->
  ~ device_ok (setting device_defaults kw) (value_of (setting device_defaults kw "sector_params")) -> device_data kw = Err ConfigExn.
Proof. exact device_refused. Qed.
Print Assumptions C41_device_refused_with_configuration_error.
Theorem C41_device_keeps_the_given_values : forall kw o, device_data kw = Ok o ->
  (forall k, In k ["device_sku"; "sector_params"; "node_capex"; "device_type"] -> attribute o k (setting device_defaults kw k)) /\
  (forall n, attribute o "number_of_nodes_per_site" n -> exists k, number n k /\ nodes (setting device_defaults kw) k).
Proof. exact device_values. Qed.
Print Assumptions C41_device_keeps_the_given_values.
Theorem C41_los_accepted_iff_in_range : forall kw, (exists o, los_params kw = Ok o) <-> los_ok (setting los_defaults kw).
Proof. exact los_iff. Qed.
Print Assumptions C41_los_accepted_iff_in_range.
Theorem C41_los_refused_with_configuration_error : forall kw, los_typed (setting los_defaults kw) -> ~ los_ok (setting los_defaults kw) -> los_params kw = Err ConfigExn.
Proof. exact los_rejected. Qed.
Print Assumptions C41_los_refused_with_configuration_error.
Theorem C41_los_keeps_the_given_values : forall kw o, los_params kw = Ok o ->
  (forall k, In k (map fst los_args) -> k <> "device_list" -> attribute o k (setting los_defaults kw k)) /\
  exists l l', setting los_defaults kw "device_list" = VList l /\ attribute o "device_list" (VList l') /\ Forall2 (with_project (setting los_defaults kw)) l l'.
Proof. exact los_values. Qed.
Print Assumptions C41_los_keeps_the_given_values.
Theorem C41_optimizer_accepted_iff_in_range : forall kw, (exists o, optimizer_params kw = Ok o) <-> optimizer_ok (setting optimizer_defaults kw).
Proof. exact optimizer_iff. Qed.
Print Assumptions C41_optimizer_accepted_iff_in_range.
Theorem C41_optimizer_refused_with_planner_error : forall kw, optimizer_typed (setting optimizer_defaults kw) -> ~ optimizer_ok (setting optimizer_defaults kw) ->
  optimizer_params kw = Err ConfigExn \/
  optimizer_params kw = Err PlannerExn /\ ~ range (setting optimizer_defaults kw "availability_max_time") (fun x => (0 < x)%Q) \/
  optimizer_params kw = Err DataExn /\ ~ extension ["kml"; "kmz"; "zip"] (setting optimizer_defaults kw "candidate_topology_file_path").
Proof. exact optimizer_rejected. Qed.
Print Assumptions C41_optimizer_refused_with_planner_error.
Theorem C41_optimizer_keeps_the_given_values : forall kw o, optimizer_params kw = Ok o ->
  (forall k, In k (map fst opt_args) -> k <> "device_list" -> attribute o k (setting optimizer_defaults kw k)) /\
  exists l l', setting optimizer_defaults kw "device_list" = VList l /\ attribute o "device_list" (VList l') /\ Forall2 (with_project (setting optimizer_defaults kw)) l l'.
Proof. exact optimizer_values. Qed.
Print Assumptions C41_optimizer_keeps_the_given_values.
Example C41_accepted : sector_params no_files [] = Ok sector0 /\ device_data [("device_sku", VStr "DN-1"); ("sector_params", sector0)] = Ok device0 /\
  optimizer_params [("device_list", VList [device0; device1])] = Ok optimizer0 /\ los_params [("device_list", VList [device0; device1])] = Ok los0 /\
  sector_params no_files [("carrier_frequency", VNum 0)] = Err ConfigExn.
Proof. split; [exact sector0_ok|]. split; [exact device0_ok|]. split; [exact optimizer0_ok|]. split; [exact los0_ok|]. vm_compute. reflexivity. Qed.

(** *** files *)
(** whatever the radio section says, an accepted file has project-wide radio parameters in their ranges and every device uses them *)
Theorem C41_files_give_checked_radio_parameters : forall rf name data o, file_value data -> In name ["OPTIMIZATION"; "LINE_OF_SIGHT"] -> struct_objects rf name data = Ok o -> checked o.
Proof. exact file_radio. Qed.
Print Assumptions C41_files_give_checked_radio_parameters.
Theorem C41_unknown_fields_are_reported : forall data, detect_typo data template = Ok tt <-> legal data template.
Proof. exact template_typo. Qed.
Print Assumptions C41_unknown_fields_are_reported.
Theorem C41_accepted_files_have_known_fields_only : forall rf name data o, struct_objects rf name data = Ok o -> legal data template.
Proof. exact accepted_legal. Qed.
Print Assumptions C41_accepted_files_have_known_fields_only.
Example C41_file : (exists o, struct_objects no_files "OPTIMIZATION" file0 = Ok o /\ value_of o "budget" = VNum 7 /\ value_of o "rain_rate" = VNum 50) /\
  (exists o, struct_objects no_files "LINE_OF_SIGHT" file0 = Ok o /\ value_of o "fresnel_radius" = VNum 2 /\ value_of o "rain_rate" = VNum 50).
Proof. split; [exact file0_read|exact file0_los]. Qed.
Example C41_misspelt : struct_objects no_files "OPTIMIZATION" (VDict [("RADIO", VDict [sku "DN-1"; ("RAIN_RAT", VNum 50)]); ("NETWORK_DESIGN", VDict [])]) = Err ConfigExn.
Proof. exact file0_typo. Qed.
(** a field name with a blank behind it is accepted, and its value is dropped *)
Theorem C41_accepted_fields_are_used_refuted : exists o, struct_objects no_files "OPTIMIZATION" (VDict [("RADIO", VDict [sku "DN-1"; ("RAIN_RATE ", VNum 50)]); ("NETWORK_DESIGN", VDict [])]) = Ok o /\ value_of o "rain_rate" = VNum 30.
Proof. exact stray_blank. Qed.
Print Assumptions C41_accepted_fields_are_used_refuted.
(** so is a section in lower case *)
Theorem C41_accepted_sections_are_used_refuted : exists o, struct_objects no_files "SYSTEM" (VDict [("system", VDict [("output_dir", VStr "/tmp")])]) = Ok o /\ value_of o "output_dir" = VStr "./".
Proof. exact lower_section. Qed.
Print Assumptions C41_accepted_sections_are_used_refuted.

(** *** dictionaries *)
Theorem C41_optimizer_survives_a_dictionary : forall rf kw o l, reads_tables rf -> optimizer_params kw = Ok o -> setting optimizer_defaults kw "device_list" = VList l ->
  devices_plain rf (setting optimizer_defaults kw) l -> optimizer_plain (setting optimizer_defaults kw) -> exists d, to_dict o = Ok (VDict d) /\ optimizer_from rf d = Ok o.
Proof. exact optimizer_trip. Qed.
Print Assumptions C41_optimizer_survives_a_dictionary.
Theorem C41_los_survives_a_dictionary : forall rf kw o l, reads_tables rf -> los_params kw = Ok o -> setting los_defaults kw "device_list" = VList l ->
  devices_plain rf (setting los_defaults kw) l -> los_plain (setting los_defaults kw) -> exists d, to_dict o = Ok (VDict d) /\ los_from rf d = Ok o.
Proof. exact los_trip. Qed.
Print Assumptions C41_los_survives_a_dictionary.
Example C41_plain : reads_tables no_files /\ devices_plain no_files (setting optimizer_defaults [("device_list", VList [device0; device1])]) [device0; device1] /\
  optimizer_plain (setting optimizer_defaults [("device_list", VList [device0; device1])]) /\ los_plain (setting los_defaults [("device_list", VList [device0; device1])]).
Proof. exact examples_plain. Qed.
(** not with a pattern file *)
Theorem C41_pattern_files_refuted : exists o, sector_params all_files [("antenna_pattern_file_path", VStr "pattern.txt")] = Ok o /\ to_dict o = Err PlannerExn.
Proof. exact pattern_to_dict. Qed.
Print Assumptions C41_pattern_files_refuted.
(** not with a null where the default is something else: "no limit" becomes 200 m *)
Theorem C41_null_distance_refuted : exists o d o', los_params [("device_list", VList [device0]); ("maximum_los_distance", VNone)] = Ok o /\ to_dict o = Ok (VDict d) /\ los_from no_files d = Ok o' /\
  value_of o "maximum_los_distance" = VNone /\ value_of o' "maximum_los_distance" = VNum 200.
Proof. exact null_distance. Qed.
Print Assumptions C41_null_distance_refuted.

(** *** equality *)
Theorem C41_equal_to_itself : forall n v, ConfSpec.nested n v -> eq_ n v v = Ok (Some true).
Proof. exact eq_self. Qed.
Print Assumptions C41_equal_to_itself.
(** what a positive answer guarantees: the leading simple attributes agree *)
Theorem C41_equal_objects_agree_partial : forall n c x y pre k v post, eq_ n (VObj c x) (VObj c y) = Ok (Some true) -> x = pre ++ (k, v) :: post ->
  (forall k' v', In (k', v') pre -> simple v' \/ exists l, v' = VList l) -> simple v -> exists w, dget y k = Some w /\ same_value v w.
Proof. exact eq_leading. Qed.
Print Assumptions C41_equal_objects_agree_partial.
Theorem C41_equal_optimizers_agree_refuted : exists a b, optimizer_params [("device_list", VList [device0])] = Ok a /\ optimizer_params [("device_list", VList [device0]); ("demand", VNum 1)] = Ok b /\
  equals 5 a b = Ok true /\ equals 5 b a = Ok true /\ value_of a "demand" <> value_of b "demand".
Proof. exact differ_in_demand. Qed.
Print Assumptions C41_equal_optimizers_agree_refuted.
Theorem C41_equal_devices_agree_refuted : exists a b, device_data [("device_sku", VStr "A"); ("sector_params", sector0)] = Ok a /\ device_data [("device_sku", VStr "A"); ("sector_params", sector0); ("node_capex", VNum 9)] = Ok b /\
  equals 5 a b = Ok true /\ equals 5 b a = Ok true /\ value_of a "node_capex" <> value_of b "node_capex".
Proof. exact differ_in_capex. Qed.
Print Assumptions C41_equal_devices_agree_refuted.
(** one device against two: equal in one direction, an IndexError in the other *)
Theorem C41_equality_is_symmetric_refuted : exists a b, los_params [("device_list", VList [device1])] = Ok a /\ los_params [("device_list", VList [device0; device1])] = Ok b /\ equals 5 a b = Ok true /\ equals 5 b a = Err PyIndexError.
Proof. exact longer_list. Qed.
Print Assumptions C41_equality_is_symmetric_refuted.
Example C41_nested : ConfSpec.nested 4 optimizer0 /\ ConfSpec.nested 4 los0.
Proof. exact examples_nested. Qed.

(** *** accepted values that cannot be used *)
Theorem C41_zero_scan_range_refuted : exists o, sector_params no_files [("horizontal_scan_range", VNum 0)] = Ok o /\ value_of o "horizontal_scan_range" = VNum 0.
Proof. exact zero_scan_range. Qed.
Print Assumptions C41_zero_scan_range_refuted.
Theorem C41_time_limits_are_positive_refuted : exists o, optimizer_params [("device_list", VList [device0]); ("max_coverage_max_time", VNum (-5))] = Ok o /\ value_of o "max_coverage_max_time" = VNum (-5).
Proof. exact negative_time. Qed.
Print Assumptions C41_time_limits_are_positive_refuted.
Theorem C41_project_parameters_are_checked_refuted : exists o d s, los_params [("device_list", VList [device0]); ("rain_rate", VNum (-1))] = Ok o /\ attribute o "device_list" (VList [d]) /\ attribute d "sector_params" s /\ value_of s "rain_rate" = VNum (-1).
Proof. exact project_unchecked. Qed.
Print Assumptions C41_project_parameters_are_checked_refuted.
Theorem C41_dictionaries_give_checked_radio_parameters_refuted : exists d o, optimizer_from no_files [("DEVICE_LIST", VList [VDict [("DEVICE_SKU", VStr "A"); ("SECTOR_PARAMS", VDict [("RAIN_RATE", VNum 10)])]]); ("RAIN_RATE", VNum (-1))] = Ok o /\
  attribute o "device_list" (VList [d]) /\ value_of (value_of d "sector_params") "rain_rate" = VNum (-1).
Proof. exact hidden_rain. Qed.
Print Assumptions C41_dictionaries_give_checked_radio_parameters_refuted.
Theorem C41_accepted_never_breaks_arithmetic_refuted : exists kw o rain avail mhz, sector_params no_files kw = Ok o /\
  value_of o "rain_rate" = VNum rain /\ value_of o "link_availability_percentage" = VNum avail /\ value_of o "carrier_frequency" = VNum mhz /\
  forall d, (0 < d <= 10)%R -> compute_rain_loss d (Q2R rain) (Q2R avail) (Q2R mhz) = Err PyValueError.
Proof. exact availability_breaks_budget. Qed.
Print Assumptions C41_accepted_never_breaks_arithmetic_refuted.

(** C41: a member of an enum may be given by its name in upper or lower case, and nothing else is taken for it *)
Theorem C41_enum_names_in_any_case : forall c s m, from_string c (VStr s) = Ok (VEnum c m) <-> In m (enum_names c) /\ spelling s m.
Proof. exact enum_by_name. Qed.
Print Assumptions C41_enum_names_in_any_case.

Theorem C41_unknown_enum_names_refused : forall c s, (forall m, In m (enum_names c) -> ~ spelling s m) -> from_string c (VStr s) = Err PyKeyError.
Proof. exact enum_unknown. Qed.
Print Assumptions C41_unknown_enum_names_refused.
